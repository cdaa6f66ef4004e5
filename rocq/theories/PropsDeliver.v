(** * PropsDeliver: traffic is handed to zigpy completely, once and in order (C154) *)
From Verif Require Import Base Types Uart Buffalo CmdTable Zpi Api App Machine SpecWire SpecCodec SpecApi SpecMachine SpecTrace SpecFirst
  PropsApp PropsMachine PropsMachine5 PropsBlame SpecDeliver DeliverProofs.

(** ** C154.  What zigpy was handed (but for the light) is what the messages received lead to, one after the other: every message leads
    to what [handed] says, with the device table as the announcements before it made it, and nothing else is handed over.  A reply
    is handed over under the number of a request that it was attributed to. *)
Theorem C154_all_in_order : forall cap v d es, let s := run es (init cap (Some v) d true) in
  fields_exist s -> in_order (attributed s) d (got (s_log s)) (traffic (effects (s_log s))).
Proof. exact all_handed. Qed.
Print Assumptions C154_all_in_order.

(** And the messages received are those in the bytes that arrived, however these were cut up, if nothing was raised. *)
Theorem C154_stream : forall cap v d a es, let s := run es (init cap v d a) in (forall e, ~ In (ORaised e) (s_log s)) ->
  exists fs, parser_run [] (arrived es) = (s_buf s, map Ok fs) /\ map from_unpi_frame fs = map Ok (got (s_log s)).
Proof. exact bytes_messages. Qed.
Print Assumptions C154_stream.

(** The run of C40: two messages, the first from a known device, the second from a stranger, who then joins and sends it again; all in
    one piece. *)
Definition lit_stream : list event := [ECall (lit_desc_req 7); ERun 0; ERecv (lit_incoming 4660 ++ lit_incoming 999 ++ firstn 9 lit_joins); ERecv (skipn 9 lit_joins ++ lit_incoming 999 ++ wire_of lit_desc)].
Example C154_inhabited : let s := run lit_stream lit_start in
  fields_exist s /\ (forall e, ~ In (ORaised e) (s_log s)) /\ length (got (s_log s)) = 5%nat /\
  traffic (effects (s_log s)) =
    [EMsg [1; 2; 3; 4; 5; 6; 7; 8] 200 0 260 6 1 1 [24; 7; 1]; EJoin 999 [9; 9; 9; 9; 9; 9; 9; 9];
     EMsg [9; 9; 9; 9; 9; 9; 9; 9] 0 0 260 19 0 0 [0; 231; 3; 9; 9; 9; 9; 9; 9; 9; 9; 142]; EMsg [9; 9; 9; 9; 9; 9; 9; 9] 200 0 260 6 1 1 [24; 7; 1];
     EMsg [1; 2; 3; 4; 5; 6; 7; 8] 0 0 260 32770 0 0 (7 :: skipn 2 [52; 18; 0; 52; 18; 1; 64; 142; 0; 0; 80; 128; 0; 0; 0; 128; 0; 0])] /\
  s_buf s = [].
Proof.
  split; [apply bare_fields; vm_compute; reflexivity|]. split; [|vm_compute; repeat split; reflexivity]. intros e H.
  assert (X : existsb (fun x => match x with ORaised _ => true | _ => false end) (s_log (run lit_stream lit_start)) = false) by (vm_compute; reflexivity).
  apply Bool.not_true_iff_false in X. apply X. apply existsb_exists. exists (ORaised e). split; [exact H|reflexivity].
Qed.
