(** * PropsFirst: property C103, which message decides an operation *)
From Verif Require Import Base Types Uart Buffalo CmdTable Zpi Api App Machine SpecWire SpecMachine SpecFirst PropsApp PropsMachine PropsMachine2 MachineFirst.

(** ** C103.  An operation that sends a synchronous request and ends otherwise than by a time-out, a cancellation or a refusal to
    send is decided by the first response to its command that is received between its write and its release of the link. *)
Theorem C103_first_answer_decides : forall cap s t k o out, 0 <= cap -> reachable cap s -> fields_exist s -> get s t = Some k ->
  build (t_job k) = Ok o -> z_type o = SREQ -> In (OEnded t out) (s_log s) -> by_answer out ->
  exists at_ bs lb r, frame_bytes o bs /\ outstanding t at_ bs lb (s_log s) /\ first_in (response_to o) r lb /\ tells (t_job k) r out.
Proof. exact first_answer. Qed.
Print Assumptions C103_first_answer_decides.
(** A reset is decided by the first announcement. *)
Theorem C103_first_announcement_decides : forall cap s t k o out, 0 <= cap -> reachable cap s -> fields_exist s -> get s t = Some k ->
  build (t_job k) = Ok o -> z_type o = AREQ -> resets o -> In (OEnded t out) (s_log s) -> by_answer out ->
  exists at_ bs lb r, frame_bytes o bs /\ outstanding t at_ bs lb (s_log s) /\ first_in reset_ind r lb /\
    out = match t_job k with
          | JRequest _ _ _ _ _ _ _ _ | JMulticast _ _ _ _ _ _ | JBroadcast _ _ _ _ _ _ _ _ => OStatus 0
          | JPermit _ => ORet None
          | _ => ORet (Some r)
          end.
Proof.
  intros cap s t k o out Hc Hr Hx G B T R E By. destruct (first_reset cap s t k o out Hc Hr Hx G B T R E By) as (a & bs & lb & r & H1 & H2 & H3 & ->).
  exists a, bs, lb, r. repeat (split; [assumption|]). destruct (t_job k); reflexivity.
Qed.
Print Assumptions C103_first_announcement_decides.
(** Two different answers to one ping arrive before the coroutine runs again: the first is returned. *)
Definition lit_pong2 : frame := mk_frame SRSP SYS 1 [1; 2] None None.
Definition lit_two : st := run [ECall lit_ping; ERun 0; lit_got lit_pong; lit_got lit_pong2; ERun 0] lit_start.
Lemma lit_two_fields : fields_exist lit_two.
Proof.
  assert (J : map (fun x => (fst x, t_job (snd x))) (s_tasks lit_two) = [(0, lit_ping)]) by (vm_compute; reflexivity).
  unfold fields_exist, get. generalize dependent (s_tasks lit_two). intros l J t k m to r G Hj _. exfalso.
  destruct l as [|[u k1] [|]]; try discriminate J. cbn [map fst snd] in J. injection J as -> J. cbn [assoc] in G.
  destruct (0 =? t); [|discriminate G]. apply (f_equal (option_map t_job)) in G. cbn [option_map] in G. rewrite J, Hj in G. discriminate G.
Qed.
Example C103_inhabited : exists k o r1 r2, reachable 2 lit_two /\ fields_exist lit_two /\ get lit_two 0 = Some k /\ build (t_job k) = Ok o /\ z_type o = SREQ /\
  from_unpi_frame lit_pong = Ok r1 /\ from_unpi_frame lit_pong2 = Ok r2 /\ r1 <> r2 /\ In (OReceived r2) (s_log lit_two) /\ In (OEnded 0 (ORet (Some r1))) (s_log lit_two).
Proof.
  do 4 eexists. split; [unfold lit_two; apply lit_reachable|]. split; [exact lit_two_fields|].
  split; [vm_compute; reflexivity|]. split; [vm_compute; reflexivity|]. split; [reflexivity|]. split; [vm_compute; reflexivity|]. split; [vm_compute; reflexivity|].
  split; [discriminate|]. log_is l. split; unfold l; repeat (first [left; reflexivity|right]).
Qed.
