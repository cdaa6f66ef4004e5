(** * PropsWorldDeliver: traffic is handed to zigpy completely, once and in order, across losses of the connection (C155) *)
From Verif Require Import Base Types Uart Buffalo CmdTable Zpi Api App Machine Life World SpecWire SpecCodec SpecApi SpecMachine SpecTrace SpecFirst SpecWorld
  PropsApp PropsMachine PropsMachine5 PropsBlame PropsWorld SpecDeliver SpecWorldDeliver WorldDeliver.

(** ** C155.  From the moment when the application listens to API object [a] and knows the version, whatever happens: what [a] receives
    from then on leads to what zigpy is handed because of [a], message by message, each with the device table as everything before it
    made it (also what came from other sticks, and the start-ups); the table is what the log says; and as long as nothing is raised
    the messages are those in the bytes that arrived at [a]. *)
Theorem C155_all_in_order : forall w es a s, wreachable w -> nth_error (w_apis w) a = Some s -> s_app s = true -> w_version w <> None -> let w' := world_run es w in
  exists os l s', nth_error (w_apis w') a = Some s' /\ got (s_log s') = got (s_log s) ++ os /\ w_log w' = w_log w ++ l /\ s_app s' = true /\
    (fields_exist s' -> served a (replies_to w') (w_devs w) os (news l)) /\ w_devs w' = fold_left updated (news l) (w_devs w) /\
    ((forall e, ~ In (WRaised a e) l) -> exists fs, parser_run (s_buf s) (arrived_at a es) = (s_buf s', map Ok fs) /\ map from_unpi_frame fs = map Ok os).
Proof. exact world_handed. Qed.
Print Assumptions C155_all_in_order.
(** Before the application listens to it an API object leads to nothing. *)
Theorem C155_nothing_before : forall w a s e, wreachable w -> nth_error (w_apis w) a = Some s -> s_app s = false -> ~ In (WEffect a e) (w_log w).
Proof. exact nothing_before. Qed.
Print Assumptions C155_nothing_before.

(** A stranger sends something, to no avail; the connection is lost; on the new one (API object 1) a frame comes too early, then the
    stranger joins, its message comes over the old API object, and another one over the new one. *)
Definition lit_later : list wevent := [VReceive 0 (lit_incoming 999)] ++ lit_down ++
  [VLife (VGo 1 (Ok tt)); VReceive 1 (lit_incoming 4660); VLife (VGo 1 (Ok tt)); VGotVersion 1 0; VGotDevice 1 [5; 5; 5; 5; 5; 5; 5; 5] 0; VLife (VGo 1 (Ok tt));
   VReceive 1 lit_joins; VReceive 0 (lit_incoming 999); VReceive 1 (lit_incoming 999 ++ firstn 3 lit_joins)].
Example C155_inhabited : let w := lit_world lit_up in let w' := world_run lit_later w in
  wreachable w /\ (exists s, nth_error (w_apis w) 0 = Some s /\ s_app s = true /\ s_buf s = []) /\ w_version w = Some 0 /\
  news (w_log w') =
    [WAdded [5; 5; 5; 5; 5; 5; 5; 5] 0; WEffect 1 (EJoin 999 [9; 9; 9; 9; 9; 9; 9; 9]);
     WEffect 1 (EMsg [9; 9; 9; 9; 9; 9; 9; 9] 0 0 260 19 0 0 [0; 231; 3; 9; 9; 9; 9; 9; 9; 9; 9; 142]);
     WEffect 0 (EMsg [9; 9; 9; 9; 9; 9; 9; 9] 200 0 260 6 1 1 [24; 7; 1]); WEffect 1 (EMsg [9; 9; 9; 9; 9; 9; 9; 9] 200 0 260 6 1 1 [24; 7; 1])] /\
  map (fun s => (length (got (s_log s)), length (s_buf s), s_app s)) (w_apis w') = [(2%nat, 0%nat, true); (3%nat, 3%nat, true)] /\
  map s_app (w_apis (world_run (firstn 4 lit_later) w)) = [true; false].
Proof. split; [apply lit_world_reachable|]. vm_compute. split; [eexists; repeat split|]. repeat split; reflexivity. Qed.
