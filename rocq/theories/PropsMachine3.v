(** * PropsMachine3: exact behaviour of the request machine *)
From Verif Require Import Base Types Uart Buffalo CmdTable Zpi Api App Machine SpecWire SpecCodec SpecApi SpecMachine
  ApiProofs AppProofs PropsApp PropsMachine PropsMachine2
  MachineBase MachineInv3 MachineInv5 DispatchProofs MachineProofs MachineProofs2 MachineProofs3 MachineProofs4 MachineProofs5 MachineProofs6 MachineProofs7.

(** ** C65 *)
Theorem C65_completes_exactly_the_answered : forall cap s f o, 0 <= cap -> reachable cap s -> from_unpi_frame f = Ok o ->
  (forall w, In w (s_waiters s) -> has_fields (w_matcher w) o) ->
  let s' := fst (data_received s f) in
  exists pre post keep,
    offered o (s_waiters s) pre post /\
    s_waiters s' = filter keep (s_waiters s) /\
    (forall w, In w (s_waiters s) -> keep w = false <-> In w pre /\ answers (w_matcher w) o) /\
    (forall w, In w pre -> answers (w_matcher w) o -> s_futs s' (w_id w) =
       match s_futs s (w_id w) with FPending => FDone o | FDone x => FDone x | FCancelled => FCancelled end) /\
    (forall i, (forall w, In w pre -> answers (w_matcher w) o -> w_id w <> i) -> s_futs s' i = s_futs s i) /\
    exists ids, completions (s_log s') = completions (s_log s) ++ ids /\ increasing ids /\
      forall i, In i ids <-> exists w, In w pre /\ answers (w_matcher w) o /\ w_id w = i.
Proof. exact message_completes. Qed.
Print Assumptions C65_completes_exactly_the_answered.
Example C65_inhabited :
  let s := run [ECall (lit_desc_req 0); ERun 0; ECall (lit_desc_req 8); ERun 1; lit_got lit_accepted; ERun 0; ERun 1; ECall (lit_desc_req 9); ERun 2] lit_start in
  map w_seq (s_waiters s) = [Some 0; Some 8; None; Some 9] /\
  map w_seq (s_waiters (fst (data_received s lit_desc))) = [None; Some 9].
Proof. vm_compute. split; reflexivity. Qed.

(** ** C66 *)
Theorem C66_admission_bounded : forall product s, reachable (concurrent product) s ->
  Z.of_nat (length (active (s_log s))) <= (if product =? 1 then 16 else 2) /\ NoDup (active (s_log s)).
Proof. exact C36_admission_bounded_partial. Qed.
Print Assumptions C66_admission_bounded.
Theorem C66_slots_returned : forall cap s, 0 <= cap -> reachable cap s ->
  Z.of_nat (length (active (s_log s))) + s_sem s = cap /\
  forall t, In t (active (s_log s)) <-> exists k, get s t = Some k /\ uses_sem (t_job k) = true /\
    match t_phase k with PLock | PWait _ _ | PSleep _ => True | _ => False end.
Proof. exact C36_slots_returned_partial. Qed.
Print Assumptions C66_slots_returned.
(** With a free slot a waiting operation is admitted when it runs. *)
Theorem C66_admitted : forall cap s t k, 0 <= cap -> reachable cap s -> get s t = Some k -> t_phase k = PSem ->
  uses_sem (t_job k) = true -> Z.of_nat (length (active (s_log s))) < cap ->
  exists l, s_log (step (ERun t) s) = s_log s ++ OAdmitted t :: l.
Proof. exact admitted_when_free. Qed.
Print Assumptions C66_admitted.
Example C66_inhabited :
  let s := run [ECall (lit_desc_req 7); ERun 0; ECall (JPermit 60); ERun 1; ECall (JMulticast 5 260 6 1 9 [1; 9; 2]); ERun 2] lit_start in
  active (s_log s) = [0; 1] /\ active (s_log (step (ERun 2) s)) = [0; 1] /\ active (s_log (run [ECancel 1; ERun 2] s)) = [0; 2].
Proof. vm_compute. repeat split. Qed.

(** ** C67 *)
Theorem C67_matching_never_raises : forall cap s f r w, 0 <= cap -> reachable cap s -> bytes_ok (f_data f) -> from_unpi_frame f = Ok r ->
  (forall t k m to, get s t = Some k -> t_job k = JWaitFor m to -> has_fields m r) ->
  In w (s_waiters s) -> exists b, waiter_match (w_matcher w) r = Ok b.
Proof. exact never_raises. Qed.
Print Assumptions C67_matching_never_raises.
Example C67_inhabited :
  let s := run [ECall (lit_desc_req 7); ERun 0; ECall lit_ping; ERun 1] lit_start in
  exists r, from_unpi_frame lit_desc = Ok r /\ map (fun w => waiter_match (w_matcher w) r) (s_waiters s) = [Ok true; Ok false].
Proof. eexists. split; [vm_compute; reflexivity|]. vm_compute. reflexivity. Qed.

(** ** C68 *)
Theorem C68_written_at_once : forall cap s t k o x bs, 0 <= cap -> reachable cap s -> get s t = Some k -> t_phase k = PStart ->
  build (t_job k) = Ok o -> response_waiter (t_job k) o = Ok x -> frame_bytes o bs -> z_type o = SREQ \/ z_type o = AREQ ->
  s_open s = true -> holder (s_log s) = None -> waiting (s_log s) = [] -> Z.of_nat (length (active (s_log s))) < cap ->
  s_wire (step (ERun t) s) = s_wire s ++ [bs].
Proof. exact start_writes. Qed.
Print Assumptions C68_written_at_once.
Example C68_inhabited :
  let s := run [ECall (lit_desc_req 7)] lit_start in
  s_open s = true /\ holder (s_log s) = None /\ waiting (s_log s) = [] /\
  s_wire (step (ERun 0) s) = [[254; 4; 37; 2; 52; 18; 52; 18; 35]].
Proof. vm_compute. repeat split. Qed.

(** ** C69 *)
Theorem C69_answer_returned : forall cap s t k i d o f r, 0 <= cap -> reachable cap s ->
  get s t = Some k -> t_phase k = PWait i d -> t_obj k = Some o -> z_type o = SREQ ->
  s_futs s i = FPending -> s_now s < d + 100 ->
  sendable f -> f_data f <> [] -> s_buf s = [] -> from_unpi_frame (received f) = Ok r -> response_to o r ->
  nobody_waits_for SRSP (z_sub o) (z_cmd o) s ->
  (forall v, status_of r = Some v -> exists c, v = VInt c /\ expects (t_job k) c) ->
  (exists sub cmd d e, t_job k = JCommand sub cmd d e) ->
  let s1 := step (ERecv (wire_of f)) s in
  s_log (step (ERun t) s1) = s_log s1 ++ [OFreed t; OEnded t (ORet (Some r))].
Proof.
  intros cap s t k i d o f r Hc Hr G Hp Ho Ht Hf Hn Hs Hd Hb Hfr Hres Hno Hst (sub & cmd & dd & e & Hj) s1.
  destruct (answer_delivered cap s t k i d o f r Hc Hr G Hp Ho Ht Hf Hn Hs Hd Hb Hfr Hres Hno) as [F T].
  destruct (accepted_step s1 t k i d o r T Hp Ho F (fun _ => Hst)) as (_ & _ & _ & H). rewrite Hj in H. exact H.
Qed.
Print Assumptions C69_answer_returned.
Example C69_inhabited :
  let s := run [ECall lit_ping; ERun 0] lit_start in
  exists k o r, get s 0 = Some k /\ t_phase k = PWait 0 6000 /\ t_obj k = Some o /\ z_type o = SREQ /\ s_futs s 0 = FPending /\
    s_buf s = [] /\ from_unpi_frame (received lit_pong) = Ok r /\ response_to o r /\ status_of r = None.
Proof. vm_compute. do 3 eexists. repeat (split; [reflexivity|]). repeat split. Qed.

(** ** C70 *)
Theorem C70_refusal_reported : forall s t k i d o r c,
  get s t = Some k -> t_phase k = PWait i d -> t_obj k = Some o -> z_type o = SREQ ->
  s_futs s i = FDone r -> status_of r = Some (VInt c) -> ~ expects (t_job k) c ->
  (forall w, t_wid k = Some w -> exists x, In x (s_waiters s) /\ w_id x = w) ->
  let s' := step (ERun t) s in
  In (OEnded t (reported (t_job k) c)) (s_log s') /\ get s' t = Some (at_end k (reported (t_job k) c)) /\
  forall w, t_wid k = Some w ->
    In (OCompleted w r) (s_log s') /\ (forall x, In x (s_waiters s') -> w_id x <> w) /\
    (s_futs s w = FPending -> s_futs s' w = FDone r).
Proof. exact refused_reported. Qed.
Print Assumptions C70_refusal_reported.
Theorem C70_refusal_lost : forall s t k i d o r c w,
  get s t = Some k -> t_phase k = PWait i d -> t_obj k = Some o -> z_type o = SREQ ->
  s_futs s i = FDone r -> status_of r = Some (VInt c) -> ~ expects (t_job k) c ->
  t_wid k = Some w -> (forall x, In x (s_waiters s) -> w_id x <> w) ->
  s_log (step (ERun t) s) = s_log s ++ [OFreed t; OEnded t (OExn KeyError)].
Proof. exact refused_lost. Qed.
Print Assumptions C70_refusal_lost.
Example C70_inhabited :
  let s := run [ECall lit_ping; ERun 0; ETick 5000; ECall lit_ping; ERun 1; ECall (lit_desc_req 7); ERun 2; ETick 1000;
    ETimeout 0; ERun 1; ETick 6000; ETimeout 1; ERun 2; ETick 5900; lit_got lit_denied] lit_start in
  (exists k, get (step (ERun 2) s) 2 = Some k /\ t_phase k = PDone (OStatus 194)) /\
  (exists k, get (run [ECleanup 1; ERun 2] s) 2 = Some k /\ t_phase k = PDone (OExn KeyError)).
Proof. vm_compute. split; eexists; split; reflexivity. Qed.

(** ** C71 *)
Theorem C71_only_whole_frames_of_requests : forall cap s, 0 <= cap -> reachable cap s ->
  s_wire s = written_bytes (s_log s) /\ NoDup (writers (s_log s)) /\
  forall t at_ bs, In (OWritten t at_ bs) (s_log s) -> at_ <= s_now s /\
    exists k o, get s t = Some k /\ build (t_job k) = Ok o /\ (z_type o = SREQ \/ z_type o = AREQ) /\ frame_bytes o bs.
Proof.
  intros cap s Hc Hr. pose proof (reachable_inv cap s Hc Hr) as HI. destruct (I_wrote _ _ HI) as [W1 W2].
  split; [exact W1|]. split; [|exact W2]. apply writers_nodup, (I_life _ _ HI).
Qed.
Print Assumptions C71_only_whole_frames_of_requests.
Example C71_inhabited :
  let s := run [ECall (lit_desc_req 7); ERun 0; ECall lit_ping; ERun 1; ECancel 0; ERun 1] lit_start in
  s_wire s = [[254; 4; 37; 2; 52; 18; 52; 18; 35]; [254; 0; 33; 1; 32]] /\ writers (s_log s) = [0; 1].
Proof. vm_compute. split; reflexivity. Qed.
