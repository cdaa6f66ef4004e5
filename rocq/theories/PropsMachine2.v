(** * PropsMachine2: properties of answers, error statuses, admission, time limits, resets and sending *)
From Verif Require Import Base Types Uart Buffalo CmdTable Zpi Api App Machine SpecWire SpecCodec SpecApi SpecMachine
  ApiProofs AppProofs PropsApp PropsMachine
  MachineBase MachineInv3 MachineInv5 DispatchProofs MachineProofs MachineProofs2 MachineProofs3 MachineProofs4 MachineProofs5 MachineProofs6 MachineProofs7.

(** replace the history of a literal run by its value *)
Ltac log_is l :=
  match goal with |- context [s_log ?s] =>
    let v := eval vm_compute in (s_log s) in
    pose (l := v); replace (s_log s) with l by (vm_compute; reflexivity) end.

(** ** C33 *)
Theorem C33_own_answer : forall cap s t k o r, 0 <= cap -> reachable cap s -> get s t = Some k ->
  build (t_job k) = Ok o -> z_type o = SREQ -> In (OEnded t (ORet (Some r))) (s_log s) ->
  response_to o r /\
  (forall v, status_of r = Some v -> exists c, v = VInt c /\ expects (t_job k) c) /\
  exists at_ bs lb, frame_bytes o bs /\ outstanding t at_ bs lb (s_log s) /\ In (OReceived r) lb.
Proof. exact own_answer. Qed.
Print Assumptions C33_own_answer.
Example C33_inhabited : exists r,
  let s := run [ECall lit_ping; ERun 0; lit_got lit_pong; ERun 0] lit_start in
  from_unpi_frame lit_pong = Ok r /\ In (OEnded 0 (ORet (Some r))) (s_log s).
Proof. eexists. split; [vm_compute; reflexivity|]. vm_compute. repeat (first [left; reflexivity|right]). Qed.

(** ** C34.  Missing from the full claim: if the waiter for the final reply was already cleaned up, the
    caller gets a KeyError instead (see the refutation). *)
Theorem C34_reported_partial : forall s t k i d o r c,
  get s t = Some k -> t_phase k = PWait i d -> t_obj k = Some o -> z_type o = SREQ ->
  s_futs s i = FDone r -> status_of r = Some (VInt c) -> ~ expects (t_job k) c ->
  (forall w, t_wid k = Some w -> exists x, In x (s_waiters s) /\ w_id x = w) ->
  let s' := step (ERun t) s in
  In (OEnded t (reported (t_job k) c)) (s_log s') /\ get s' t = Some (at_end k (reported (t_job k) c)) /\
  forall w, t_wid k = Some w ->
    In (OCompleted w r) (s_log s') /\ (forall x, In x (s_waiters s') -> w_id x <> w) /\
    (s_futs s w = FPending -> s_futs s' w = FDone r).
Proof. exact refused_reported. Qed.
Print Assumptions C34_reported_partial.
(** The same from the bytes on: a request waits, the stick's refusal arrives, the request runs. *)
Theorem C34_end_to_end_partial : forall cap s t k i d o f r c, 0 <= cap -> reachable cap s ->
  get s t = Some k -> t_phase k = PWait i d -> t_obj k = Some o -> z_type o = SREQ ->
  s_futs s i = FPending -> s_now s < d + 100 ->
  sendable f -> f_data f <> [] -> s_buf s = [] -> from_unpi_frame (received f) = Ok r -> response_to o r ->
  nobody_waits_for SRSP (z_sub o) (z_cmd o) s ->
  status_of r = Some (VInt c) -> ~ expects (t_job k) c ->
  let s1 := step (ERecv (wire_of f)) s in
  (forall w, t_wid k = Some w -> exists x, In x (s_waiters s1) /\ w_id x = w) ->
  get (step (ERun t) s1) t = Some (at_end k (reported (t_job k) c)).
Proof.
  intros cap s t k i d o f r c Hc Hr G Hp Ho Ht Hf Hn Hs Hd Hb Hfr Hres Hno Hst Hex s1 Hw.
  destruct (answer_delivered cap s t k i d o f r Hc Hr G Hp Ho Ht Hf Hn Hs Hd Hb Hfr Hres Hno) as [F T].
  exact (proj1 (proj2 (refused_reported s1 t k i d o r c T Hp Ho Ht F Hst Hex Hw))).
Qed.
Print Assumptions C34_end_to_end_partial.
(** A request that waited for the link until its reply waiter was cleaned up, and is then refused with
    status 194: the caller gets a KeyError. *)
Theorem C34_keyerror_refuted : exists s r, reachable 2 s /\
  status_of r = Some (VInt 194) /\ In (OReceived r) (s_log s) /\
  z_cmd r = "nodeDescReq" /\ In (OEnded 2 (OExn KeyError)) (s_log s) /\ forall c, ~ In (OEnded 2 (reported (lit_desc_req 7) c)) (s_log s).
Proof.
  exists (run [ECall lit_ping; ERun 0; ETick 5000; ECall lit_ping; ERun 1; ECall (lit_desc_req 7); ERun 2; ETick 1000;
    ETimeout 0; ERun 1; ETick 6000; ETimeout 1; ERun 2; ETick 5900; ECleanup 1; lit_got lit_denied; ERun 2] lit_start).
  exists (mk_zpi SRSP ZDO "nodeDescReq" 2 [("status", VInt 194)] [("status", UINT8)] None). split; [apply lit_reachable|].
  split; [reflexivity|]. log_is l. 
  split; [unfold l; repeat (first [left; reflexivity|right])|]. split; [reflexivity|].
  split; [unfold l; repeat (first [left; reflexivity|right])|].
  intros c H. unfold l in H. repeat (destruct H as [H|H]; [discriminate H|]). exact H.
Qed.
Print Assumptions C34_keyerror_refuted.
Example C34_inhabited :
  let s := run [ECall (lit_desc_req 7); ERun 0] lit_start in
  let s1 := step (lit_got lit_denied) s in
  exists k o r, get s 0 = Some k /\ t_phase k = PWait 1 6000 /\ t_obj k = Some o /\ z_type o = SREQ /\ s_futs s 1 = FPending /\
    from_unpi_frame (received lit_denied) = Ok r /\ response_to o r /\ status_of r = Some (VInt 194) /\ ~ expects (t_job k) 194 /\
    t_wid k = Some 0 /\ map w_id (s_waiters s1) = [0] /\ s_futs s1 1 = FDone r /\ map w_id (s_waiters (step (ERun 0) s1)) = [].
Proof. vm_compute. do 3 eexists. repeat (split; [reflexivity|]). split; [repeat split|]. split; [reflexivity|]. split; [discriminate|]. repeat split. Qed.

(** ** C35.  What holds: only a response to the same command is ever taken.  The claim itself is false:
    whatever timed out before, the next response to the command completes the request that waits. *)
Theorem C35_same_command_only_partial : forall cap s t k o r, 0 <= cap -> reachable cap s -> get s t = Some k ->
  build (t_job k) = Ok o -> z_type o = SREQ -> In (OEnded t (ORet (Some r))) (s_log s) -> response_to o r.
Proof. intros cap s t k o r Hc Hr G B T H. exact (proj1 (own_answer cap s t k o r Hc Hr G B T H)). Qed.
Print Assumptions C35_same_command_only_partial.
Theorem C35_any_response_taken_refuted : forall cap s t k i d o f r, 0 <= cap -> reachable cap s ->
  get s t = Some k -> t_phase k = PWait i d -> t_obj k = Some o -> z_type o = SREQ ->
  s_futs s i = FPending -> s_now s < d + 100 ->
  sendable f -> f_data f <> [] -> s_buf s = [] -> from_unpi_frame (received f) = Ok r -> response_to o r ->
  nobody_waits_for SRSP (z_sub o) (z_cmd o) s ->
  s_futs (step (ERecv (wire_of f)) s) i = FDone r.
Proof. intros. eapply answer_delivered; eassumption. Qed.
Print Assumptions C35_any_response_taken_refuted.
(** Two pings, one answer.  The first ping timed out; the late answer is returned by the second. *)
Theorem C35_late_answer_taken_refuted : exists s r, reachable 2 s /\
  In (OEnded 0 (OExn TimeoutError)) (s_log s) /\ In (OEnded 1 (ORet (Some r))) (s_log s) /\
  length (written_bytes (s_log s)) = 2%nat /\ filter (fun x => match x with OReceived _ => true | _ => false end) (s_log s) = [OReceived r].
Proof.
  exists (run [ECall lit_ping; ERun 0; ETick 6000; ETimeout 0; ECall lit_ping; ERun 1; lit_got lit_pong; ERun 1] lit_start).
  exists (mk_zpi SRSP SYS "ping" 1 [("capabilities", VInt 377)] [("capabilities", UINT16)] None).
  split; [apply lit_reachable|]. log_is l.
  split; [unfold l; repeat (first [left; reflexivity|right])|]. split; [unfold l; repeat (first [left; reflexivity|right])|].
  split; reflexivity.
Qed.
Print Assumptions C35_late_answer_taken_refuted.
Example C35_inhabited :
  let s := run [ECall lit_ping; ERun 0; ETick 6000; ETimeout 0; ECall lit_ping; ERun 1] lit_start in
  exists k o r, get s 1 = Some k /\ t_phase k = PWait 1 12000 /\ t_obj k = Some o /\ z_type o = SREQ /\ s_futs s 1 = FPending /\
    s_buf s = [] /\ from_unpi_frame (received lit_pong) = Ok r /\ response_to o r.
Proof. vm_compute. do 3 eexists. repeat (split; [reflexivity|]). repeat split. Qed.

(** ** C36.  Everything but the order of admission; that is false, a newcomer may take a slot that was just
    freed before the longest-waiting operation runs. *)
Theorem C36_admission_bounded_partial : forall product s, reachable (concurrent product) s ->
  Z.of_nat (length (active (s_log s))) <= (if product =? 1 then 16 else 2) /\ NoDup (active (s_log s)).
Proof.
  intros product s Hr. assert (Hc : 0 <= concurrent product) by (unfold concurrent; destruct (product =? zStack3x0); lia).
  pose proof (reachable_inv _ s Hc Hr) as HI. destruct (I_active _ _ HI) as (N & _ & E). destruct (I_sem _ _ HI) as (_ & P).
  split; [|exact N]. unfold concurrent, zStack3x0 in E. destruct (product =? 1); lia.
Qed.
Print Assumptions C36_admission_bounded_partial.
(** Exactly the application's operations that wait for the link, hold it or settle are counted; every
    other slot is free. *)
Theorem C36_slots_returned_partial : forall cap s, 0 <= cap -> reachable cap s ->
  Z.of_nat (length (active (s_log s))) + s_sem s = cap /\
  forall t, In t (active (s_log s)) <-> exists k, get s t = Some k /\ uses_sem (t_job k) = true /\
    match t_phase k with PLock | PWait _ _ | PSleep _ => True | _ => False end.
Proof.
  intros cap s Hc Hr. destruct (I_active _ _ (reachable_inv cap s Hc Hr)) as (_ & A & E). split; [exact E|].
  intro t. rewrite A. split; intros (k & G & H); exists k; (split; [exact G|]).
  - apply andb_true_iff in H as [H1 H2]. split; [exact H1|]. pose proof (reachable_rests cap s Hc Hr) as R.
    specialize (R t k G). destruct (t_phase k); try discriminate H2; try discriminate R; exact I.
  - destruct H as [H1 H2]. rewrite H1. destruct (t_phase k); try contradiction; reflexivity.
Qed.
Print Assumptions C36_slots_returned_partial.
Theorem C36_overtaken_refuted : exists s, reachable (concurrent 2) s /\
  (exists k, get s 2 = Some k /\ t_phase k = PSem) /\ active (s_log s) = [1; 3].
Proof.
  exists (run [ECall (lit_desc_req 7); ERun 0; ECall (lit_desc_req 8); ERun 1; ECall (lit_desc_req 9); ERun 2; ECall (lit_desc_req 10);
    ECancel 0; ERun 3; ERun 2] lit_start).
  split; [apply lit_reachable|]. split; [eexists; split; vm_compute; reflexivity|]. vm_compute. reflexivity.
Qed.
Print Assumptions C36_overtaken_refuted.
Example C36_inhabited :
  let s := run [ECall (lit_desc_req 7); ERun 0; ECall (lit_desc_req 8); ERun 1; ECall (lit_desc_req 9); ERun 2] lit_start in
  reachable (concurrent 2) s /\ active (s_log s) = [0; 1] /\ s_sem s = 0 /\
  active (s_log (run [ECancel 0; ERun 2] s)) = [1; 2].
Proof. split; [apply lit_reachable|]. vm_compute. repeat split. Qed.

(** ** C37 *)
(** A request that waits for its answer waits until its limit after its frame was written. *)
Theorem C37_deadline : forall cap s t k i d, 0 <= cap -> reachable cap s -> get s t = Some k -> t_phase k = PWait i d ->
  exists o at_ bs la lb, build (t_job k) = Ok o /\ frame_bytes o bs /\ (z_type o = SREQ \/ z_type o = AREQ /\ resets o) /\
    d = at_ + limit o /\ s_log s = la ++ OWritten t at_ bs :: lb /\ ~ In (OFreed t) lb /\ holder (s_log s) = Some t.
Proof.
  intros cap s t k i d Hc Hr G Hp.
  destruct (waits_for cap s t k i d Hc Hr G Hp) as (o & at_ & bs & la & lb & _ & H1 & H2 & H3 & H4 & _ & H5 & H6 & H7 & _).
  exists o, at_, bs, la, lb. repeat (split; [assumption|]). rewrite (proj1 (I_link _ _ (reachable_inv cap s Hc Hr))). exact H7.
Qed.
Print Assumptions C37_deadline.
Theorem C37_timeout : forall s t k i d, get s t = Some k -> t_phase k = PWait i d -> s_futs s i = FPending ->
  let s' := step (ETimeout t) s in
  if d <=? s_now s then s_log s' = s_log s ++ [OFreed t; OEnded t (OExn TimeoutError)] /\ s_lock s' = None else s' = s.
Proof. exact timeout_step. Qed.
Print Assumptions C37_timeout.
(** Whatever arrived meanwhile: once the limit is over, timer and coroutine run and the link is free. *)
Theorem C37_over_in_time : forall cap s t k i d ms, 0 <= cap -> reachable cap s -> get s t = Some k -> t_phase k = PWait i d ->
  0 <= ms -> d <= s_now s + ms -> s_lock (run [ETick ms; ETimeout t; ERun t] s) = None.
Proof. exact frees_in_time. Qed.
Print Assumptions C37_over_in_time.
Example C37_inhabited :
  let s := run [ECall lit_ping; ETick 3; ERun 0] lit_start in
  (exists k, get s 0 = Some k /\ t_phase k = PWait 0 6003) /\ s_futs s 0 = FPending /\
  s_lock (run [ETick 5999; ETimeout 0] s) = Some 0 /\ s_lock (run [ETick 6000; ETimeout 0] s) = None.
Proof. vm_compute. split; [eexists; split; reflexivity|]. repeat split. Qed.

(** ** C38 *)
Definition lit_reset : job := JCommand SYS "resetReq" [("type", VInt 1)] [0].
Definition lit_reset_ind : frame := lit_frame AREQ SYS 128 [0; 2; 0; 2; 6; 3].
Theorem C38_reset_indication : forall cap s t k o x, 0 <= cap -> reachable cap s -> get s t = Some k ->
  build (t_job k) = Ok o -> z_type o = AREQ -> resets o -> In (OEnded t (ORet x)) (s_log s) ->
  ~ sends (t_job k) -> (forall z, t_job k <> JPermit z) ->
  exists r at_ bs lb, x = Some r /\ z_type r = AREQ /\ z_sub r = SYS /\ z_cmd r = "resetInd" /\
    frame_bytes o bs /\ outstanding t at_ bs lb (s_log s) /\ In (OReceived r) lb.
Proof. exact reset_answer. Qed.
Print Assumptions C38_reset_indication.
(** and the indication does complete it *)
Theorem C38_reset_completes : forall cap s t k i d o f r, 0 <= cap -> reachable cap s ->
  get s t = Some k -> t_phase k = PWait i d -> t_obj k = Some o -> z_type o = AREQ ->
  s_futs s i = FPending -> s_now s < d + 100 ->
  sendable f -> f_data f <> [] -> s_buf s = [] -> from_unpi_frame (received f) = Ok r ->
  z_type r = AREQ -> z_sub r = SYS -> z_cmd r = "resetInd" -> nobody_waits_for AREQ SYS "resetInd" s ->
  ~ sends (t_job k) -> (forall z, t_job k <> JPermit z) ->
  let s1 := step (ERecv (wire_of f)) s in
  s_log (step (ERun t) s1) = s_log s1 ++ [OFreed t; OEnded t (ORet (Some r))].
Proof. exact reset_completes. Qed.
Print Assumptions C38_reset_completes.
Theorem C38_other_asynchronous : forall cap s t k o x, 0 <= cap -> reachable cap s -> get s t = Some k ->
  build (t_job k) = Ok o -> z_type o = AREQ -> ~ resets o ->
  (forall i d, t_phase k <> PWait i d) /\
  (In (OEnded t (ORet x)) (s_log s) -> exists at_ bs, frame_bytes o bs /\ outstanding t at_ bs [] (s_log s)).
Proof. exact plain_areq. Qed.
Print Assumptions C38_other_asynchronous.
Theorem C38_not_a_request_writes_nothing : forall cap s t k o at_ bs, 0 <= cap -> reachable cap s -> get s t = Some k ->
  build (t_job k) = Ok o -> z_type o <> SREQ -> z_type o <> AREQ -> ~ In (OWritten t at_ bs) (s_log s).
Proof. exact not_request_silent. Qed.
Print Assumptions C38_not_a_request_writes_nothing.
Theorem C38_not_a_request_refused : forall cap s t k o r, 0 <= cap -> reachable cap s -> get s t = Some k ->
  build (t_job k) = Ok o -> (forall m to, t_job k <> JWaitFor m to) -> z_type o <> SREQ -> z_type o <> AREQ ->
  In (OEnded t r) (s_log s) ->
  r = OExn CancelledError \/ (exists e, r = OExn e /\ (response_waiter (t_job k) o = Err e \/ to_unpi_frame o = Err e)) \/
  r = OExn GenericException.
Proof. exact not_request_refused. Qed.
Print Assumptions C38_not_a_request_refused.
Example C38_inhabited : exists r,
  from_unpi_frame (received lit_reset_ind) = Ok r /\
  (let s := run [ECall lit_reset; ERun 0] lit_start in
   (exists k, get s 0 = Some k /\ t_phase k = PWait 0 30000) /\ s_futs s 0 = FPending /\ s_buf s = [] /\
   s_log (run [lit_got lit_reset_ind; ERun 0] s) =
     [OCalled 0; OGranted 0; ORegistered 0 0 30000; OWritten 0 0 [254; 1; 65; 0; 1; 65]; OReceived r; OCompleted 0 r; OFreed 0; OEnded 0 (ORet (Some r))]) /\
  s_log (run [ECall (JRaw r []); ERun 0] lit_start) = [OCalled 0; OGranted 0; OWritten 0 0 [254; 6; 65; 128; 0; 2; 0; 2; 6; 3; 194]; OFreed 0; OEnded 0 (ORet None)] /\
  exists e, from_unpi_frame lit_pong = Ok e /\
    s_log (run [ECall (JRaw e []); ERun 0] lit_start) = [OCalled 0; OGranted 0; OFreed 0; OEnded 0 (OExn GenericException)].
Proof.
  eexists. split; [vm_compute; reflexivity|]. split.
  - vm_compute. split; [eexists; split; reflexivity|]. repeat split.
  - split; [vm_compute; reflexivity|]. eexists. split; [vm_compute; reflexivity|]. vm_compute. reflexivity.
Qed.

(** ** C43 *)
Theorem C43_unsolicited_dropped : forall s f o,
  from_unpi_frame f = Ok o -> z_sub o = ZDO -> z_cmd o <> "endDeviceAnnceInd" ->
  (forall w, In w (s_waiters s) -> answers (w_matcher w) o -> ~ carries w) ->
  messages (s_log (fst (data_received s f))) = messages (s_log s) /\ s_devs (fst (data_received s f)) = s_devs s.
Proof. exact unsolicited_dropped. Qed.
Print Assumptions C43_unsolicited_dropped.
Example C43_inhabited : exists o, from_unpi_frame lit_desc = Ok o /\ z_sub o = ZDO /\ z_cmd o <> "endDeviceAnnceInd" /\
  messages (s_log (fst (data_received lit_start lit_desc))) = [] /\
  messages (s_log (fst (data_received (run [ECall (lit_desc_req 7); ERun 0] lit_start) lit_desc))) <> [].
Proof. eexists. split; [vm_compute; reflexivity|]. split; [reflexivity|]. split; [discriminate|]. split; vm_compute; [reflexivity|discriminate]. Qed.

(** ** C45.  Missing from the full claim: a refusal after the reply waiter was cleaned up is reported as a
    KeyError (see the refutation); the three ZDO commands whose response has no status count as accepted. *)
Theorem C45_status_comes_from_stick_partial : forall cap s t k o c, 0 <= cap -> reachable cap s -> get s t = Some k ->
  sends (t_job k) -> build (t_job k) = Ok o -> z_type o = SREQ -> In (OEnded t (OStatus c)) (s_log s) ->
  exists r at_ bs lb, frame_bytes o bs /\ outstanding t at_ bs lb (s_log s) /\ In (OReceived r) lb /\ response_to o r /\
    (status_of r = Some (VInt c) \/ c = 0 /\ z_sub r = ZDO /\ In (z_cmd r) no_status /\ status_of r = None).
Proof. exact sent_result. Qed.
Print Assumptions C45_status_comes_from_stick_partial.
Theorem C45_accepted_gives_zero_partial : forall s t k i d o r,
  get s t = Some k -> t_phase k = PWait i d -> t_obj k = Some o -> sends (t_job k) ->
  s_futs s i = FDone r -> (z_type o = SREQ -> forall v, status_of r = Some v -> v = VInt 0) ->
  exists s2, s2 = (if settles (t_job k) then run [ERun t; ETick 200; ERun t] s else run [ERun t] s) /\
    In (OEnded t (OStatus 0)) (s_log s2).
Proof. exact accepted_status. Qed.
Print Assumptions C45_accepted_gives_zero_partial.
Theorem C45_refused_gives_status_partial : forall s t k i d o r c,
  get s t = Some k -> t_phase k = PWait i d -> t_obj k = Some o -> z_type o = SREQ -> sends (t_job k) ->
  s_futs s i = FDone r -> status_of r = Some (VInt c) -> c <> 0 ->
  (forall w, t_wid k = Some w -> exists x, In x (s_waiters s) /\ w_id x = w) ->
  In (OEnded t (OStatus c)) (s_log (step (ERun t) s)).
Proof.
  intros s t k i d o r c G Hp Ho Ht Hs Hf Hst Hc Hw.
  assert (He : ~ expects (t_job k) c) by (destruct (t_job k); cbn in *; tauto).
  destruct (refused_reported s t k i d o r c G Hp Ho Ht Hf Hst He Hw) as (H & _).
  destruct (t_job k); cbn in Hs; try contradiction; exact H.
Qed.
Print Assumptions C45_refused_gives_status_partial.
Theorem C45_refusal_lost_refuted : exists s r k, reachable 2 s /\ get s 2 = Some k /\ sends (t_job k) /\
  status_of r = Some (VInt 194) /\ In (OReceived r) (s_log s) /\ t_phase k = PDone (OExn KeyError).
Proof.
  exists (run [ECall lit_ping; ERun 0; ETick 5000; ECall lit_ping; ERun 1; ECall (lit_desc_req 7); ERun 2; ETick 1000;
    ETimeout 0; ERun 1; ETick 6000; ETimeout 1; ERun 2; ETick 5900; ECleanup 1; lit_got lit_denied; ERun 2] lit_start).
  exists (mk_zpi SRSP ZDO "nodeDescReq" 2 [("status", VInt 194)] [("status", UINT8)] None). eexists. split; [apply lit_reachable|].
  split; [vm_compute; reflexivity|]. split; [exact I|]. split; [reflexivity|]. log_is l.
  split; [unfold l; repeat (first [left; reflexivity|right])|]. reflexivity.
Qed.
Print Assumptions C45_refusal_lost_refuted.
Example C45_inhabited :
  let s := run [ECall (lit_desc_req 7); ERun 0] lit_start in
  let m := run [ECall (JMulticast 5 260 6 1 9 [1; 9; 2]); ERun 0; lit_got (lit_frame SRSP AF 2 [0])] lit_start in
  (exists k, get (run [lit_got lit_accepted; ERun 0] s) 0 = Some k /\ t_phase k = PDone (OStatus 0)) /\
  (exists k, get (run [lit_got lit_denied; ERun 0] s) 0 = Some k /\ t_phase k = PDone (OStatus 194)) /\
  (exists k, get (run [ERun 0; ETick 200; ERun 0] m) 0 = Some k /\ t_phase k = PDone (OStatus 0)).
Proof. vm_compute. repeat split; eexists; split; reflexivity. Qed.

(** ** C46 *)
Theorem C46_refused_outside : forall cap s t k z at_ bs, 0 <= cap -> reachable cap s -> get s t = Some k -> t_job k = JPermit z ->
  ~ 0 <= z <= 254 ->
  ~ In (OWritten t at_ bs) (s_log s) /\
  (t_phase k = PStart -> s_log (step (ERun t) s) = s_log s ++ [OEnded t (OExn AssertionError)] /\ s_wire (step (ERun t) s) = s_wire s).
Proof. exact permit_outside. Qed.
Print Assumptions C46_refused_outside.
(** FE, length 5, SREQ ZDO (0x25), mgmtPermitJoinReq (0x36), address mode 15, 0xFFFC, duration, 0, checksum *)
Theorem C46_exactly_one_broadcast : forall cap s t k z, 0 <= cap -> reachable cap s -> get s t = Some k -> t_job k = JPermit z ->
  0 <= z <= 254 ->
  let bs := [254; 5; 37; 54; 15; 252; 255; z; 0; xor_all [5; 37; 54; 15; 252; 255; z; 0]] in
  (forall at_ bs', In (OWritten t at_ bs') (s_log s) -> bs' = bs) /\
  (forall a at1 b1 b at2 b2 c, s_log s <> a ++ OWritten t at1 b1 :: b ++ OWritten t at2 b2 :: c) /\
  (In (OEnded t (ORet None)) (s_log s) -> exists at_, In (OWritten t at_ bs) (s_log s)).
Proof. exact permit_once. Qed.
Print Assumptions C46_exactly_one_broadcast.
Example C46_inhabited :
  s_log (run [ECall (JPermit 255); ERun 0] lit_start) = [OCalled 0; OEnded 0 (OExn AssertionError)] /\
  s_wire (run [ECall (JPermit 60); ERun 0] lit_start) = [[254; 5; 37; 54; 15; 252; 255; 60; 0; 38]].
Proof. vm_compute. split; reflexivity. Qed.
