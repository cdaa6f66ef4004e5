(** * WorldBlame: the steps of the world as gentle steps of its API objects *)
From Coq Require Import ZifyBool ZifyNat.
From Verif Require Import Base Types Uart Buffalo CmdTable Zpi Api App Machine Life World SpecWire SpecCodec SpecApi SpecMachine SpecFirst SpecBlame SpecWorld SpecWorldBlame
  UartProofs CodecProofs CodecProofs2 ApiProofs AppProofs MachineBase MachineInv MachineInv2 MachineInv3 MachineInv4 MachineInv5 DispatchProofs MachineProofs MachineProofs2
  MachineProofs3 MachineProofs4 MachineProofs6 MachineProofs11 MachineProofs12 MachineFair MachineFirst MachineBlame MachineProgress LifeProofs2 WorldInv WorldFace WorldBase LinkBlame LinkBlame2.

(** the waiters made for the answer to an operation *)
Definition Sqw (w : world) (a : nat) (i : Z) : Prop := exists n, In (WWaiter n a i) (w_log w).
Definition longer (w w' : world) : Prop := exists l, w_log w' = w_log w ++ l.
Definition same_apis (w w' : world) : Prop := w_apis w' = w_apis w /\ longer w w'.
Inductive wq (C : nat -> Z -> Prop) : world -> world -> Prop :=
| Q_api w a s s' : nth_error (w_apis w) a = Some s -> gentle (Sqw w a) (C a) s s' -> wq C w (set_apis (set_nth a s' (w_apis w)) w)
| Q_same w w' : same_apis w w' -> wq C w w'.
Inductive wqs (C : nat -> Z -> Prop) : world -> world -> Prop :=
| wqs_nil w : wqs C w w
| wqs_cons w1 w2 w3 : wq C w1 w2 -> wqs C w2 w3 -> wqs C w1 w3.
Lemma wqs_one C w w' : wq C w w' -> wqs C w w'.
Proof. intro H. econstructor; [exact H|constructor]. Qed.
Lemma wqs_app C a b c : wqs C a b -> wqs C b c -> wqs C a c.
Proof. induction 1; [auto|]. intro. econstructor; eauto. Qed.
Lemma wqs_same C w w' : same_apis w w' -> wqs C w w'.
Proof. intro H. apply wqs_one, Q_same, H. Qed.
Lemma apis_q C w w' : wq C w w' -> Apis w -> Apis w'.
Proof.
  intros [v a s s' E G|v v' [E _]] A; [|unfold Apis; rewrite E; exact A]. intros b x. wfld. rewrite nth_set. destruct (Nat.eqb_spec b a) as [->|]; [|apply A].
  rewrite E. intros [= <-]. eapply winv_xs; [eapply gentle_x; [exact G|]|]; apply (A _ _ E).
Qed.
Lemma apis_qs C w w' : wqs C w w' -> Apis w -> Apis w'.
Proof. induction 1; [auto|]. intro. eauto using apis_q. Qed.

(** ** what leaves the API objects alone *)
Lemma longer_refl w : longer w w.
Proof. exists []. symmetry. apply app_nil_r. Qed.
Lemma longer_trans a b c : longer a b -> longer b c -> longer a c.
Proof. intros [x H] [y K]. exists (x ++ y). rewrite K, H, app_assoc. reflexivity. Qed.
Lemma same_refl w : same_apis w w.
Proof. split; [reflexivity|apply longer_refl]. Qed.
Lemma same_trans a b c : same_apis a b -> same_apis b c -> same_apis a c.
Proof. intros [H1 H2] [H3 H4]. split; [congruence|eapply longer_trans; eassumption]. Qed.
Lemma same_log w w' : w_apis w' = w_apis w -> w_log w' = w_log w -> same_apis w w'.
Proof. intros H K. split; [exact H|]. exists []. rewrite K, app_nil_r. reflexivity. Qed.
Lemma same_wnote o w : same_apis w (wnote o w).
Proof. split; [reflexivity|]. exists [o]. reflexivity. Qed.
Lemma same_goto n p w : same_apis w (op_goto n p w).
Proof. unfold op_goto. destruct (the_op w n); apply same_log; reflexivity. Qed.
Lemma same_end n r w : same_apis w (op_end n r w).
Proof. unfold op_end. eapply same_trans; [apply same_goto|apply same_wnote]. Qed.
Lemma same_slot q d w : same_apis w (slot_change q d w).
Proof. unfold slot_change. destruct (nth_error _ _); apply same_log; reflexivity. Qed.
Lemma same_leave n q r w : same_apis w (op_leave n q r w).
Proof. unfold op_leave. eapply same_trans; [apply same_slot|apply same_end]. Qed.
Lemma same_after n w : same_apis w (op_after n w).
Proof.
  unfold op_after. destruct (the_op w n) as [o|]; [|apply same_refl]. destruct (op_at o); try apply same_refl.
  destruct (nth_error _ _) as [s|]; [|apply same_refl]. destruct (get s t) as [k|]; [|apply same_refl].
  destruct (t_phase k); try apply same_refl. destruct r; try apply same_leave. destruct (settles _); [apply same_goto|apply same_leave].
Qed.
Lemma same_ops w : same_apis w (ops_after w).
Proof.
  unfold ops_after. generalize (seq 0 (length (w_ops w))) as l. intro l. revert w. induction l as [|n l IH]; intro w; [apply same_refl|]. cbn [fold_left].
  eapply same_trans; [apply same_after|apply IH].
Qed.

(** ** one API object *)
Lemma on_api_q C w a f : (forall s, nth_error (w_apis w) a = Some s -> gentle (Sqw w a) (C a) s (f s)) -> wqs C w (on_api a f w).
Proof. intro H. unfold on_api. destruct (nth_error (w_apis w) a) as [s|] eqn:E; [|constructor]. apply wqs_one, Q_api with (s := s); auto. Qed.
Lemma api_twice w a s x y : nth_error (w_apis w) a = Some s -> set_apis (set_nth a y (w_apis (set_apis (set_nth a x (w_apis w)) w))) (set_apis (set_nth a x (w_apis w)) w) = set_apis (set_nth a y (w_apis w)) w.
Proof. intro E. unfold set_apis at 1. wfld. rewrite set_set. reflexivity. Qed.
Lemma call_q C w a obj wid : Apis w -> wqs C w (on_api a (call_raw obj wid) w).
Proof.
  intro A. unfold on_api. destruct (nth_error (w_apis w) a) as [s|] eqn:E; [|constructor].
  eapply wqs_cons; [eapply (Q_api C w a s (called obj wid s)); [exact E|apply G_call]|].
  refine (eq_ind _ (wqs C _) _ _ (api_twice w a s (called obj wid s) (call_raw obj wid s) E)). apply wqs_one. apply Q_api with (s := called obj wid s).
  - wfld. rewrite nth_set, Nat.eqb_refl, E. reflexivity.
  - apply gentle_acquire. apply (A _ _ E).
Qed.
Lemma same_admitted C n q w : Apis w -> wqs C w (op_admitted n q w).
Proof.
  intro A. unfold op_admitted. destruct (the_op w n) as [o|]; [|apply wqs_same, same_end]. destruct (y_cur _) as [a|]; [|apply wqs_same, same_end].
  destruct (nth_error (w_apis w) a) as [s|] eqn:E; [|constructor]. destruct (op_obj o) as [obj|]; [|constructor].
  set (w1 := wnote (WAdmitted n q a) (slot_change q (-1) w)). assert (S1 : same_apis w w1) by (eapply same_trans; [apply same_slot|apply same_wnote]).
  eapply wqs_app; [apply wqs_same, S1|]. eapply wqs_app; [apply call_q|].
  - unfold Apis. rewrite (proj1 S1). exact A.
  - apply wqs_same. eapply same_trans; [apply same_goto|apply same_after].
Qed.
Lemma semaphore_q C n w : Apis w -> wqs C w (op_semaphore n w).
Proof.
  intro A. unfold op_semaphore. destruct (w_sem w) as [q|]; [|apply wqs_same, same_end]. unfold op_acquire. destruct (nth_error _ _); [|constructor].
  destruct (0 <? z); [apply same_admitted, A|apply wqs_same, same_goto].
Qed.
Lemma wants_wanted j obj sq m q : build j = Ok obj -> wants_waiter j = Some sq -> create_response_waiter obj (Some sq) = Ok (Some (m, q)) -> exists sq', wanted m q sq'.
Proof.
  intros B W R. apply (response_shape j obj m q B). destruct j; try discriminate W; cbn [wants_waiter response_waiter] in *.
  - destruct expect_reply; [|discriminate W]. injection W as ->. exact R.
  - injection W as ->. exact R.
Qed.
Lemma begin_q C n o w : Apis w -> wqs C w (op_begin n o w).
Proof.
  intro A. unfold op_begin. destruct (build (op_job o)) as [obj|e] eqn:B; [|apply wqs_same, same_end].
  assert (Plain : forall x, wqs C w (op_semaphore n (put_op n (mk_op (op_job o) (Some obj) x OBegin) w))).
  { intro x. eapply wqs_app; [apply wqs_same, (same_log w (put_op n (mk_op (op_job o) (Some obj) x OBegin) w)); reflexivity|]. apply semaphore_q. exact A. }
  destruct (wants_waiter (op_job o)) as [sq|] eqn:W; [|apply Plain]. destruct (y_cur (w_life w)) as [a|]; [|apply wqs_same, same_end].
  destruct (nth_error (w_apis w) a) as [s|] eqn:E; [|constructor]. destruct (create_response_waiter obj (Some sq)) as [[[m q]|]|e] eqn:R; [|apply Plain|apply wqs_same, same_end].
  destruct (wants_wanted _ _ _ _ _ B W R) as [sq' Hw].
  set (w1 := wnote (WWaiter n a (s_next s)) w).
  assert (P1 : wqs C w (put_op n (mk_op (op_job o) (Some obj) (Some (a, s_next s)) OBegin) (on_api a (wait_for m Timeouts_default q) w1))).
  { eapply wqs_app; [apply wqs_same, (same_wnote (WWaiter n a (s_next s)) w)|]. eapply wqs_app; [apply on_api_q|apply wqs_same, same_log; reflexivity].
    intros s0 E0. change (nth_error (w_apis w) a = Some s0) in E0. assert (s0 = s) as -> by congruence. eapply G_wait; [|exact Hw]. exists n. wfld. apply in_or_app. right. left. reflexivity. }
  assert (Eq : wnote (WWaiter n a (s_next s)) (on_api a (wait_for m Timeouts_default q) w) = on_api a (wait_for m Timeouts_default q) w1).
  { unfold on_api, w1. wfld. rewrite E. reflexivity. }
  rewrite Eq. eapply wqs_app; [exact P1|]. apply semaphore_q. eapply apis_qs; [exact P1|exact A].
Qed.
Lemma run_q C n w : Apis w -> wqs C w (op_run n w).
Proof.
  intro A. unfold op_run. destruct (the_op w n) as [o|]; [|constructor]. destruct (op_at o); try constructor.
  - apply begin_q, A.
  - destruct (nth_error _ _); [|constructor]. destruct (0 <? z); [apply same_admitted, A|constructor].
  - destruct (until <=? w_now w); [apply wqs_same, same_leave|constructor].
Qed.
Lemma cancel_q (C : nat -> Z -> Prop) n w : (forall o q a t, the_op w n = Some o -> op_at o = OInside q a t -> C a t) -> wqs C w (op_cancel n w).
Proof.
  intro H. unfold op_cancel. destruct (the_op w n) as [o|]; [|constructor]. destruct (op_at o) eqn:E; try (apply wqs_same; first [apply same_end|apply same_leave]); try constructor.
  eapply wqs_app; [apply on_api_q; intros s _; apply gentle_cancel; eapply H; [reflexivity|exact E]|]. apply wqs_same, same_after.
Qed.

(** ** receiving *)
Lemma effect_q C a w e : wqs C w (world_effect a w e).
Proof.
  unfold world_effect. eapply wqs_app; [apply wqs_same, (same_wnote (WEffect a e) w)|]. destruct e; try constructor. destruct (y_cur _); [|constructor].
  apply on_api_q. intros s _. apply G_spawn. reflexivity.
Qed.
Lemma effects_q C a effs : forall w, wqs C w (fold_left (world_effect a) effs w).
Proof. induction effs as [|e l IH]; intro w; [constructor|]. cbn [fold_left]. eapply wqs_app; [apply effect_q|apply IH]. Qed.
Lemma received_q C a w f : bytes_ok (f_data f) -> wqs C w (fst (world_received a w f)).
Proof.
  intro Hb. unfold world_received. destruct (nth_error (w_apis w) a) as [s|] eqn:A; [|constructor]. destruct (from_unpi_frame f) as [o|e] eqn:F; [|constructor]. cbv zeta.
  assert (G : gentle (Sqw w a) (C a) s (received_here o s)) by (eapply G_recv; eassumption). unfold received_here in G.
  destruct (dispatch (s_waiters (note (OReceived o) s)) o (note (OReceived o) s)) as [[s1 o1] r]. cbn [fst] in G.
  assert (P : wqs C w (on_api a (fun _ => s1) w)). { apply on_api_q. intros s2 E. assert (s2 = s) as -> by congruence. exact G. }
  destruct r; [|exact P]. destruct (s_app s1); [|exact P]. eapply wqs_app; [exact P|]. unfold world_handle. destruct (handle_znp _ _ _) as [[devs effs] r]. cbn [fst].
  eapply wqs_app; [|apply effects_q]. apply wqs_same, same_log; reflexivity.
Qed.
Lemma gw_q C a data : forall b w, good_buffer b -> let x := gw_data_received (world_received a) b w data in wqs C w (snd (fst x)) /\ good_buffer (fst (fst x)).
Proof.
  induction data as [|x data IH]; intros b w Hb; cbn [gw_data_received]; cbv zeta; [split; [constructor|exact Hb]|].
  destruct (parser_write b x) as [b1 r0] eqn:Ew. destruct (write_bytes b x b1 r0 Hb Ew) as [Hb1 Hby].
  destruct r0 as [[f|]|e]; [|apply IH; assumption|split; [constructor|exact Hb1]].
  pose proof (received_q C a w f (Hby f eq_refl)) as P. destruct (world_received a w f) as [w1 [u|e]]; cbn [fst] in P; [|split; [exact P|exact Hb1]].
  destruct (IH b1 w1 Hb1) as [I1 I2]. split; [|exact I2]. eapply wqs_app; [exact P|exact I1].
Qed.
Lemma receive_q C a data w : (forall s, nth_error (w_apis w) a = Some s -> good_buffer (s_buf s)) -> wqs C w (world_receive a data w).
Proof.
  intro H. unfold world_receive. destruct (nth_error (w_apis w) a) as [s|] eqn:A; [|constructor]. specialize (H s eq_refl).
  destruct (gw_q C a data (s_buf s) w H) as [P B]. destruct (gw_data_received _ _ _ _) as [[b w1] r]. cbn [fst snd] in P, B.
  assert (Q : wqs C w (on_api a (set_buf b) w1)) by (eapply wqs_app; [exact P|]; apply on_api_q; intros s2 _; apply G_buf, B).
  destruct r; [exact Q|]. eapply wqs_app; [exact Q|]. apply wqs_same, same_wnote.
Qed.
Lemma step_q (C : nat -> Z -> Prop) e w : Apis w -> (forall a s, nth_error (w_apis w) a = Some s -> good_buffer (s_buf s)) -> (forall a t, e = VTaskCancel a t -> C a t) ->
  (forall n o q a t, e = VCancel n -> the_op w n = Some o -> op_at o = OInside q a t -> C a t) ->
  match e with VTick _ | VLife _ => False | _ => True end -> wqs C w (world_step e w).
Proof.
  intros A B H1 H2 H3. destruct e; cbn [world_step]; try destruct H3.
  - destruct (uses_sem j); [|constructor]. eapply wqs_app; [apply wqs_same, (same_log w (set_ops (w_ops w ++ [mk_op j None None OBegin]) w)); reflexivity|]. apply wqs_same, same_wnote.
  - apply run_q, A.
  - apply cancel_q. intros o q a t. apply H2. reflexivity.
  - destruct (uses_sem j) eqn:J; [constructor|]. apply on_api_q. intros s _. apply G_spawn, J.
  - eapply wqs_app; [apply on_api_q; intros s E; apply gentle_resume, (V_tasks _ (A _ _ E))|apply wqs_same, same_ops].
  - eapply wqs_app; [apply on_api_q; intros s E; apply gentle_timeout|apply wqs_same, same_ops].
  - eapply wqs_app; [apply on_api_q; intros s E; apply gentle_cancel, H1; reflexivity|apply wqs_same, same_ops].
  - apply on_api_q. intros s _. apply gentle_cleanup.
  - apply receive_q. apply B.
  - destruct (starting w t); [|constructor]. unfold got_version. eapply wqs_app; [|apply wqs_same, same_wnote]. apply wqs_same, same_log; reflexivity.
  - destruct (starting w t); [|constructor]. unfold got_device. eapply wqs_app; [|apply wqs_same, same_wnote]. apply wqs_same, same_log; reflexivity.
Qed.
