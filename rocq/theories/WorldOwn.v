(** * WorldOwn: who made the coroutines of the API objects *)
From Coq Require Import ZifyBool ZifyNat.
From Verif Require Import Base Types Uart Buffalo CmdTable Zpi Api App Machine Life World SpecMachine SpecLife SpecWorld
  MachineBase MachineInv MachineInv2 MachineProgress DispatchProofs LifeProofs2 LifeProofs3 WorldInv WorldFace WorldBase WorldLife WorldProofs2 HostProofs WholeHost WholeBase.

(** how many coroutines API object [a] ever had *)
Definition tasks_of (w : world) (a : nat) : Z := match nth_error (w_apis w) a with Some s => s_ntid s | None => 0 end.
(** an operation's request, or an LED command *)
Definition ours (w : world) (a : nat) (u : Z) : Prop := exists s j, nth_error (w_apis w) a = Some s /\ has_job s u j /\
  ((exists n o obj, the_op w n = Some o /\ build (op_job o) = Ok obj /\ j = JRaw obj [0]) \/ exists mode, j = JCommand UTIL "ledControl" (led_payload mode) [0]).
Definition grown (w w' : world) : Prop := forall a u, tasks_of w a <= u < tasks_of w' a -> ours w' a u.
Definition op_kept (w w' : world) : Prop := forall n o, the_op w n = Some o -> exists o', the_op w' n = Some o' /\ op_job o' = op_job o.
Lemma kept_refl w : op_kept w w.
Proof. intros n o G. eauto. Qed.
Lemma kept_trans u v w : op_kept u v -> op_kept v w -> op_kept u w.
Proof. intros H1 H2 n o G. destruct (H1 n o G) as (o1 & G1 & E1). destruct (H2 n o1 G1) as (o2 & G2 & E2). exists o2. split; [exact G2|congruence]. Qed.
Lemma kept_p w w' : wprim w w' -> op_kept w w'.
Proof.
  assert (U : forall v n o x, the_op w n = Some o -> op_job x = op_job o -> v = put_op n x (set_ops (w_ops w) v) -> op_kept w v).
  { intros v n o x G X -> m p E. rewrite the_op_put. unfold the_op in *. wfld. rewrite G. destruct (Nat.eqb_spec n m) as [->|]; [|eauto]. exists x. split; [reflexivity|congruence]. }
  destruct 1; unfold life_event_happens, got_version in *; try (intros n0 o0 G0; exists o0; split; [exact G0|reflexivity]); try (eapply U; [eassumption| |reflexivity]; reflexivity).
  intros n o G. exists o. split; [|reflexivity]. unfold the_op in *. wfld. rewrite nth_error_app1 by (apply nth_error_Some; congruence). exact G.
Qed.
Lemma kept_ps w w' : wprims w w' -> op_kept w w'.
Proof. induction 1 as [|a b c H _ IH]; [apply kept_refl|]. eapply kept_trans; [apply kept_p, H|exact IH]. Qed.
Lemma ext_ps w w' : wprims w w' -> Good w -> Linked w -> ext w w'.
Proof.
  induction 1 as [v|u v x H1 H2 IH]; intros G L; [apply ext_refl; reflexivity|].
  eapply ext_trans; [apply ext_p; eassumption|apply IH; [eapply good_p|eapply linked_p]; eassumption].
Qed.
Lemma linked_ps w w' : wprims w w' -> Linked w -> Linked w'.
Proof. apply wprims_inv. apply linked_p. Qed.
Lemma ours_later w w' a u : ext w w' -> op_kept w w' -> ours w a u -> ours w' a u.
Proof.
  intros X K (s & j & A & J & H). destruct (X a s A) as (s' & A' & P). exists s', j. split; [exact A'|]. split; [eapply has_job_xs; eassumption|].
  destruct H as [(n & o & obj & G & B & E)|H]; [left|right; exact H]. destruct (K n o G) as (o' & G' & Eo). exists n, o', obj. rewrite Eo. auto.
Qed.
Definition fine (w : world) : Prop := Good w /\ Linked w.
Lemma fine_ps w w' : wprims w w' -> fine w -> fine w'.
Proof. intros H [G L]. split; [eapply good_ps|eapply linked_ps]; eassumption. Qed.
Definition grows (w w' : world) : Prop := wprims w w' /\ grown w w'.
Lemma grows_still w w' : wprims w w' -> (forall a, tasks_of w' a <= tasks_of w a) -> grows w w'.
Proof. intros P H. split; [exact P|]. intros a u Hu. specialize (H a). lia. Qed.
Lemma grows_refl w : grows w w.
Proof. apply grows_still; [constructor|lia]. Qed.
Lemma grows_trans u v w : fine u -> grows u v -> grows v w -> grows u w.
Proof.
  intros F [P1 H1] [P2 H2]. split; [eapply wprims_app; eassumption|]. intros a t Ht.
  destruct (Z_lt_dec t (tasks_of v a)) as [L|L]; [|apply H2; lia]. destruct (fine_ps _ _ P1 F) as [G L'].
  eapply ours_later; [eapply ext_ps; eassumption|apply kept_ps, P2|]. apply H1. lia.
Qed.
Lemma tasks_same w w' : w_apis w' = w_apis w -> forall a, tasks_of w' a <= tasks_of w a.
Proof. intros E a. unfold tasks_of. rewrite E. lia. Qed.
Lemma tasks_on w a f : (forall s, nth_error (w_apis w) a = Some s -> s_ntid (f s) = s_ntid s) -> forall b, tasks_of (on_api a f w) b <= tasks_of w b.
Proof.
  intros H b. unfold tasks_of, on_api. destruct (nth_error (w_apis w) a) as [s|] eqn:A; [|lia]. wfld. rewrite nth_set.
  destruct (Nat.eqb_spec b a) as [->|]; [|lia]. rewrite A, (H s eq_refl). lia.
Qed.
Lemma tasks_le u v w : (forall a, tasks_of v a <= tasks_of u a) -> (forall a, tasks_of w a <= tasks_of v a) -> forall a, tasks_of w a <= tasks_of u a.
Proof. intros H1 H2 a. specialize (H1 a). specialize (H2 a). lia. Qed.
(** an API object gets one coroutine *)
Lemma tasks_one w a f s : nth_error (w_apis w) a = Some s -> s_ntid (f s) = s_ntid s + 1 ->
  forall b u, tasks_of w b <= u < tasks_of (on_api a f w) b -> b = a /\ u = s_ntid s.
Proof.
  intros A N b u. unfold tasks_of, on_api. rewrite A. wfld. rewrite nth_set. destruct (Nat.eqb_spec b a) as [->|]; [|lia]. rewrite A. intro H. split; [reflexivity|lia].
Qed.
Lemma admitted_grows w n o q v : fine w -> the_op w n = Some o -> op_obj o <> None ->
  (op_at o = OBegin /\ w_sem w = Some q \/ op_at o = OSlot q) -> nth_error (w_sems w) q = Some v -> 0 < v -> grows w (op_admitted n q w).
Proof.
  intros [G L] Ho Hob Hat Hq Hv. pose proof (op_admitted_p w n o q v G Ho Hob Hat Hq Hv) as P. revert P. unfold op_admitted. rewrite Ho.
  destruct (y_cur (w_life w)) as [a|] eqn:C; [|intro P; apply grows_still; [exact P|apply tasks_same; unfold op_end; wfld; apply apis_goto]].
  destruct (nth_error (w_apis w) a) as [s|] eqn:A; [|intros _; apply grows_refl]. destruct (op_obj o) as [obj|] eqn:B; [|intros _; apply grows_refl].
  intro P. split; [exact P|]. set (w1 := wnote (WAdmitted n q a) (slot_change q (-1) w)) in *.
  assert (E1 : w_apis w1 = w_apis w) by (unfold w1; wfld; apply apis_slot).
  intros b u Hu. unfold tasks_of in Hu. rewrite apis_after, apis_goto in Hu. rewrite <- E1 in Hu, A. fold (tasks_of w1 b) in Hu.
  destruct (tasks_one w1 a (call_raw obj (option_map snd (op_waiter o))) s A) with (b := b) (u := u) as [-> ->]; [rewrite call_raw_split, ntid_acquire_lock; reflexivity|exact Hu|].
  exists (call_raw obj (option_map snd (op_waiter o)) s), (JRaw obj [0]). split; [rewrite apis_after, apis_goto; apply nth_on_api, A|].
  assert (V : Winv s) by (rewrite E1 in A; apply (proj2 (proj2 G) a s A)). split.
  - rewrite call_raw_split. eapply (has_job_xs (called obj (option_map snd (op_waiter o)) s)); [|exists (mk_task (JRaw obj [0]) PAdm (Some obj) (option_map snd (op_waiter o))); split; [apply get_called, (V_tids s V)|reflexivity]].
    apply prims_x; [|apply ntid_acquire_lock]. eapply acquire_lock_prims; [apply get_called, (V_tids s V)|reflexivity..].
  - left. destruct (kept_ps _ _ P n o Ho) as (o' & G' & Eo). exists n, o', obj. split; [exact G'|]. rewrite Eo. split; [|reflexivity]. apply (proj1 (proj2 G) n o Ho), B.
Qed.
Lemma semaphore_grows w n o : fine w -> the_op w n = Some o -> op_obj o <> None -> op_at o = OBegin -> grows w (op_semaphore n w).
Proof.
  intros F Ho Hob Hat. pose proof (op_semaphore_p w n o (proj1 F) Ho Hob Hat) as P. revert P. unfold op_semaphore. destruct (w_sem w) as [q|] eqn:Q.
  - unfold op_acquire. destruct (nth_error (w_sems w) q) as [v|] eqn:V; [|intros _; apply grows_refl]. destruct (0 <? v) eqn:Hv; intro P.
    + eapply admitted_grows; eauto. lia.
    + apply grows_still; [exact P|apply tasks_same, apis_goto].
  - intro P. apply grows_still; [exact P|apply tasks_same; unfold op_end; wfld; apply apis_goto].
Qed.
Lemma begin_grows w n o : fine w -> the_op w n = Some o -> op_at o = OBegin -> grows w (op_begin n o w).
Proof.
  intros F Ho Hat. pose proof (op_begin_p w n o (proj1 F) Ho Hat) as P. revert P. unfold op_begin.
  assert (Over : forall e, wprims w (op_end n (OExn e) w) -> grows w (op_end n (OExn e) w)).
  { intros e P. apply grows_still; [exact P|apply tasks_same; unfold op_end; wfld; apply apis_goto]. }
  destruct (build (op_job o)) as [obj|e] eqn:B; [|apply Over].
  assert (N : forall x w1, wprim w w1 -> w1 = put_op n (with_obj o obj x) (set_ops (w_ops w) w1) -> (forall a, tasks_of w1 a <= tasks_of w a) -> grows w (op_semaphore n w1)).
  { intros x w1 P E T. eapply grows_trans; [exact F|apply grows_still; [apply wprims_one, P|exact T]|].
    eapply (semaphore_grows w1 n (with_obj o obj x)); try reflexivity; [eapply fine_ps; [apply wprims_one, P|exact F]| |discriminate].
    rewrite E, the_op_put, Nat.eqb_refl. unfold the_op in *. wfld. rewrite Ho. reflexivity. }
  destruct (wants_waiter (op_job o)) as [sq|] eqn:W.
  - destruct (y_cur (w_life w)) as [a|] eqn:C; [|apply Over].
    destruct (nth_error (w_apis w) a) as [s|] eqn:A; [|intros _; apply grows_refl].
    destruct (create_response_waiter obj (Some sq)) as [[[m q]|]|e] eqn:R; [| |apply Over]; intros _.
    + eapply N; [|unfold on_api; rewrite A; reflexivity|]; [unfold on_api; rewrite A; eapply T_waiter; eassumption|].
      intro b. unfold tasks_of. wfld. apply (tasks_on w a (wait_for m Timeouts_default q)). reflexivity.
    + eapply N; [|reflexivity|apply tasks_same; reflexivity]. eapply T_prepare; eauto.
  - intros _. eapply N; [|reflexivity|apply tasks_same; reflexivity]. eapply T_prepare; eauto.
Qed.
Lemma run_grows w n : fine w -> grows w (op_run n w).
Proof.
  intro F. pose proof (op_run_p w n (proj1 F)) as P. revert P. unfold op_run. destruct (the_op w n) as [o|] eqn:Ho; [|intros _; apply grows_refl].
  destruct (op_at o) as [|q|q a t|q u|r] eqn:E; try (intros _; apply grows_refl).
  - intros _. apply begin_grows; assumption.
  - destruct (nth_error (w_sems w) q) as [v|] eqn:V; [|intros _; apply grows_refl]. destruct (0 <? v) eqn:Hv; [|intros _; apply grows_refl].
    intros _. eapply admitted_grows; eauto; [|lia]. apply (proj1 (proj2 (proj1 F)) _ _ Ho). rewrite E. exact I.
  - destruct (u <=? w_now w); [|intros _; apply grows_refl]. intro P. apply grows_still; [exact P|apply tasks_same, apis_leave].
Qed.
Lemma cancel_grows w n : fine w -> grows w (op_cancel n w).
Proof.
  intro F. pose proof (op_cancel_p w n (proj1 F)) as P. apply grows_still; [exact P|]. clear P. unfold op_cancel. destruct (the_op w n) as [o|]; [|apply tasks_same; reflexivity].
  destruct (op_at o) as [|q|q a t|q u|r]; try (apply tasks_same; reflexivity); try (apply tasks_same; unfold op_end; wfld; apply apis_goto).
  - intro b. unfold tasks_of at 1. rewrite apis_after. apply (tasks_on w a (Machine.cancel t)). intros. apply ntid_cancel.
  - apply tasks_same, apis_leave.
Qed.
Lemma effect_grows w a e : fine w -> grows w (world_effect a w e).
Proof.
  intros F. pose proof (world_effect_p w a e) as P. revert P. unfold world_effect. set (w1 := wnote (WEffect a e) w). intro P.
  assert (St : w_apis w1 = w_apis w) by reflexivity.
  destruct e as [|mode|]; try (apply grows_still; [exact P|apply tasks_same; reflexivity]). destruct (y_cur (w_life w1)) as [c|]; [|apply grows_still; [exact P|apply tasks_same; reflexivity]].
  destruct (nth_error (w_apis w) c) as [s|] eqn:A.
  - split; [exact P|]. rewrite <- St in A. intros b u Hu.
    destruct (tasks_one w1 c (spawn (JCommand UTIL "ledControl" (led_payload mode) [0])) s A eq_refl b u Hu) as [-> ->].
    eexists _, _. split; [apply nth_on_api, A|]. split; [|right; exists mode; reflexivity].
    eexists. split; [apply (spawned_w s), (proj2 (proj2 (proj1 F)) c s A)|reflexivity].
  - assert (E : on_api c (spawn (JCommand UTIL "ledControl" (led_payload mode) [0])) w1 = w1) by (unfold on_api; rewrite St, A; reflexivity).
    rewrite E in *. apply grows_still; [exact P|apply tasks_same; reflexivity].
Qed.
Lemma effects_grow a effs : forall w, fine w -> grows w (fold_left (world_effect a) effs w).
Proof.
  induction effs as [|e l IH]; intros w F; [apply grows_refl|]. cbn [fold_left]. pose proof (effect_grows w a e F) as H.
  eapply grows_trans; [exact F|exact H|]. apply IH. eapply fine_ps; [apply H|exact F].
Qed.
Lemma handle_grows w a o : fine w -> grows w (fst (world_handle a o w)).
Proof.
  intro F. unfold world_handle. destruct (handle_znp (w_version w) (w_devs w) o) as [[devs effs] r]. cbn [fst].
  assert (P : wprims w (set_wdevs devs w)) by apply wprims_one, T_devs.
  eapply grows_trans; [exact F|apply grows_still; [exact P|apply tasks_same; reflexivity]|]. apply effects_grow. eapply fine_ps; eassumption.
Qed.
Lemma received_grows w a f : fine w -> grows w (fst (world_received a w f)).
Proof.
  intros F. pose proof (world_received_p w a f (proj1 F)) as P. revert P. unfold world_received. destruct (nth_error (w_apis w) a) as [s|] eqn:A; [|intros _; apply grows_refl].
  destruct (from_unpi_frame f) as [o|e] eqn:Fr; [|intros _; apply grows_refl]. cbv zeta.
  pose proof (received_dispatch_x s f o (proj2 (proj2 (proj1 F)) _ _ A) Fr) as X.
  pose proof (ntid_dispatch o (s_waiters (note (OReceived o) s)) (note (OReceived o) s)) as N. change (s_ntid (note (OReceived o) s)) with (s_ntid s) in N.
  pose proof (face_dispatch o (s_waiters (note (OReceived o) s)) (note (OReceived o) s)) as F1. change (face (note (OReceived o) s)) with (face s) in F1.
  assert (D1 : shut s (fst (fst (dispatch (s_waiters (note (OReceived o) s)) o (note (OReceived o) s))))).
  { destruct (dispatch_spec o (s_waiters (note (OReceived o) s)) (note (OReceived o) s)) as (pre & post & o' & r & _ & -> & _). cbn [fst]. rewrite completes_nf. apply shut_same; reflexivity. }
  destruct (dispatch (s_waiters (note (OReceived o) s)) o (note (OReceived o) s)) as [[s1 o1] r]. cbn [fst] in X, F1, D1, N. intros _.
  assert (P : wprims w (on_api a (fun _ => s1) w)). { apply on_api_p. intros s2 E. rewrite A in E. injection E as <-. split; [exact X|split; [exact F1|exact D1]]. }
  assert (Q : grows w (on_api a (fun _ => s1) w)). { apply grows_still; [exact P|]. apply tasks_on. intros s2 E. rewrite A in E. injection E as <-. exact N. }
  destruct r; [|exact Q]. destruct (s_app s1); [|exact Q]. eapply grows_trans; [exact F|exact Q|]. apply handle_grows. eapply fine_ps; eassumption.
Qed.
Lemma gw_grows a data : forall b w, fine w -> grows w (snd (fst (gw_data_received (world_received a) b w data))).
Proof.
  induction data as [|x data IH]; intros b w F; cbn [gw_data_received]; [apply grows_refl|].
  destruct (parser_write b x) as [b1 [[f|]|e]]; [|apply IH, F|apply grows_refl].
  pose proof (received_grows w a f F) as P. destruct (world_received a w f) as [w1 [u|e]]; cbn [fst] in P; [|exact P].
  eapply grows_trans; [exact F|exact P|]. apply IH. eapply fine_ps; [apply P|exact F].
Qed.
Lemma receive_grows w a data : fine w -> grows w (world_receive a data w).
Proof.
  intro F. pose proof (world_receive_p w a data (proj1 F)) as P0. unfold world_receive in *. destruct (nth_error (w_apis w) a) as [s|]; [|apply grows_refl].
  pose proof (gw_grows a data (s_buf s) w F) as P. destruct (gw_data_received (world_received a) (s_buf s) w data) as [[b w1] r]. cbn [fst snd] in P.
  split; [exact P0|]. destruct P as [P1 P2]. intros c u Hu.
  assert (T : tasks_of (match r with Ok _ => on_api a (set_buf b) w1 | Err e => wnote (WRaised a e) (on_api a (set_buf b) w1) end) c <= tasks_of w1 c).
  { pose proof (tasks_on w1 a (set_buf b) ltac:(reflexivity) c) as T. destruct r; [exact T|]. unfold tasks_of at 1. wfld. exact T. }
  assert (Q : wprims w1 (match r with Ok _ => on_api a (set_buf b) w1 | Err e => wnote (WRaised a e) (on_api a (set_buf b) w1) end)).
  { assert (Q : wprims w1 (on_api a (set_buf b) w1)) by (apply on_api_p; intros s2 _; split; [apply xprims_one, X_prim; [apply P_buf|reflexivity]|split; [reflexivity|apply shut_same; reflexivity]]).
    destruct r; [exact Q|]. eapply wprims_app; [exact Q|]. apply wprims_one, T_note. reflexivity. }
  destruct (fine_ps _ _ P1 F) as [G L]. eapply ours_later; [eapply ext_ps; eassumption|apply kept_ps, Q|]. apply P2. lia.
Qed.
(** whatever happens in the world, but for calls of the API by others *)
Lemma step_grows e w : wreachable w -> (forall a j, e <> VApiCall a j) -> grown w (world_step e w).
Proof.
  intros R N. assert (F : fine w) by (split; [apply wreach_good|apply wreach_linked]; exact R).
  enough (H : grows w (world_step e w)) by apply H. pose proof (world_step_p e w (proj1 F)) as P.
  assert (Api : forall a f, (forall s, s_ntid (f s) = s_ntid s) -> forall b, tasks_of (ops_after (on_api a f w)) b <= tasks_of w b).
  { intros a f H b. unfold tasks_of at 1. rewrite apis_afters. apply (tasks_on w a f). auto. }
  destruct e; cbn [world_step] in *.
  - apply grows_still; [exact P|]. apply tasks_same. destruct (uses_sem j); reflexivity.
  - apply run_grows, F.
  - apply cancel_grows, F.
  - destruct (N a j eq_refl).
  - apply grows_still; [exact P|]. apply Api. intro s. apply ntid_resume.
  - apply grows_still; [exact P|]. apply Api. intro s. apply ntid_timeout.
  - apply grows_still; [exact P|]. apply Api. intro s. apply ntid_cancel.
  - apply grows_still; [exact P|]. apply tasks_on. intros s _. destruct (cleanup_nf i s) as [->|[_ ->]]; reflexivity.
  - apply receive_grows, F.
  - apply grows_still; [exact P|]. destruct (0 <=? ms); [|apply tasks_same; reflexivity]. intro a. unfold tasks_of. wfld. rewrite nth_map. destruct (nth_error (w_apis w) a); cbn [option_map]; [reflexivity|lia].
  - apply grows_still; [exact P|]. intro a. unfold tasks_of, life_event_happens. wfld. rewrite sync_nth.
    destruct (nth_error (y_apis (life_step e (w_life w))) a) as [x|]; destruct (nth_error (w_apis w) a) as [s|] eqn:A; cbn; try lia.
    destruct (V_tids s (proj2 (proj2 (proj1 F)) a s A)) as [T _]. exact T.
  - apply grows_still; [exact P|]. apply tasks_same. destruct (starting w t); reflexivity.
  - apply grows_still; [exact P|]. apply tasks_same. destruct (starting w t); reflexivity.
Qed.
