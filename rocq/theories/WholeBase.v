(** * WholeBase: what steps of World.v leave alone *)
From Coq Require Import ZifyBool ZifyNat.
From Verif Require Import Base Types Uart Buffalo CmdTable Zpi Api App Machine Life World SpecMachine SpecLife SpecWorld
  ApiProofs AppProofs AppProofs2 MachineBase MachineInv MachineInv2 DispatchProofs LifeProofs2 LifeProofs3 WorldInv WorldFace WorldBase WorldLife WorldProofs2 WorldProofs4
  Nv StartZnp SpecStart Host SpecHost HostProofs WholeInv WholeHost Whole.

(** ** steps that touch neither ports, start-ups, the version nor the semaphores *)
Definition quiet_obs (o : wobs) : Prop := (forall i n, o <> WAdded i n) /\ (forall q c, o <> WNewSem q c).
Definition calm (w w' : world) : Prop :=
  w_life w' = w_life w /\ w_version w' = w_version w /\ exists l, w_log w' = w_log w ++ l /\ Forall quiet_obs l.
Lemma calm_same w w' : w_life w' = w_life w -> w_version w' = w_version w -> w_log w' = w_log w -> calm w w'.
Proof. intros D V L. split; [exact D|]. split; [exact V|]. exists []. rewrite app_nil_r. split; [exact L|constructor]. Qed.
Lemma calm_trans u v w : calm u v -> calm v w -> calm u w.
Proof. intros (D1 & V1 & l1 & L1 & F1) (D2 & V2 & l2 & L2 & F2). split; [congruence|]. split; [congruence|]. exists (l1 ++ l2). rewrite L2, L1, app_assoc. split; [reflexivity|apply Forall_app; auto]. Qed.
Lemma calm_note o w : quiet_obs o -> calm w (wnote o w).
Proof. intro U. split; [reflexivity|]. split; [reflexivity|]. exists [o]. split; [reflexivity|constructor; [exact U|constructor]]. Qed.
Ltac qobs := split; intros; discriminate.
Lemma calm_api a f w : calm w (on_api a f w).
Proof. unfold on_api. destruct (nth_error _ a); apply calm_same; reflexivity. Qed.
Lemma calm_goto n p w : calm w (op_goto n p w).
Proof. unfold op_goto. destruct (the_op w n); apply calm_same; reflexivity. Qed.
Lemma calm_slot q d w : calm w (slot_change q d w).
Proof. unfold slot_change. destruct (nth_error _ q); apply calm_same; reflexivity. Qed.
Lemma calm_end n r w : calm w (op_end n r w).
Proof. unfold op_end. eapply calm_trans; [apply calm_goto|apply calm_note; qobs]. Qed.
Lemma calm_leave n q r w : calm w (op_leave n q r w).
Proof. unfold op_leave. eapply calm_trans; [apply calm_slot|apply calm_end]. Qed.
Lemma calm_refl w : calm w w.
Proof. apply calm_same; reflexivity. Qed.
Lemma calm_after n w : calm w (op_after n w).
Proof.
  unfold op_after. destruct (the_op w n) as [o|]; [|apply calm_refl]. destruct (op_at o) as [| |q a t| |]; try apply calm_refl.
  destruct (nth_error (w_apis w) a) as [s|]; [|apply calm_refl]. destruct (get s t) as [k|]; [|apply calm_refl].
  destruct (t_phase k) as [| | | | | | | | | |r]; try apply calm_refl. destruct r; try apply calm_leave. destruct (settles _); [apply calm_goto|apply calm_leave].
Qed.
Lemma calm_afters w : calm w (ops_after w).
Proof.
  unfold ops_after. generalize (List.seq 0 (length (w_ops w))). intro l. revert w. induction l as [|n l IH]; intro w; [apply calm_refl|].
  cbn [fold_left]. eapply calm_trans; [apply calm_after|apply IH].
Qed.
Lemma calm_admitted n q w : calm w (op_admitted n q w).
Proof.
  unfold op_admitted. destruct (the_op w n) as [o|]; [|apply calm_end]. destruct (y_cur _) as [a|]; [|apply calm_end].
  destruct (nth_error _ a) as [s|]; [|apply calm_refl]. destruct (op_obj o); [|apply calm_refl].
  eapply calm_trans; [|apply calm_after]. eapply calm_trans; [|apply calm_goto]. eapply calm_trans; [|apply calm_api].
  eapply calm_trans; [apply calm_slot|apply calm_note; qobs].
Qed.
Lemma calm_semaphore n w : calm w (op_semaphore n w).
Proof.
  unfold op_semaphore. destruct (w_sem w) as [q|]; [|apply calm_end]. unfold op_acquire. destruct (nth_error _ q) as [v|]; [|apply calm_refl].
  destruct (0 <? v); [apply calm_admitted|apply calm_goto].
Qed.
Lemma calm_begin n o w : calm w (op_begin n o w).
Proof.
  unfold op_begin. destruct (build _) as [obj|e]; [|apply calm_end].
  assert (P : forall x v, calm v (put_op n x v)) by (intros; apply calm_same; reflexivity).
  destruct (wants_waiter _) as [sq|]; [|eapply calm_trans; [apply P|apply calm_semaphore]].
  destruct (y_cur _) as [a|]; [|apply calm_end]. destruct (nth_error _ a) as [s|]; [|apply calm_refl].
  destruct (create_response_waiter obj (Some sq)) as [[[m q]|]|e]; [| |apply calm_end].
  - eapply calm_trans; [|apply calm_semaphore]. eapply calm_trans; [|apply P]. eapply calm_trans; [apply calm_api|apply calm_note; qobs].
  - eapply calm_trans; [apply P|apply calm_semaphore].
Qed.
Lemma calm_run n w : calm w (op_run n w).
Proof.
  unfold op_run. destruct (the_op w n) as [o|]; [|apply calm_refl]. destruct (op_at o) as [|q|q a t|q u|r]; try apply calm_refl.
  - apply calm_begin.
  - destruct (nth_error _ q) as [v|]; [|apply calm_refl]. destruct (0 <? v); [apply calm_admitted|apply calm_refl].
  - destruct (u <=? _); [apply calm_leave|apply calm_refl].
Qed.
Lemma calm_cancel n w : calm w (op_cancel n w).
Proof.
  unfold op_cancel. destruct (the_op w n) as [o|]; [|apply calm_refl]. destruct (op_at o) as [|q|q a t|q u|r]; try apply calm_refl; try apply calm_end.
  - eapply calm_trans; [apply calm_api|apply calm_after].
  - apply calm_leave.
Qed.
Lemma calm_effect a e w : calm w (world_effect a w e).
Proof.
  unfold world_effect. assert (B : calm w (wnote (WEffect a e) w)) by (apply calm_note; qobs).
  destruct e; try exact B. destruct (y_cur _) as [c|]; [|exact B]. eapply calm_trans; [exact B|apply calm_api].
Qed.
Lemma calm_effects a effs : forall w, calm w (fold_left (world_effect a) effs w).
Proof. induction effs as [|e l IH]; intro w; [apply calm_refl|]. cbn [fold_left]. eapply calm_trans; [apply calm_effect|apply IH]. Qed.
Lemma calm_received a f w : calm w (fst (world_received a w f)).
Proof.
  unfold world_received. destruct (nth_error (w_apis w) a) as [s|]; [|apply calm_refl]. destruct (from_unpi_frame f) as [o|e]; [|apply calm_refl]. cbv zeta.
  destruct (dispatch _ _ _) as [[s1 o'] r]. destruct r as [u|e]; [|apply calm_api]. destruct (s_app s1); [|apply calm_api]. cbn [fst].
  unfold world_handle. destruct (handle_znp _ _ o') as [[devs effs] x]. cbn [fst snd].
  eapply calm_trans; [apply calm_api|]. eapply calm_trans; [|apply calm_effects]. apply calm_same; reflexivity.
Qed.
Lemma calm_gw a data : forall b w, calm w (snd (fst (gw_data_received (world_received a) b w data))).
Proof.
  induction data as [|x data IH]; intros b w; cbn [gw_data_received]; [apply calm_refl|].
  destruct (parser_write b x) as [b1 [[f|]|e]]; [|apply IH|apply calm_refl].
  pose proof (calm_received a f w) as P. destruct (world_received a w f) as [w1 [u|e]]; cbn [fst] in P; [|exact P].
  eapply calm_trans; [exact P|apply IH].
Qed.
Lemma calm_receive a data w : calm w (world_receive a data w).
Proof.
  unfold world_receive. destruct (nth_error (w_apis w) a) as [s|]; [|apply calm_refl].
  pose proof (calm_gw a data (s_buf s) w) as P. destruct (gw_data_received (world_received a) (s_buf s) w data) as [[b w1] r]. cbn [fst snd] in P.
  assert (Q : calm w (on_api a (set_buf b) w1)) by (eapply calm_trans; [exact P|apply calm_api]).
  destruct r; [exact Q|]. eapply calm_trans; [exact Q|]. apply calm_note; qobs.
Qed.
Definition other_event (e : wevent) : bool := match e with VLife _ | VGotVersion _ _ | VGotDevice _ _ _ => false | _ => true end.
Lemma calm_step e w : other_event e = true -> calm w (world_step e w).
Proof.
  intro N. destruct e; try discriminate N; cbn [world_step]; try apply calm_run; try apply calm_cancel; try apply calm_api; try apply calm_receive;
    try (eapply calm_trans; [apply calm_api|apply calm_afters]).
  - destruct (uses_sem j); [|apply calm_refl]. eapply calm_trans; [|apply calm_note; qobs]. apply calm_same; reflexivity.
  - destruct (uses_sem j); [apply calm_refl|apply calm_api].
  - destruct (0 <=? ms); [apply calm_same; reflexivity|apply calm_refl].
Qed.
Lemma life_other e w : other_event e = true -> w_life (world_step e w) = w_life w.
Proof. intro N. apply (calm_step e w N). Qed.

(** ** API objects *)
Lemma apis_goto n p w : w_apis (op_goto n p w) = w_apis w.
Proof. unfold op_goto. destruct (the_op w n); reflexivity. Qed.
Lemma apis_slot q d w : w_apis (slot_change q d w) = w_apis w.
Proof. unfold slot_change. destruct (nth_error _ q); reflexivity. Qed.
Lemma apis_leave n q r w : w_apis (op_leave n q r w) = w_apis w.
Proof. unfold op_leave, op_end. wfld. rewrite apis_goto. apply apis_slot. Qed.
Lemma apis_after n w : w_apis (op_after n w) = w_apis w.
Proof.
  unfold op_after. destruct (the_op w n) as [o|]; [|reflexivity]. destruct (op_at o) as [| |q a t| |]; try reflexivity.
  destruct (nth_error (w_apis w) a) as [s|]; [|reflexivity]. destruct (get s t) as [k|]; [|reflexivity].
  destruct (t_phase k) as [| | | | | | | | | |r]; try reflexivity. destruct r; try apply apis_leave. destruct (settles _); [apply apis_goto|apply apis_leave].
Qed.
Lemma apis_afters w : w_apis (ops_after w) = w_apis w.
Proof.
  unfold ops_after. generalize (List.seq 0 (length (w_ops w))). intro l. revert w. induction l as [|n l IH]; intro w; [reflexivity|].
  cbn [fold_left]. rewrite IH. apply apis_after.
Qed.
Lemma nth_on_api w a f s : nth_error (w_apis w) a = Some s -> nth_error (w_apis (on_api a f w)) a = Some (f s).
Proof. intro A. unfold on_api. rewrite A. wfld. rewrite nth_set, Nat.eqb_refl, A. reflexivity. Qed.
Lemma step_ext e w : wreachable w -> ext w (world_step e w).
Proof.
  intro R. pose proof (wreach_good w R) as G. pose proof (wreach_linked w R) as L. pose proof (world_step_p e w G) as P. clear R. revert G L.
  induction P as [v|u v x H1 H2 IH]; intros G L; [apply ext_refl; reflexivity|].
  eapply ext_trans; [apply ext_p; eassumption|apply IH; [eapply good_p|eapply linked_p]; eassumption].
Qed.
Definition all_heard (w : world) : Prop := forall a s, nth_error (w_apis w) a = Some s -> Heard s.
Lemma heard_p w w' : Good w -> wprim w w' -> all_heard w -> all_heard w'.
Proof.
  intros G H A.
  assert (X : forall a s s', nth_error (w_apis w) a = Some s -> xprims s s' -> Heard s').
  { intros a s s' E X. eapply heard_xs; [exact X|apply (proj2 (proj2 G) a s E)|apply (A a s E)]. }
  assert (S : forall a s s', nth_error (w_apis w) a = Some s -> xprims s s' -> forall b r, nth_error (set_nth a s' (w_apis w)) b = Some r -> Heard r).
  { intros a s s' E Y b r. rewrite nth_set. destruct (Nat.eqb_spec b a) as [->|]; [|apply A]. rewrite E. intros [= <-]. eapply X; eassumption. }
  destruct H; unfold all_heard, got_version in *; wfld; try exact A.
  - eapply S; eassumption.
  - intros b r. rewrite nth_map. destruct (nth_error (w_apis w) b) as [s|] eqn:E; [|discriminate]. intros [= <-]. eapply X; [exact E|apply tick_x, H].
  - intros b r. unfold life_event_happens. wfld. rewrite sync_nth. destruct (nth_error (y_apis _) b) as [x|]; [|discriminate]. intros [= <-].
    assert (F : forall s, xprims s (flags x s)) by (intro s; unfold flags; eapply xprims_cons; [apply X_open|]; apply xprims_one, X_app).
    destruct (nth_error (w_apis w) b) as [s|] eqn:E; [eapply X; [exact E|apply F]|]. eapply heard_xs; [apply F|apply winv_new|apply heard_new].
  - eapply S; [eassumption|apply xprims_one, X_wait].
  - eapply S; [eassumption|apply call_raw_x, (proj2 (proj2 G) _ _ H5)].
Qed.
Lemma wreach_heard w : wreachable w -> all_heard w.
Proof. revert w. apply wreach_ind; [intros devs a s; destruct a; discriminate|exact heard_p]. Qed.
Definition versioned (w : world) : Prop := forall q c, In (WNewSem q c) (w_log w) -> w_version w <> None.
Lemma wreach_versioned w : wreachable w -> versioned w.
Proof.
  revert w. apply wreach_ind; [intros devs q c []|]. intros w w' _ H V. destruct H; unfold versioned, life_event_happens, got_version in *; wfld; try exact V;
    try (intros q0 c0 X; apply in_app_or in X; destruct X as [X|[X|[]]]; [eapply V, X|]; try discriminate X).
  - subst o. discriminate H.
  - discriminate.
Qed.

(** ** coroutines *)
Lemma stage_kept e s u k : nth_error (y_tasks s) u = Some k -> (forall r, e <> VGo u r) -> nth_error (y_tasks (life_step e s)) u = Some k.
Proof.
  intros G N.
  assert (At : forall t x s1, t <> u -> nth_error (y_tasks (at_stage t x s1)) u = nth_error (y_tasks s1) u).
  { intros t x s1 D. unfold at_stage. destruct (nth_error (y_tasks s1) t); [|reflexivity]. cbn [with_tasks y_tasks]. rewrite nth_set. destruct (Nat.eqb_spec u t); [congruence|reflexivity]. }
  assert (Top : forall t s1, t <> u -> nth_error (y_tasks (loop_top t s1)) u = nth_error (y_tasks s1) u).
  { intros t s1 D. unfold loop_top. rewrite At by exact D. cbn [log y_tasks]. rewrite tasks_app_close. reflexivity. }
  assert (En : forall t r s1, t <> u -> nth_error (y_tasks (startup_ended t r s1)) u = nth_error (y_tasks s1) u).
  { intros t r s1 D. unfold startup_ended. cbv zeta. destruct (nth_error (y_tasks (log (LResult t r) s1)) t) as [k1|]; [|reflexivity].
    destruct r as [v|x]; [rewrite At by exact D; reflexivity|].
    destruct x; try (rewrite At by exact D; reflexivity); (destruct (k_loop k1); [rewrite Top by exact D|rewrite At by exact D]; reflexivity). }
  assert (Be : forall t r s1, t <> u -> nth_error (y_tasks (startup_begins t r s1)) u = nth_error (y_tasks s1) u).
  { intros t r s1 D. unfold startup_begins. cbv zeta. destruct r as [v|x]; [rewrite At by exact D; reflexivity|rewrite En by exact D; reflexivity]. }
  destruct e as [r| |g|t r]; cbn [life_step].
  - rewrite Be by (pose proof (nth_lt _ _ _ G); lia). cbn [with_tasks y_tasks]. rewrite nth_error_app1; [exact G|eapply nth_lt, G].
  - destruct (y_cur s); [rewrite tasks_close; exact G|exact G].
  - unfold lost. destruct (nth_error (y_gws s) g) as [x|]; [|exact G]. destruct (g_told x); [exact G|]. cbv zeta. destruct (g_open x); [|exact G].
    destruct (nth_error _ (g_api x)) as [a|]; [|exact G]. destruct (a_app a); [|exact G]. cbn [with_tasks with_gws log y_tasks]. rewrite nth_error_app1; [exact G|eapply nth_lt, G].
  - assert (D : t <> u) by (intros ->; apply (N r eq_refl)). unfold go_on. destruct (nth_error (y_tasks s) t) as [k1|]; [|exact G].
    destruct (k_stage k1) as [| |a g| |r0].
    + destruct r as [v|x]; [rewrite Top by exact D; exact G|]. destruct x; try (rewrite Top by exact D; exact G). rewrite At by exact D. exact G.
    + destruct r as [v|x]; [rewrite Be by exact D; exact G|]. destruct x; try (rewrite Be by exact D; exact G). rewrite At by exact D. exact G.
    + destruct r as [v|x]; [rewrite At by exact D; exact G|]. destruct x; try (rewrite At by exact D; exact G). rewrite En by exact D. exact G.
    + rewrite En by exact D. exact G.
    + exact G.
Qed.
