(** * WholeProofs: the start-ups of the application, step by step *)
From Coq Require Import ZifyBool ZifyNat.
From Verif Require Import Base Types Uart Buffalo CmdTable Zpi Api App Machine Life World SpecMachine SpecLife SpecWorld
  ApiProofs AppProofs AppProofs2 MachineBase MachineInv MachineInv2 DispatchProofs LifeProofs2 LifeProofs3 WorldInv WorldFace WorldBase WorldLife WorldProofs2 WorldProofs4
  Nv StartZnp AppStart SpecStart Host SpecHost HostProofs Whole WholeInv WholeHost WholeBase.

(** ** more about coroutines *)
Lemma ended_stage t r s k : nth_error (y_tasks (startup_ended t r s)) t = Some k -> (exists k0, nth_error (y_tasks s) t = Some k0 /\ k_loop k = k_loop k0) /\ k_stage k <> KRequests.
Proof.
  destruct (nth_error (y_tasks s) t) as [k0|] eqn:E.
  - destruct (ended_shape t r k0 s E) as [S _]. rewrite S, nth_set, Nat.eqb_refl, E. intros [= <-]. split; [exists k0; split; reflexivity|].
    cbn [k_stage]. destruct (_ && _); discriminate.
  - unfold startup_ended. cbv zeta. cbn [log y_tasks]. rewrite E. cbn [log y_tasks]. congruence.
Qed.
Lemma begins_stage t r s k : nth_error (y_tasks (startup_begins t r s)) t = Some k -> (exists k0, nth_error (y_tasks s) t = Some k0 /\ k_loop k = k_loop k0) /\ k_stage k <> KRequests.
Proof.
  unfold startup_begins. cbv zeta. destruct r as [v|e]; [|intro G; exact (ended_stage t (Err e) _ k G)]. destruct (nth_error (y_tasks s) t) as [k0|] eqn:E; unfold at_stage; cbn [with_gws with_apis log y_tasks]; rewrite E.
  - cbn [with_tasks y_tasks]. rewrite nth_set, Nat.eqb_refl, E. intros [= <-]. split; [exists k0; split; reflexivity|discriminate].
  - cbn [with_gws with_apis log y_tasks]. congruence.
Qed.
Lemma stage_fresh e s u k : nth_error (y_tasks s) u = None -> nth_error (y_tasks (life_step e s)) u = Some k ->
  k_stage k <> KRequests /\ (k_loop k = false -> exists r, e = VStartup r /\ u = length (y_tasks s)).
Proof.
  intros N G. destruct e as [r| |g|t r]; cbn [life_step] in G.
  - destruct (Nat.eqb_spec u (length (y_tasks s))) as [->|D].
    + split; [exact (proj2 (begins_stage _ _ _ _ G))|eauto].
    + exfalso. assert (L : (length (y_tasks s) < u)%nat) by (apply nth_error_None in N; lia).
      assert (B : length (y_tasks (startup_begins (length (y_tasks s)) r (with_tasks (y_tasks s ++ [mk_coroutine false KBegin]) s))) = S (length (y_tasks s))).
      { set (s1 := with_tasks _ s). assert (L1 : length (y_tasks s1) = S (length (y_tasks s))) by (unfold s1; cbn [with_tasks y_tasks]; rewrite app_length; cbn [length]; lia).
        rewrite <- L1. generalize (length (y_tasks s)). intro t. unfold startup_begins. cbv zeta. destruct r as [v|x].
        - unfold at_stage. cbn [with_gws with_apis log y_tasks]. destruct (nth_error (y_tasks s1) t); [cbn [with_tasks y_tasks]; apply len_set|reflexivity].
        - set (s2 := with_apis _ _). change (length (y_tasks s1)) with (length (y_tasks s2)). destruct (nth_error (y_tasks s2) t) as [k1|] eqn:E1.
          + destruct (ended_shape t (Err x) k1 s2 E1) as [S _]. rewrite S, len_set. reflexivity.
          + unfold startup_ended. cbv zeta. cbn [log y_tasks]. rewrite E1. reflexivity. }
      apply nth_lt in G. lia.
  - destruct (y_cur s); [rewrite tasks_close in G|cbn [log y_tasks] in G]; congruence.
  - unfold lost in G. destruct (nth_error (y_gws s) g) as [x|]; [|congruence]. destruct (g_told x); [congruence|]. cbv zeta in G. destruct (g_open x); [|cbn [log with_gws y_tasks] in G; congruence].
    destruct (nth_error _ (g_api x)) as [a|]; [|cbn [log with_gws y_tasks] in G; congruence]. destruct (a_app a); cbn [with_tasks with_gws log y_tasks] in G; [|congruence].
    rewrite nth_snoc in G. destruct (Nat.eqb u (length (y_tasks s))); [|congruence]. injection G as <-. split; discriminate.
  - exfalso. assert (L : length (y_tasks (go_on t r s)) = length (y_tasks s)).
    { unfold go_on. destruct (nth_error (y_tasks s) t) as [k1|] eqn:E1; [|reflexivity].
      assert (At : forall x s1, length (y_tasks (at_stage t x s1)) = length (y_tasks s1)) by (intros x s1; unfold at_stage; destruct (nth_error (y_tasks s1) t); [cbn [with_tasks y_tasks]; apply len_set|reflexivity]).
      assert (Top : length (y_tasks (loop_top t s)) = length (y_tasks s)) by (unfold loop_top; rewrite At; cbn [log y_tasks]; rewrite tasks_app_close; reflexivity).
      assert (En : forall r s1, y_tasks s1 = y_tasks s -> length (y_tasks (startup_ended t r s1)) = length (y_tasks s)).
      { intros r1 s1 Es. rewrite <- Es in E1. destruct (ended_shape t r1 k1 s1 E1) as [S _]. rewrite S, len_set, Es. reflexivity. }
      assert (Be : length (y_tasks (startup_begins t r s)) = length (y_tasks s)) by (unfold startup_begins; cbv zeta; destruct r; [rewrite At; reflexivity|apply En; reflexivity]).
      destruct (k_stage k1) as [| |a g| |r0].
      - destruct r as [v|x]; [exact Top|]. destruct x; try exact Top. rewrite At. reflexivity.
      - destruct r as [v|x]; [exact Be|]. destruct x; try exact Be. rewrite At. reflexivity.
      - destruct r as [v|x]; [rewrite At; reflexivity|]. destruct x; try (rewrite At; reflexivity). apply En; reflexivity.
      - apply En; reflexivity.
      - reflexivity. }
    apply nth_lt in G. apply nth_error_None in N. lia.
Qed.
Lemma starting_life e w u : (forall r, e <> VGo u r) -> starting (world_step (VLife e) w) u = starting w u.
Proof.
  intro N. unfold starting. cbn [world_step]. unfold life_event_happens. wfld. destruct (nth_error (y_tasks (w_life w)) u) as [k|] eqn:E.
  - rewrite (stage_kept e _ u k E N). reflexivity.
  - destruct (nth_error (y_tasks (life_step e (w_life w))) u) as [k|] eqn:E1; [|reflexivity].
    destruct (stage_fresh e _ u k E E1) as [S _]. destruct (k_stage k); congruence.
Qed.
Lemma starting_other e w u : other_event e = true -> starting (world_step e w) u = starting w u.
Proof. intro N. unfold starting. rewrite life_other by exact N. reflexivity. Qed.
Lemma starting_over t r w : starting w t = true -> starting (world_step (VLife (VGo t r)) w) t = false.
Proof.
  unfold starting. cbn [world_step]. unfold life_event_happens. wfld. cbn [life_step]. unfold go_on. destruct (nth_error (y_tasks (w_life w)) t) as [k|] eqn:E; [|discriminate].
  destruct (k_stage k); try discriminate. intros _. destruct (nth_error (y_tasks (startup_ended t r (w_life w))) t) as [k1|] eqn:E1; [|reflexivity].
  destruct (ended_stage t r _ k1 E1) as [_ S]. destruct (k_stage k1); congruence.
Qed.
(** [self._api] is set while a start-up makes its requests *)
Definition has_api (s : life) : Prop := forall t k, nth_error (y_tasks s) t = Some k -> k_stage k = KRequests -> y_cur s <> None.
Lemma cur_kept e s : y_cur s <> None -> y_cur (life_step e s) <> None.
Proof.
  intro C. assert (At : forall t x s1, y_cur (at_stage t x s1) = y_cur s1) by (intros; unfold at_stage; destruct (nth_error _ _); reflexivity).
  assert (Cl : forall a s1, y_cur (api_close a s1) = y_cur s1).
  { intros a s1. unfold api_close, gw_close. destruct (nth_error _ a) as [x|]; [|reflexivity]. destruct (a_uart x) as [g|]; [|reflexivity]. destruct (nth_error _ g); reflexivity. }
  assert (Top : forall t s1, y_cur (loop_top t s1) = y_cur s1).
  { intros t s1. unfold loop_top. rewrite At. cbn [log y_cur]. unfold app_close. destruct (y_cur s1) eqn:E; [rewrite Cl|]; exact E. }
  assert (En : forall t r s1, y_cur (startup_ended t r s1) = y_cur s1).
  { intros t r s1. unfold startup_ended. cbv zeta. destruct (nth_error _ t) as [k|]; [|reflexivity].
    destruct r as [v|x]; [rewrite At; reflexivity|]. destruct x; try (rewrite At; reflexivity); (destruct (k_loop k); [rewrite Top|rewrite At]; reflexivity). }
  assert (Be : forall t r s1, y_cur (startup_begins t r s1) = y_cur s1) by (intros t r s1; unfold startup_begins; cbv zeta; destruct r; [rewrite At|rewrite En]; reflexivity).
  destruct e as [r| |g|t r]; cbn [life_step].
  - rewrite Be. exact C.
  - destruct (y_cur s) eqn:E; [rewrite Cl, E; discriminate|congruence].
  - unfold lost. destruct (nth_error (y_gws s) g) as [x|]; [|exact C]. destruct (g_told x); [exact C|]. cbv zeta. destruct (g_open x); [|exact C].
    destruct (nth_error _ (g_api x)) as [a|]; [|exact C]. destruct (a_app a); exact C.
  - unfold go_on. destruct (nth_error (y_tasks s) t) as [k1|]; [|exact C].
    destruct (k_stage k1) as [| |a g| |r0].
    + destruct r as [v|x]; [rewrite Top; exact C|]. destruct x; try (rewrite Top; exact C). rewrite At. exact C.
    + destruct r as [v|x]; [rewrite Be; exact C|]. destruct x; try (rewrite Be; exact C). rewrite At. exact C.
    + destruct r as [v|x]; [rewrite At; discriminate|]. destruct x; try (rewrite At; discriminate). rewrite En. exact C.
    + rewrite En. exact C.
    + exact C.
Qed.
Lemma has_api_step e s : has_api s -> has_api (life_step e s).
Proof.
  intros H t k G K. destruct (nth_error (y_tasks s) t) as [k0|] eqn:E.
  - assert (D : (forall r, e <> VGo t r) \/ exists r, e = VGo t r) by (destruct e as [| | |u r]; try (left; discriminate); destruct (Nat.eq_dec u t) as [->|]; [right; eauto|left; congruence]).
    destruct D as [D|[r ->]].
    + rewrite (stage_kept e s t k0 E D) in G. injection G as ->. apply cur_kept. eapply H; eassumption.
    + cbn [life_step] in *. unfold go_on in *. rewrite E in *. destruct (k_stage k0) as [| |a g| |r0] eqn:K0.
      * exfalso. assert (Z : forall x, nth_error (y_tasks (at_stage t x (log (LCancel t) s))) t = Some k -> k_stage k = x).
        { intros x. unfold at_stage. cbn [log y_tasks]. rewrite E. cbn [with_tasks log y_tasks]. rewrite nth_set, Nat.eqb_refl, E. intros [= <-]. reflexivity. }
        assert (Y : nth_error (y_tasks (loop_top t s)) t = Some k -> k_stage k = KSleep).
        { unfold loop_top, at_stage. cbn [log y_tasks]. rewrite tasks_app_close, E. cbn [with_tasks log y_tasks]. rewrite ?tasks_app_close, nth_set, Nat.eqb_refl, E. intros [= <-]. reflexivity. }
        destruct r as [v|x]; [apply Y in G; congruence|]. destruct x; try (apply Y in G; congruence). apply Z in G. congruence.
      * exfalso. assert (Z : forall x, nth_error (y_tasks (at_stage t x (log (LCancel t) s))) t = Some k -> k_stage k = x).
        { intros x. unfold at_stage. cbn [log y_tasks]. rewrite E. cbn [with_tasks log y_tasks]. rewrite nth_set, Nat.eqb_refl, E. intros [= <-]. reflexivity. }
        assert (Y := begins_stage t r s k).
        destruct r as [v|x]; [destruct (Y G) as [_ ?]; congruence|]. destruct x; try (destruct (Y G) as [_ ?]; congruence). apply Z in G. congruence.
      * assert (Z := ended_stage t r s k). assert (At : forall x s1, y_cur (at_stage t x s1) = y_cur s1) by (intros x s1; unfold at_stage; destruct (nth_error (y_tasks s1) t); reflexivity).
        destruct r as [v|x]; [rewrite At; discriminate|].
        destruct x; try (rewrite At; discriminate). destruct (Z G) as [_ ?]; congruence.
      * destruct (ended_stage t r s k G) as [_ ?]. congruence.
      * exfalso. congruence.
  - destruct (stage_fresh e s t k E G) as [N _]. congruence.
Qed.
Lemma wreach_api w : wreachable w -> has_api (w_life w).
Proof.
  intro R. destruct (wreach_linked w R) as ((es & ->) & _). clear. induction es as [|e es IH] using rev_ind; [intros [|t] k G; discriminate|].
  rewrite life_run_snoc. apply has_api_step, IH.
Qed.
Lemma starting_cur w t : wreachable w -> starting w t = true -> exists a s, y_cur (w_life w) = Some a /\ nth_error (w_apis w) a = Some s.
Proof.
  intros R S. unfold starting in S. destruct (nth_error (y_tasks (w_life w)) t) as [k|] eqn:E; [|discriminate].
  destruct (y_cur (w_life w)) as [a|] eqn:C; [|destruct (wreach_api w R t k E); [destruct (k_stage k); congruence|exact C]].
  destruct (linked_cur w a (wreach_linked w R) C) as [s A]. eauto.
Qed.

(** ** what an attempt has done *)
Definition later (w w' : world) : Prop := ext w w' /\ incl (w_log w) (w_log w').
Lemma later_refl w : later w w.
Proof. split; [apply ext_refl; reflexivity|apply incl_refl]. Qed.
Lemma later_trans u v w : later u v -> later v w -> later u w.
Proof. intros [A1 B1] [A2 B2]. split; [eapply ext_trans; eassumption|eapply incl_tran; eassumption]. Qed.
Lemma later_step e w : wreachable w -> later w (world_step e w).
Proof.
  intro R. split; [apply step_ext, R|]. destruct (other_event e) eqn:O.
  - destruct (calm_step e w O) as (_ & _ & l & -> & _). apply incl_appl, incl_refl.
  - destruct e; try discriminate O; cbn [world_step]; [unfold life_event_happens; wfld; apply incl_refl| |];
      (destruct (starting w t); [|apply incl_refl]); unfold got_version, got_device; wfld; apply incl_appl, incl_refl.
Qed.
(** part [p0] on API object [a] *)
Definition Leg (w : world) (p0 : prog part_result) (a : nat) (l : list (Z * act)) (pl : place part_result) (ws : list (matcher * Z * Z)) : Prop :=
  exists s, nth_error (w_apis w) a = Some s /\ GInv p0 (mk_host s pl ws l).
Lemma leg_later w w' p0 a l pl ws : later w w' -> Leg w p0 a l pl ws -> Leg w' p0 a l pl ws.
Proof. intros [X _] (s & A & G). destruct (X a s A) as (s' & A' & P). exists s'. split; [exact A'|]. exact (ginv_env p0 (mk_host s pl ws l) s' P G). Qed.
Definition done_leg (w : world) (p0 : prog part_result) (a : nat) (ds : list deed) (r : part_result) : Prop :=
  exists l ws, ds = deeds_of a l /\ Leg w p0 a l (Ready (DRet r)) ws.
Lemma done_later w w' p0 a ds r : later w w' -> done_leg w p0 a ds r -> done_leg w' p0 a ds r.
Proof. intros X (l & ws & E & L). exists l, ws. split; [exact E|eapply leg_later; eassumption]. Qed.
Definition led_deed (w : world) (ds : list deed) : Prop :=
  ds = [] \/ exists a t s, ds = [(a, t, ASpawn UTIL "ledControl" (led_payload LED_Off))] /\ nth_error (w_apis w) a = Some s /\
    has_job s t (JCommand UTIL "ledControl" (led_payload LED_Off) [0]).
Lemma led_later w w' ds : later w w' -> led_deed w ds -> led_deed w' ds.
Proof.
  intros [X _] [->|(a & t & s & -> & A & J)]; [left; reflexivity|]. right. destruct (X a s A) as (s' & A' & P). exists a, t, s'.
  split; [reflexivity|]. split; [exact A'|eapply has_job_xs; eassumption].
Qed.
(** [so_far c auto w ds p]: [ds] was done by complete parts and the part [p] is next *)
Inductive so_far (c : nwk_config) (auto : bool) (w : world) : list deed -> prog part_result -> Prop :=
| far_begin : so_far c auto w [] part_ping
| far_pinged a ds : done_leg w part_ping a ds TPong -> so_far c auto w ds part_version
| far_known a1 ds1 a2 ds2 product q : done_leg w part_ping a1 ds1 TPong -> done_leg w part_version a2 ds2 (TVersion product) ->
    known_product product = true -> In (WNewSem q (concurrent product)) (w_log w) ->
    so_far c auto w (ds1 ++ ds2) (if auto then part_form product c else part_device)
| far_formed a1 ds1 a2 ds2 product q a3 ds3 r led : auto = true -> done_leg w part_ping a1 ds1 TPong -> done_leg w part_version a2 ds2 (TVersion product) ->
    known_product product = true -> In (WNewSem q (concurrent product)) (w_log w) ->
    done_leg w (part_form product c) a3 ds3 (TFormed r) -> led_deed w led ->
    so_far c auto w (ds1 ++ ds2 ++ ds3 ++ led) part_device.
Lemma far_later c auto w w' ds p : later w w' -> so_far c auto w ds p -> so_far c auto w' ds p.
Proof.
  intros X H. destruct H.
  - constructor.
  - econstructor. eapply done_later; eassumption.
  - econstructor; [eapply done_later; eassumption|eapply done_later; eassumption|assumption|apply X; eassumption].
  - econstructor; [assumption|eapply done_later; eassumption|eapply done_later; eassumption|assumption|apply X; eassumption|eapply done_later; eassumption|eapply led_later; eassumption].
Qed.
(** how an attempt ends *)
Inductive over (c : nwk_config) (auto : bool) (w : world) : list deed -> result unit -> Prop :=
| over_raised ds p a l ws e : so_far c auto w ds p -> Leg w p a l (Ready (DRaise e)) ws -> over c auto w (ds ++ deeds_of a l) (Err e)
| over_unknown a1 ds1 a2 ds2 product : done_leg w part_ping a1 ds1 TPong -> done_leg w part_version a2 ds2 (TVersion product) ->
    known_product product = false -> over c auto w (ds1 ++ ds2) (Err ValueError)
| over_well ds a ds' ieee nwk : so_far c auto w ds part_device -> done_leg w part_device a ds' (TDevice ieee nwk) ->
    In (WAdded ieee nwk) (w_log w) -> over c auto w (ds ++ ds') (Ok tt).
Lemma over_later c auto w w' ds r : later w w' -> over c auto w ds r -> over c auto w' ds r.
Proof.
  intros X H. destruct H.
  - econstructor; [eapply far_later; eassumption|eapply leg_later; eassumption].
  - eapply over_unknown; [eapply done_later; eassumption..|assumption].
  - eapply over_well; [eapply far_later; eassumption|eapply done_later; eassumption|apply X; assumption].
Qed.

(** ** the invariant *)
Definition boot_ok (c : nwk_config) (w : world) (t : nat) (b : boot) : Prop :=
  match b_part b with
  | None => b_deeds b = [] /\ starting w t = false
  | Some p => starting w t = true /\ exists pre p0 l, b_deeds b = pre ++ deeds_of (r_api p) l /\
      so_far c (b_auto b) w pre p0 /\ Leg w p0 (r_api p) l (r_place p) (r_waiters p)
  end.
Lemma boot_later c w w' t b : later w w' -> starting w' t = starting w t -> boot_ok c w t b -> boot_ok c w' t b.
Proof.
  intros X S. unfold boot_ok. rewrite S. destruct (b_part b) as [p|]; [|auto]. intros (St & pre & p0 & l & E & F & L). split; [exact St|].
  exists pre, p0, l. split; [exact E|]. split; [eapply far_later|eapply leg_later]; eassumption.
Qed.
Record XInv (c : nwk_config) (x : whole) : Prop := mk_XInv {
  I_world : wreachable (x_world x);
  I_boots : forall t, boot_ok c (x_world x) t (x_boots x t);
  I_loops : forall t, b_auto (x_boots x t) = true \/ exists k, nth_error (y_tasks (w_life (x_world x))) t = Some k /\ k_loop k = false;
  I_over : forall t auto ds r at_, In (XOver t auto ds r at_) (x_log x) -> over c auto (x_world x) ds r /\
    (auto = true \/ exists k, nth_error (y_tasks (w_life (x_world x))) t = Some k /\ k_loop k = false);
  I_sems : forall q n, In (WNewSem q n) (w_log (x_world x)) -> exists a ds product, done_leg (x_world x) part_version a ds (TVersion product) /\ n = concurrent product;
  I_devs : forall i n, In (WAdded i n) (w_log (x_world x)) -> exists a ds, done_leg (x_world x) part_device a ds (TDevice i n) }.
Definition user_called (w : world) (t : nat) : Prop := exists k, nth_error (y_tasks (w_life w)) t = Some k /\ k_loop k = false.
Lemma wreach_step e w : wreachable w -> wreachable (world_step e w).
Proof. intros (devs & es & ->). exists devs, (es ++ [e]). rewrite world_run_snoc. reflexivity. Qed.
Lemma user_step e w t : user_called w t -> user_called (world_step e w) t.
Proof.
  intros (k & G & L). destruct (other_event e) eqn:O.
  - exists k. rewrite life_other by exact O. auto.
  - destruct e as [| | | | | | | | | |e| |]; try discriminate O.
    + destruct (kept_step e (w_life w) t k G) as (k' & G' & L'). exists k'. split; [exact G'|congruence].
    + cbn [world_step]. exists k. destruct (starting w _); [|auto]. unfold got_version. wfld. auto.
    + cbn [world_step]. exists k. destruct (starting w _); [|auto]. unfold got_device. wfld. auto.
Qed.
(** a step of the world that is no answer to a start-up, and leaves start-ups where they are *)
Lemma log_life e w : w_log (world_step (VLife e) w) = w_log w.
Proof. reflexivity. Qed.
Lemma news_calm e w o : match e with VGotVersion _ _ | VGotDevice _ _ _ => False | _ => True end -> ~ quiet_obs o -> In o (w_log (world_step e w)) -> In o (w_log w).
Proof.
  intros N Q H. destruct (other_event e) eqn:O.
  - destruct (calm_step e w O) as (_ & _ & l & E & F). rewrite E in H. apply in_app_or in H. destruct H as [H|H]; [exact H|]. rewrite Forall_forall in F. destruct (Q (F o H)).
  - destruct e; try discriminate O; try contradiction. rewrite log_life in H. exact H.
Qed.
Lemma new_sem_loud q n : ~ quiet_obs (WNewSem q n).
Proof. intros [_ H]. apply (H q n eq_refl). Qed.
Lemma added_loud i n : ~ quiet_obs (WAdded i n).
Proof. intros [H _]. apply (H i n eq_refl). Qed.

(** the world moves from [x_world x] to [w']; boots and log to [b'], [l'] *)
Lemma xinv_moves c x w' b' u' l' : XInv c x -> wreachable w' -> later (x_world x) w' -> (forall t, user_called (x_world x) t -> user_called w' t) ->
  (forall t, boot_ok c w' t (b' t)) -> (forall t, b_auto (b' t) = b_auto (x_boots x t) \/ user_called w' t) ->
  (forall t auto ds r at_, In (XOver t auto ds r at_) l' -> In (XOver t auto ds r at_) (x_log x) \/ over c auto w' ds r /\ (auto = true \/ user_called w' t)) ->
  (forall q n, In (WNewSem q n) (w_log w') -> In (WNewSem q n) (w_log (x_world x)) \/ exists a ds product, done_leg w' part_version a ds (TVersion product) /\ n = concurrent product) ->
  (forall i n, In (WAdded i n) (w_log w') -> In (WAdded i n) (w_log (x_world x)) \/ exists a ds, done_leg w' part_device a ds (TDevice i n)) ->
  XInv c (mk_whole w' b' u' l').
Proof.
  intros [I1 I2 I3 I4 I5 I6] R X U B Lo O S D. constructor; cbn [x_world x_boots x_log].
  - exact R.
  - exact B.
  - intro t. destruct (Lo t) as [E|H]; [|right; exact H]. destruct (I3 t) as [H|H]; [left; congruence|right; apply U, H].
  - intros t auto ds r at_ H. destruct (O t auto ds r at_ H) as [H1|H1]; [|exact H1]. destruct (I4 t auto ds r at_ H1) as [A B1].
    split; [eapply over_later; eassumption|]. destruct B1 as [B1|B1]; [left; exact B1|right; apply U, B1].
  - intros q n H. destruct (S q n H) as [H1|H1]; [|exact H1]. destruct (I5 q n H1) as (a & ds & p & A & E). exists a, ds, p. split; [eapply done_later; eassumption|exact E].
  - intros i n H. destruct (D i n H) as [H1|H1]; [|exact H1]. destruct (I6 i n H1) as (a & ds & A). exists a, ds. eapply done_later; eassumption.
Qed.
(** the same state with another sleep *)
Lemma xinv_until c x u : XInv c x -> XInv c (mk_whole (x_world x) (x_boots x) u (x_log x)).
Proof. intros [I1 I2 I3 I4 I5 I6]. constructor; assumption. Qed.
Lemma xinv_asleep c t x : XInv c x -> XInv c (falls_asleep t x).
Proof. intro H. unfold falls_asleep. destruct (stage_of (x_world x) t) as [[]|]; try exact H; apply xinv_until, H. Qed.
Lemma asleep_world t x : x_world (falls_asleep t x) = x_world x.
Proof. unfold falls_asleep. destruct (stage_of (x_world x) t) as [[]|]; reflexivity. Qed.
Lemma asleep_boots t x : x_boots (falls_asleep t x) = x_boots x.
Proof. unfold falls_asleep. destruct (stage_of (x_world x) t) as [[]|]; reflexivity. Qed.
Lemma xinv_tries c t x : XInv c x -> XInv c (tries t x).
Proof.
  intros [I1 I2 I3 I4 I5 I6]. constructor; try assumption. cbn [tries xnote x_log x_world]. intros u auto ds r at_ H. apply in_app_or in H. destruct H as [H|[H|[]]]; [eapply I4, H|discriminate].
Qed.
Lemma put_at_same {A} t (b : A) f : put_at t b f t = b.
Proof. unfold put_at. rewrite Nat.eqb_refl. reflexivity. Qed.
Lemma put_at_other {A} t u (b : A) f : u <> t -> put_at t b f u = f u.
Proof. intro N. unfold put_at. destruct (Nat.eqb_spec u t); congruence. Qed.
(** only a boot changes *)
Lemma xinv_boot c x t b : XInv c x -> boot_ok c (x_world x) t b -> b_auto b = b_auto (x_boots x t) \/ user_called (x_world x) t -> XInv c (put_boot t b x).
Proof.
  intros H B A. unfold put_boot. apply (xinv_moves c x); try (left; assumption); auto; [apply H|apply later_refl| |].
  - intro u. destruct (Nat.eq_dec u t) as [->|N]; [rewrite put_at_same; exact B|rewrite put_at_other by exact N; apply H].
  - intro u. destruct (Nat.eq_dec u t) as [->|N]; [rewrite put_at_same; exact A|rewrite put_at_other by exact N; left; reflexivity].
Qed.
(** an event of the world that is not about start-ups *)
Lemma xinv_happens c x e : XInv c x -> match e with VGotVersion _ _ | VGotDevice _ _ _ => False | _ => True end ->
  (forall t, starting (world_step e (x_world x)) t = starting (x_world x) t) -> XInv c (happens e x).
Proof.
  intros H N S. unfold happens. pose proof (I_world c x H) as R. apply (xinv_moves c x); auto.
  - apply wreach_step, R.
  - apply later_step, R.
  - intros t U. apply user_step, U.
  - intro t. eapply boot_later; [apply later_step, R|apply S|apply H].
  - intros q n X. left. eapply news_calm; [exact N|apply new_sem_loud|exact X].
  - intros i n X. left. eapply news_calm; [exact N|apply added_loud|exact X].
Qed.

(** ** the end of an attempt *)
Lemma xinv_over c x t r : XInv c x -> starting (x_world x) t = true ->
  over c (b_auto (x_boots x t)) (x_world x) (b_deeds (x_boots x t)) r -> XInv c (attempt_over t r x).
Proof.
  intros H S O. unfold attempt_over. apply xinv_asleep. unfold put_boot, xnote, happens. cbn [x_world x_boots x_until x_log].
  pose proof (I_world c x H) as R. set (w' := world_step (VLife (VGo t r)) (x_world x)).
  assert (X : later (x_world x) w') by apply later_step, R.
  apply (xinv_moves c x); auto.
  - apply wreach_step, R.
  - intros u U. apply user_step, U.
  - intro u. destruct (Nat.eq_dec u t) as [->|N].
    + rewrite put_at_same. split; [reflexivity|]. apply starting_over, S.
    + rewrite put_at_other by exact N. eapply boot_later; [exact X| |apply H]. apply starting_life. intros r0 [= E]. congruence.
  - intro u. left. destruct (Nat.eq_dec u t) as [->|N]; [rewrite put_at_same|rewrite put_at_other by exact N]; reflexivity.
  - intros u auto ds r0 at_ E. apply in_app_or in E. destruct E as [E|[E|[]]]; [left; exact E|right]. injection E as <- <- <- <- _.
    split; [eapply over_later; eassumption|]. destruct (I_loops c x H t) as [L|L]; [left; exact L|right; apply user_step, L].
Qed.
(** ** the next part *)
Lemma xinv_next c x t p : XInv c x -> starting (x_world x) t = true -> so_far c (b_auto (x_boots x t)) (x_world x) (b_deeds (x_boots x t)) p ->
  XInv c (next_part t p x).
Proof.
  intros H S F. unfold next_part. pose proof (I_world c x H) as R. destruct (starting_cur _ t R S) as (a & s & C & A). rewrite C.
  apply xinv_boot; [exact H| |left; reflexivity]. unfold boot_ok. cbn [b_part b_deeds b_auto r_api r_place r_waiters]. split; [exact S|].
  exists (b_deeds (x_boots x t)), p, []. split; [cbn [deeds_of map]; rewrite app_nil_r; reflexivity|]. split; [exact F|].
  exists s. split; [exact A|]. apply (ginv_start p s); [apply (proj2 (proj2 (wreach_good _ R)) a s A)|apply (wreach_heard _ R a s A)].
Qed.
