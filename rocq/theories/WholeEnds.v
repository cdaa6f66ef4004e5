(** * WholeEnds: every start-up comes to an end while connections are lost and made again *)
From Coq Require Import ZifyBool ZifyNat.
From Verif Require Import Base Types Uart Buffalo CmdTable Zpi Api App Machine Life World SpecMachine SpecProgress SpecLife SpecWorld SpecWorldProgress
  MachineBase MachineInv MachineProgress LifeProofs2 LifeProofs3 WorldInv WorldBase WorldLife WorldProofs2 WorldProofs3 WorldProgress WorldProgress2
  Nv StartZnp AppStart SpecStart Host HostProofs SpecHost SpecEnds StartProofs StartProofs5 StartLink AppStartProofs StartSend HostEnds
  Whole WholeInv WholeHost WholeBlind WholeBase WorldOwn WholeProofs WholeProofs2 WholeProofs3 SpecWhole WholeProofs4 WholeTime WholeInd WholeOwn WholeParts SpecWholeEnds.

(** ** no wait of a start-up is longer than a minute *)
Definition act_short (y : act) : Prop := match y with AListen _ to => to <= 60000 | _ => True end.
Lemma start_short v o g b : StartProofs.only act_short (start_znp v o g b).
Proof.
  unfold start_znp, has_configured, configure, needs_init, validate_pan, validate_item, initialise, soft_reset, nv_write, StartZnp.boot, register_endpoints, add_to_group, await_started.
  repeat (onl; cbn [act_short]; try exact I; try (unfold Timeouts_default; lia)).
  apply (only_seq act_short (request SYS "osalNvRead" (item_pan (o_pan o)) [0])); [onl; exact I|intro; onl].
Qed.
Lemma leg_short w p a l pl ws c : Leg w p a l pl ws -> version_part p \/ (exists v, p = part_form (version_of v) c) -> forall u y, In (u, y) (l ++ place_deeds pl) -> act_short y.
Proof.
  intros L P u y Hi.
  assert (S : safe p) by (destruct P as [[->|[->| ->]]|[v ->]]; [apply safe_ping|apply safe_version|apply safe_device|apply safe_form]).
  destruct (leg_run _ _ _ _ _ _ L S) as (tr & Lt & R).
  destruct (likes_in _ _ y Lt) as (y' & Hy & Ly); [apply in_map_iff; exists (u, y); auto|].
  enough (K : act_short y') by (destruct y as [sub cmd d x r|m to|m [r|e]|sub cmd d]; cbn [like] in Ly; try exact I; rewrite Ly; exact K).
  destruct P as [P|[v ->]].
  - destruct (version_acts p tr _ P R y' Hy) as (r & [->|[->| ->]]); exact I.
  - apply form_runs in R as (g & R). pose proof (start_short _ _ _ _ _ _ R) as F. rewrite Forall_forall in F. apply F, Hy.
Qed.
Lemma waits_short c x : xreachable c x -> all_waits 60000 (x_world x).
Proof.
  intros R a s A t k m to G J. pose proof (owned_reachable c x R) as O. pose proof (I_world c x (xreach_inv c x R)) as Rw.
  destruct (V_tids s (wreach_winv _ a s Rw A)) as [_ T]. specialize (T t k G).
  destruct (O a t) as [(s' & j & A' & (k' & G' & J') & Hj)|D]; [unfold tasks_of; rewrite A; exact T| |].
  - assert (s' = s) by congruence. subst s'. assert (k' = k) by congruence. subst k'. destruct Hj as [(n & o & obj & _ & _ & ->)|(mode & ->)]; congruence.
  - destruct D as (u & auto & ds & y & D & Hi & M). pose proof (attempted_shape c x u auto ds R D) as Sh. pose proof (shape_legs _ _ _ _ _ _ _ Sh Hi) as Lg.
    destruct (some_evidence _ _ _ _ _ _ _ Lg) as (s' & A' & (j & (k' & G' & J1) & J2) & _). assert (s' = s) by congruence. subst s'. assert (k' = k) by congruence. subst k'.
    assert (j = JWaitFor m to) as -> by congruence. destruct y as [sub cmd d y r|m' to'|m' r|sub cmd d]; cbn [job_of] in J2; try discriminate J2; try discriminate M.
    injection J2 as <- <-. destruct Lg as [(p & l & pl & ws & L & Hil & _ & P)|(s' & E & _)]; [|discriminate E].
    exact (leg_short _ _ _ _ _ _ c L ltac:(destruct P as [P|(v & _ & P & _)]; eauto) t _ Hil).
Qed.

(** ** the events of the world in a run *)
Inductive flat (c : nwk_config) : whole -> list xevent -> list wevent -> Prop :=
| flat_nil x : flat c x [] []
| flat_cons x e es f fs : x_world (whole_step c e x) = world_run f (x_world x) ->
    match e with XWorld (VTick _ as v) | XWorld (VRun _ as v) | XWorld (VTask _ _ as v) | XWorld (VTimeout _ _ as v) => f = [v] | _ => True end ->
    flat c (whole_step c e x) es fs -> flat c x (e :: es) (f ++ fs).
Lemma xrun_app c a b x : whole_run c (a ++ b) x = whole_run c b (whole_run c a x).
Proof. apply fold_left_app. Qed.
(** every step is some steps of the world *)
Definition world_steps (w w' : world) : Prop := exists f, w' = world_run f w.
Lemma ws_refl w : world_steps w w.
Proof. exists []. reflexivity. Qed.
Lemma ws_one e w w' : w' = world_step e w -> world_steps w w'.
Proof. intros ->. exists [e]. reflexivity. Qed.
Lemma ws_trans u v w : world_steps u v -> world_steps v w -> world_steps u w.
Proof. intros (f & ->) (g & ->). exists (f ++ g). rewrite wrun_app. reflexivity. Qed.
Lemma ws_over t r x : world_steps (x_world x) (x_world (attempt_over t r x)).
Proof. apply (ws_one (VLife (VGo t r))). unfold attempt_over. rewrite asleep_world. reflexivity. Qed.
Lemma ws_next t p x : world_steps (x_world x) (x_world (next_part t p x)).
Proof. unfold next_part. destruct (y_cur _); [apply ws_refl|apply ws_over]. Qed.
Lemma ws_part p w : world_steps w (fst (fst (part_goes p w))).
Proof.
  unfold part_goes. destruct (nth_error _ _) as [s|]; [|apply ws_refl].
  destruct (r_place p) as [[v|e|sub cmd d x k|m to k|o k|sub cmd d k]|u sub cmd d x k|u m k]; try apply ws_refl; cbn [fst];
    try (eapply ws_one; reflexivity); try (eexists; reflexivity); [destruct (object o _)|destruct (came_back s u)..]; try apply ws_refl. eapply ws_one; reflexivity.
Qed.
Lemma ws_goes c t x : world_steps (x_world x) (x_world (boot_goes c t x)).
Proof.
  unfold boot_goes. destruct (b_part (x_boots x t)) as [p|]; [|apply ws_refl].
  assert (Rest : world_steps (x_world x) (x_world (let '(w, p', ds) := part_goes p (x_world x) in
        put_boot t (mk_boot (b_auto (x_boots x t)) (Some p') (b_deeds (x_boots x t) ++ ds)) (mk_whole w (x_boots x) (x_until x) (x_log x))))).
  { pose proof (ws_part p (x_world x)) as W. destruct (part_goes p (x_world x)) as [[w' p'] ds]. exact W. }
  destruct (r_place p) as [[v|e|sub cmd d y k|m to k|o k|sub cmd d k]|u sub cmd d y k|u m k]; try exact Rest; clear Rest; [|apply ws_over].
  destruct v as [|product|r|ieee nwk].
  - apply ws_next.
  - cbv zeta. eapply ws_trans; [eapply (ws_one (VGotVersion t product)); reflexivity|]. destruct (known_product product).
    + apply (ws_next t _ (happens (VGotVersion t product) x)).
    + apply (ws_over t _ (happens (VGotVersion t product) x)).
  - destruct (set_led _ _) as [[|z zs]|e]; [apply ws_next| |apply ws_over]. eapply ws_trans; [|apply ws_next].
    unfold led_off. destruct (y_cur _) as [a|]; [|apply ws_refl]. destruct (nth_error _ a) as [s|]; [|apply ws_refl]. eapply ws_one. reflexivity.
  - eapply ws_trans; [eapply (ws_one (VGotDevice t ieee nwk)); reflexivity|]. apply (ws_over t _ (happens (VGotDevice t ieee nwk) x)).
Qed.
Lemma ws_step c e x : world_steps (x_world x) (x_world (whole_step c e x)).
Proof.
  destruct e as [auto r|t|e]; cbn [whole_step].
  - rewrite asleep_world. eapply ws_one. reflexivity.
  - apply ws_goes.
  - destruct (from_outside x e); [|apply ws_refl].
    destruct e as [| | | | | | | | | |e|t p|t i n]; try (eapply ws_one; reflexivity). destruct e as [| | |t r]; try (eapply ws_one; reflexivity). cbv zeta.
    set (x1 := match stage_of (x_world x) t with Some KSleep => _ | _ => _ end).
    assert (E1 : x_world x1 = x_world x) by (unfold x1; destruct (stage_of (x_world x) t) as [[]|]; try reflexivity; destruct r as [v|[]]; reflexivity).
    set (x2 := falls_asleep t (happens (VLife (VGo t r)) x1)).
    assert (W2 : world_steps (x_world x) (x_world x2)) by (eapply (ws_one (VLife (VGo t r))); unfold x2; rewrite asleep_world; cbn [happens x_world]; rewrite E1; reflexivity).
    destruct (starting (x_world x2) t); [eapply ws_trans; [exact W2|apply ws_next]|exact W2].
Qed.
Lemma flat_exists c es : forall x, exists fs, flat c x es fs.
Proof.
  induction es as [|e es IH]; intro x; [exists []; constructor|]. destruct (IH (whole_step c e x)) as (fs & F).
  destruct (ws_step c e x) as (f & W).
  assert (K : exists f, x_world (whole_step c e x) = world_run f (x_world x) /\
    match e with XWorld (VTick _ as v) | XWorld (VRun _ as v) | XWorld (VTask _ _ as v) | XWorld (VTimeout _ _ as v) => f = [v] | _ => True end).
  { destruct e as [auto r|t|v]; eauto. destruct v; eauto; eexists; (split; [|reflexivity]); reflexivity. }
  destruct K as (g & W' & E'). exists (g ++ fs). constructor; assumption.
Qed.
Lemma flat_world c x es fs : flat c x es fs -> x_world (whole_run c es x) = world_run fs (x_world x).
Proof. induction 1 as [|x e es f fs W E F IH]; [reflexivity|]. rewrite wrun_app, <- W. exact IH. Qed.
Lemma flat_app c es' fs' es : forall x fs, flat c x es fs -> flat c (whole_run c es x) es' fs' -> flat c x (es ++ es') (fs ++ fs').
Proof.
  intros x fs F. induction F as [|x e es f fs W E F IH]; intro G; [exact G|]. cbn [app]. rewrite <- app_assoc. constructor; auto.
Qed.
Lemma flat_split c es es' : forall x fs, flat c x (es ++ es') fs -> exists f1 f2, fs = f1 ++ f2 /\ flat c x es f1 /\ flat c (whole_run c es x) es' f2.
Proof.
  induction es as [|e es IH]; intros x fs F; [exists [], fs; split; [reflexivity|]; split; [constructor|exact F]|].
  cbn [app] in F. inversion F as [|x0 e0 es0 f0 fs0 W E F0]; subst. destruct (IH _ _ F0) as (f1 & f2 & -> & F1 & F2).
  exists (f0 ++ f1), f2. split; [rewrite app_assoc; reflexivity|]. split; [constructor; assumption|exact F2].
Qed.
Lemma passing_app a b : passing (a ++ b) = passing a + passing b.
Proof. induction a as [|e a IH]; cbn [app passing fold_right]; [reflexivity|]. fold (passing (a ++ b)). fold (passing a). destruct e; lia. Qed.
Lemma passing_nonneg a : 0 <= passing a.
Proof. induction a as [|e a IH]; cbn [passing fold_right]; [lia|]. fold (passing a). destruct e; lia. Qed.
Lemma flat_passing c x es fs : flat c x es fs -> xpassing es <= passing fs.
Proof.
  induction 1 as [|x e es f fs W E F IH]; [cbn; lia|]. rewrite passing_app. pose proof (passing_nonneg f). cbn [xpassing fold_right]. fold (xpassing es).
  destruct e as [| |[]]; try lia. subst f. cbn [passing fold_right]. lia.
Qed.
Lemma flat_in c x es fs n : flat c x es fs -> In (XWorld (VRun n)) es -> In (VRun n) fs.
Proof.
  induction 1 as [|x e es f fs W E F IH]; [intros []|]. intros [->|H]; apply in_or_app; [left; subst f; left; reflexivity|right; auto].
Qed.
Lemma flat_turn c x b fs a u : flat c x b fs -> xturn a u b -> has_turn a u fs.
Proof.
  intros F (b1 & b2 & b3 & ->). destruct (flat_split _ _ _ _ _ F) as (f1 & f2 & -> & _ & F2).
  inversion F2 as [|x0 e0 es0 f0 fs0 W0 E0 F3]; subst. destruct (flat_split _ _ _ _ _ F3) as (g1 & g2 & -> & _ & F4).
  inversion F4 as [|x1 e1 es1 f4 fs4 W4 E4 F5]; subst. exists f1, g1, fs4. reflexivity.
Qed.
Lemma flat_serving c T x r fs : flat c x r fs -> xserving T x r -> wserving T (x_world x) fs.
Proof.
  intros F (_ & a & b & -> & Ht & Ho & Hp). destruct (flat_split _ _ _ _ _ F) as (f1 & f2 & -> & F1 & F2). exists f1, f2. split; [reflexivity|].
  pose proof (flat_passing _ _ _ _ F1). split; [lia|]. split; [intros n Hn; eapply flat_in; eauto|]. intros i s u A Hu. eapply flat_turn; [exact F2|eapply Hp; eassumption].
Qed.
Lemma rounds_flat c T rs : forall x, xserving_rounds c T x rs -> exists fss, length fss = length rs /\ wserving_rounds T (x_world x) fss /\
  forall n, x_world (whole_run c (concat (firstn n rs)) x) = world_run (concat (firstn n fss)) (x_world x).
Proof.
  induction rs as [|r rs IH]; intros x H.
  - exists []. split; [reflexivity|]. split; [exact I|]. intros [|n]; reflexivity.
  - cbn [xserving_rounds] in H. destruct H as [H1 H2]. destruct (flat_exists c r x) as (f & F). destruct (IH _ H2) as (fss & L & S & E).
    exists (f :: fss). split; [cbn [length]; congruence|]. pose proof (flat_world _ _ _ _ F) as W. split.
    + cbn [wserving_rounds]. split; [eapply flat_serving; eassumption|]. rewrite <- W. exact S.
    + intros [|n]; [reflexivity|]. cbn [firstn concat]. rewrite xrun_app, wrun_app, <- W. apply E.
Qed.

(** ** what a start-up still has to do *)
Inductive leaves {A} (P : A -> Prop) : prog A -> Prop :=
| leaves_ret a : P a -> leaves P (DRet a)
| leaves_raise e : leaves P (DRaise e)
| leaves_request sub cmd d x k : (forall r, leaves P (k r)) -> leaves P (DRequest sub cmd d x k)
| leaves_listen m t k : leaves P (k (m, t)) -> leaves P (DListen m t k)
| leaves_await w k : (forall r, leaves P (k r)) -> leaves P (DAwait w k)
| leaves_spawn sub cmd d k : leaves P k -> leaves P (DSpawn sub cmd d k).
Lemma leaves_seq {A B} (P : B -> Prop) (p : prog A) (g : A -> prog B) : (forall a, leaves P (g a)) -> leaves P (StartZnp.seq p g).
Proof. intro H. induction p as [a|e|sub cmd d x k IH|m t k IH|w k IH|sub cmd d k IH]; cbn [StartZnp.seq]; try constructor; auto. Qed.
(** how many steps are still to make, at most, when a part has returned this *)
Definition weight (r : part_result) : nat := match r with TPong => 106 | TVersion _ => 103 | TFormed _ => 4 | TDevice _ _ => 1 end.
Definition ends_with (K : nat) (q : prog part_result) : Prop := leaves (fun r => (weight r <= K)%nat) q.
Lemma ping_ends : ends_with 106 part_ping.
Proof. apply leaves_seq. intro. constructor. cbn [weight]. lia. Qed.
Lemma version_ends : ends_with 103 part_version.
Proof. apply leaves_seq. intro. apply leaves_seq. intros []; constructor. cbn [weight]. lia. Qed.
Lemma form_ends p c : ends_with 4 (part_form p c).
Proof. apply leaves_seq. intro. constructor. cbn [weight]. lia. Qed.
Lemma device_ends : ends_with 1 part_device.
Proof. apply leaves_seq. intro. apply leaves_seq. intro. apply leaves_seq. intro n. destruct a0; try constructor. destruct n; constructor. cbn [weight]. lia. Qed.
Lemma ping_fits ws : fits ws 1 part_ping.
Proof. unfold part_ping, ping. fit 1%nat; [|fit1]. fit 1%nat; [fit1|]. destruct e; try discriminate; apply some_eq in H0; subst q; fit1. Qed.
Lemma version_fits ws : fits ws 1 part_version.
Proof. unfold part_version, ask_version. fit 1%nat; [fit1|]. fit 0%nat; [fit1|]. destruct a0; fit1. Qed.
Lemma form_fits ws p c : fits ws 49 (part_form p c).
Proof. unfold part_form. fit 49%nat; [apply fits_start|fit1]. Qed.
Lemma device_fits ws : fits ws 1 part_device.
Proof. unfold part_device. fit 1%nat; [fit1|]. fit 0%nat; [fit1|]. fit 0%nat; [fit1|]. destruct a0; try fit1. destruct a1; fit1. Qed.

Definition to_do (p : part) (m : nat) : Prop :=
  exists ws n K, (forall w, In w ws -> object w (r_waiters p) <> None) /\ (1 <= K)%nat /\
  match r_place p with
  | Ready q => fits ws n q /\ ends_with K q /\ (2 * n + K <= m)%nat
  | Requesting _ _ _ _ _ k => (forall r, fits ws n (k r) /\ ends_with K (k r)) /\ (2 * n + 1 + K <= m)%nat
  | Awaiting _ _ k => (forall r, fits ws n (k r) /\ ends_with K (k r)) /\ (2 * n + 1 + K <= m)%nat
  end.
Lemma to_do_weaken p m m' : (m <= m')%nat -> to_do p m -> to_do p m'.
Proof.
  intros Hm (ws & n & K & H1 & H2 & H3). exists ws, n, K. split; [exact H1|]. split; [exact H2|]. destruct (r_place p).
  - destruct H3 as (A & B & C). split; [exact A|]. split; [exact B|lia].
  - destruct H3 as (A & B). split; [exact A|lia].
  - destruct H3 as (A & B). split; [exact A|lia].
Qed.
Lemma to_do_new a q n K m : fits [] n q -> ends_with K q -> (1 <= K)%nat -> (2 * n + K <= m)%nat -> to_do (mk_part a (Ready q) []) m.
Proof. intros F E H L. exists [], n, K. split; [intros w []|]. split; [exact H|]. cbn [r_place]. auto. Qed.
Definition may_go (w : world) (p : part) : Prop :=
  match r_place p with
  | Ready _ => True
  | Requesting u _ _ _ _ _ | Awaiting u _ _ => exists s, nth_error (w_apis w) (r_api p) = Some s /\ came_back s u <> None
  end.
Definition ended_in (x x' : whole) (t : nat) : Prop := exists l auto ds r at_, x_log x' = x_log x ++ l /\ In (XOver t auto ds r at_) l.
(** a step of the part *)
Lemma part_moves w p m s : nth_error (w_apis w) (r_api p) = Some s -> to_do p m ->
  match r_place p with Ready (DRet _) | Ready (DRaise _) => False | _ => True end ->
  let p' := snd (fst (part_goes p w)) in (p' = p /\ ~ may_go w p) \/ exists m', (m' < m)%nat /\ to_do p' m'.
Proof.
  intros A (ws & n & K & Hw & HK & H) Hr. unfold part_goes, may_go. rewrite A.
  destruct (r_place p) as [[v|e|sub cmd d y k|mm to k|o k|sub cmd d k]|u sub cmd d y k|u mm k] eqn:Pl; try contradiction; cbn [fst snd].
  - destruct H as (F & E & L). inversion F; subst. inversion E; subst. right. exists (2 * n0 + 1 + K)%nat. split; [lia|].
    exists ws, n0, K. split; [exact Hw|]. split; [exact HK|]. cbn [r_place]. split; [intro; split; unfold ends_with; auto|lia].
  - destruct H as (F & E & L). inversion F; subst. inversion E; subst. right. exists (2 * n0 + K)%nat. split; [lia|].
    exists ((mm, to) :: ws), n0, K. split; [|split; [exact HK|cbn [r_place]; unfold ends_with; auto]].
    intros w0 [<-|Hi]; cbn [r_waiters]; rewrite object_app; cbn [object].
    + destruct (same_waiter (mm, to) (mm, to)); congruence.
    + destruct (same_waiter (mm, to) w0); [discriminate|apply Hw, Hi].
  - destruct H as (F & E & L). inversion F; subst. inversion E; subst. destruct (object o (r_waiters p)) as [u|] eqn:Eo; [|exfalso; eapply Hw; eassumption].
    right. exists (2 * n0 + 1 + K)%nat. split; [lia|]. exists ws, n0, K. split; [exact Hw|]. split; [exact HK|]. cbn [fst snd r_place]. split; [intro; split; unfold ends_with; auto|lia].
  - destruct H as (F & E & L). inversion F; subst. inversion E; subst. right. exists (2 * n0 + K)%nat. split; [lia|].
    exists ws, n0, K. split; [exact Hw|]. split; [exact HK|]. cbn [r_place]. unfold ends_with. auto.
  - destruct H as (H & L). destruct (came_back s u) as [r|] eqn:C; cbn [fst snd].
    + right. exists (2 * n + K)%nat. split; [lia|]. exists ws, n, K. split; [exact Hw|]. split; [exact HK|]. cbn [r_place]. destruct (H r). auto.
    + left. split; [reflexivity|]. intros (s' & A' & C'). congruence.
  - destruct H as (H & L). destruct (came_back s u) as [r|] eqn:C; cbn [fst snd].
    + right. exists (2 * n + K)%nat. split; [lia|]. exists ws, n, K. split; [exact Hw|]. split; [exact HK|]. cbn [r_place]. destruct (H r). auto.
    + left. split; [reflexivity|]. intros (s' & A' & C'). congruence.
Qed.
Definition closes (x x' : whole) (t : nat) : Prop := ended_in x x' t /\ b_part (x_boots x' t) = None.
Lemma over_ended t r x : closes x (attempt_over t r x) t.
Proof.
  split; [|rewrite over_boots, put_at_same; reflexivity].
  exists [XOver t (b_auto (x_boots x t)) (b_deeds (x_boots x t)) r (w_now (x_world x))], (b_auto (x_boots x t)), (b_deeds (x_boots x t)), r, (w_now (x_world x)).
  split; [unfold attempt_over; rewrite asleep_log; reflexivity|left; reflexivity].
Qed.
Lemma next_moves t q x n K m : fits [] n q -> ends_with K q -> (1 <= K)%nat -> (2 * n + K < m)%nat ->
  closes x (next_part t q x) t \/ exists p' m', b_part (x_boots (next_part t q x) t) = Some p' /\ (m' < m)%nat /\ to_do p' m'.
Proof.
  intros F E H L. unfold next_part. destruct (y_cur _) as [a|]; [right|left; apply over_ended].
  exists (mk_part a (Ready q) []), (2 * n + K)%nat. cbn [put_boot x_boots]. rewrite put_at_same. split; [reflexivity|]. split; [exact L|]. eapply to_do_new; [exact F|exact E|exact H|lia].
Qed.
Lemma ended_trans_l x y z t : x_log y = x_log x -> closes y z t -> closes x z t.
Proof. intros E ((l & auto & ds & r & at_ & H & Hi) & B). split; [|exact B]. exists l, auto, ds, r, at_. split; [congruence|exact Hi]. Qed.
Lemma go_moves c t x p m : XInv c x -> b_part (x_boots x t) = Some p -> to_do p m ->
  closes x (boot_goes c t x) t \/
  (b_part (x_boots (boot_goes c t x) t) = Some p /\ ~ may_go (x_world x) p) \/
  exists p' m', b_part (x_boots (boot_goes c t x) t) = Some p' /\ (m' < m)%nat /\ to_do p' m'.
Proof.
  intros X B T. pose proof (I_boots c x X t) as Bo. unfold boot_ok in Bo. rewrite B in Bo. destruct Bo as (S & pre & p0 & l & _ & _ & (s & A & _)).
  unfold boot_goes. rewrite B.
  assert (Rest : match r_place p with Ready (DRet _) | Ready (DRaise _) => False | _ => True end ->
    let x' := let '(w, p', ds) := part_goes p (x_world x) in
        put_boot t (mk_boot (b_auto (x_boots x t)) (Some p') (b_deeds (x_boots x t) ++ ds)) (mk_whole w (x_boots x) (x_until x) (x_log x)) in
    (b_part (x_boots x' t) = Some p /\ ~ may_go (x_world x) p) \/ exists p' m', b_part (x_boots x' t) = Some p' /\ (m' < m)%nat /\ to_do p' m').
  { intro Hr. pose proof (part_moves (x_world x) p m s A T Hr) as M. destruct (part_goes p (x_world x)) as [[w' p'] ds]. cbn [fst snd] in M.
    cbn [put_boot x_boots]. rewrite put_at_same. cbn [b_part]. destruct M as [[-> M]|(m' & L & M)]; [left; auto|right; eauto]. }
  destruct T as (ws & n & K & Hw & HK & H).
  destruct (r_place p) as [[v|e|sub cmd d y k|mm to k|o k|sub cmd d k]|u sub cmd d y k|u mm k] eqn:Pl; try (right; apply Rest; exact I); clear Rest; [|left; apply over_ended].
  destruct H as (F & E & L). inversion E as [a Ha| | | | |]; subst.
  assert (J : forall x' q n' K', x_log x' = x_log x -> fits [] n' q -> ends_with K' q -> (1 <= K')%nat -> (2 * n' + K' < weight v)%nat ->
    closes x (next_part t q x') t \/ (b_part (x_boots (next_part t q x') t) = Some p /\ ~ may_go (x_world x) p) \/ exists p' m', b_part (x_boots (next_part t q x') t) = Some p' /\ (m' < m)%nat /\ to_do p' m').
  { intros x' q n' K' El F' E' H' L'. destruct (next_moves t q x' n' K' m F' E' H' ltac:(lia)) as [D|D]; [left; eapply ended_trans_l; eassumption|right; right; exact D]. }
  destruct v as [|product|r|ieee nwk]; cbn [weight] in J.
  - apply (J x part_version 1%nat 103%nat); [reflexivity|apply version_fits|apply version_ends|lia|lia].
  - cbv zeta. destruct (known_product product); [|left; eapply ended_trans_l; [|apply over_ended]; reflexivity].
    destruct (b_auto (x_boots x t)); [apply (J _ _ 49%nat 4%nat)|apply (J _ _ 1%nat 1%nat)]; try reflexivity; try lia; [apply form_fits|apply form_ends|apply device_fits|apply device_ends].
  - destruct (set_led _ _) as [[|z zs]|e]; [| |left; apply over_ended]; apply (J _ _ 1%nat 1%nat); try lia; try apply device_fits; try apply device_ends; [reflexivity|].
    unfold led_off. destruct (y_cur _) as [a|]; [|reflexivity]. destruct (nth_error _ a); reflexivity.
  - left. eapply ended_trans_l; [|apply over_ended]. reflexivity.
Qed.
(** whose turn it is not *)
Lemma over_other t r x u : u <> t -> x_boots (attempt_over t r x) u = x_boots x u.
Proof. intro N. rewrite over_boots. apply put_at_other, N. Qed.
Lemma next_other t p x u : u <> t -> x_boots (next_part t p x) u = x_boots x u.
Proof. intro N. unfold next_part. destruct (y_cur _); [apply put_at_other, N|apply over_other, N]. Qed.
Lemma goes_other c t x u : u <> t -> x_boots (boot_goes c t x) u = x_boots x u.
Proof.
  intro N. unfold boot_goes. destruct (b_part (x_boots x t)) as [p|]; [|reflexivity].
  assert (Rest : x_boots (let '(w, p', ds) := part_goes p (x_world x) in
        put_boot t (mk_boot (b_auto (x_boots x t)) (Some p') (b_deeds (x_boots x t) ++ ds)) (mk_whole w (x_boots x) (x_until x) (x_log x))) u = x_boots x u).
  { destruct (part_goes p (x_world x)) as [[w' p'] ds]. apply put_at_other, N. }
  destruct (r_place p) as [[v|e|sub cmd d y k|m to k|o k|sub cmd d k]|u0 sub cmd d y k|u0 m k]; try exact Rest; clear Rest; [|apply over_other, N].
  destruct v as [|product|r|ieee nwk].
  - apply next_other, N.
  - cbv zeta. destruct (known_product product); [rewrite next_other by exact N|rewrite over_other by exact N]; reflexivity.
  - destruct (set_led _ _) as [[|z zs]|e]; [apply next_other, N| |apply over_other, N]. rewrite next_other by exact N.
    unfold led_off. destruct (y_cur _) as [a|]; [|reflexivity]. destruct (nth_error _ a) as [s|]; [|reflexivity]. apply put_at_other, N.
  - rewrite over_other by exact N. reflexivity.
Qed.
Lemma step_other c e x t : XInv c x -> e <> XGo t ->
  (forall p, b_part (x_boots x t) = Some p -> b_part (x_boots (whole_step c e x) t) = Some p) /\
  (b_part (x_boots x t) = None -> forall p, b_part (x_boots (whole_step c e x) t) = Some p -> exists a, p = mk_part a (Ready part_ping) []).
Proof.
  intros X N. pose proof (I_boots c x X t) as Bo. unfold boot_ok in Bo.
  assert (Same : forall x', b_part (x_boots x' t) = b_part (x_boots x t) -> (forall p, b_part (x_boots x t) = Some p -> b_part (x_boots x' t) = Some p) /\
    (b_part (x_boots x t) = None -> forall p, b_part (x_boots x' t) = Some p -> exists a, p = mk_part a (Ready part_ping) [])).
  { intros x' E. rewrite E. split; [auto|]. intros -> p. discriminate. }
  destruct e as [auto r|u|e]; cbn [whole_step].
  - set (n := length _). destruct (Nat.eq_dec t n) as [->|D].
    + rewrite asleep_boots. cbn [put_boot x_boots]. rewrite put_at_same. split; [|discriminate]. intros p B. rewrite B in Bo. destruct Bo as [St _]. exfalso.
      unfold starting in St. replace (nth_error _ n) with (@None coroutine) in St; [discriminate St|]. symmetry. apply nth_error_None. unfold n. lia.
    + apply Same. rewrite asleep_boots. cbn [put_boot x_boots]. rewrite put_at_other by exact D. reflexivity.
  - apply Same. rewrite goes_other; [reflexivity|]. intros ->. apply N. reflexivity.
  - destruct (from_outside x e) eqn:O; [|apply Same; reflexivity].
    destruct e as [| | | | | | | | | |e|u p|u i n]; try (apply Same; reflexivity). destruct e as [| | |u r]; try (apply Same; reflexivity). cbv zeta.
    set (x1 := match stage_of (x_world x) u with Some KSleep => _ | _ => _ end).
    assert (B1 : x_boots x1 = x_boots x) by (unfold x1; destruct (stage_of (x_world x) u) as [[]|]; try reflexivity; destruct r as [v|[]]; reflexivity).
    set (x2 := falls_asleep u (happens (VLife (VGo u r)) x1)).
    assert (B2 : x_boots x2 = x_boots x) by (unfold x2; rewrite asleep_boots; exact B1).
    destruct (starting (x_world x2) u); [|apply Same; rewrite B2; reflexivity].
    destruct (Nat.eq_dec t u) as [<-|D]; [|apply Same; rewrite next_other by exact D; rewrite B2; reflexivity]. split.
    + intros p B. rewrite B in Bo. destruct Bo as [St _]. apply starting_stage in St. cbn [from_outside] in O. rewrite St in O. discriminate O.
    + intros _ p. unfold next_part. destruct (y_cur _) as [a|]; [cbn [put_boot x_boots]; rewrite put_at_same; intros [= <-]; eauto|].
      rewrite over_boots, put_at_same. discriminate.
Qed.
