(** * WholeBlame: why a start-up fails, down to its link, when connections are lost and made again *)
From Coq Require Import ZifyBool ZifyNat.
From Verif Require Import Base Types Uart Buffalo CmdTable Zpi Api App Machine Life World SpecWire SpecCodec SpecApi SpecMachine SpecProgress SpecFirst SpecBlame SpecLife SpecWorld SpecWorldProgress SpecWorldBlame
  MachineBase MachineInv MachineInv2 MachineInv3 MachineInv4 MachineInv5 DispatchProofs MachineProofs MachineProgress LifeProofs2 LifeProofs3 WorldInv WorldBase WorldLife WorldOps WorldProofs2 WorldProofs3 WorldProgress WorldProgress2
  Nv StartZnp AppStart SpecStart Host HostProofs SpecHost SpecEnds StartProofs StartProofs5 StartLink AppStartProofs StartSend HostEnds
  Whole WholeInv WholeHost WholeBlind WholeBase WorldOwn WholeProofs WholeProofs2 WholeProofs3 SpecWhole WholeProofs4 WholeProofs5 WholeTime WholeInd WholeOwn WholeParts SpecWholeEnds
  SpecAppStart SpecWholeFail WholeEnds WholeFail HostBlame SpecFair WholeFair SpecWholeBlame WorldBlame2.

(** ** only requests of operations have a reply waiter *)
Definition Plain (s : st) : Prop := forall t k i, get s t = Some k -> t_wid k = Some i -> exists obj, t_job k = JRaw obj [0].
Lemma plain_x s s' : xprim s s' -> TasksW s -> Plain s -> Plain s'.
Proof.
  intros H Ht P. start_x H.
  - unfold Plain, TasksW in *. revert Hnt. start_prim H; intros Hnt t' k' i' G W; try lia; look G; try (eapply P; eassumption);
      try (match goal with Hg : assoc _ _ = Some ?k |- _ => apply (P _ _ i' Hg); exact W end); fldin W; try discriminate W.
    all: try (match goal with Hg : assoc _ _ = Some ?k |- _ => pose proof (Ht _ _ Hg) as [Hu _] end).
    all: try (match goal with Hr : response_waiter (t_job ?k) _ = Ok (Some _), Hu : uses_sem (t_job ?k) = false |- _ => destruct (t_job k); discriminate end).
  - intros t' k' i' G W. opn_in G. look G; try (eapply P; eassumption). discriminate W.
  - intros t' k' i' G W. unfold WorldInv.called in G. opn_in G. look G; try (eapply P; eassumption). eexists; reflexivity.
  - exact P.
  - exact P.
  - exact P.
Qed.
Lemma plain_xs s s' : xprims s s' -> Winv s -> Plain s -> Plain s'.
Proof.
  induction 1 as [s|s1 s2 s3 H _ IH]; intros V P; [exact P|]. apply IH; [eapply winv_x; eassumption|]. eapply plain_x; [exact H|apply (V_tasks _ V)|exact P].
Qed.
Definition all_plain (w : world) : Prop := forall a s, nth_error (w_apis w) a = Some s -> Plain s.
Lemma all_plain_p w w' : Good w -> wprim w w' -> all_plain w -> all_plain w'.
Proof.
  intros G H A.
  assert (X : forall a s s', nth_error (w_apis w) a = Some s -> xprims s s' -> Plain s').
  { intros a s s' E X. eapply plain_xs; [exact X|apply (proj2 (proj2 G) a s E)|apply (A a s E)]. }
  assert (S : forall a s s', nth_error (w_apis w) a = Some s -> xprims s s' -> forall b r, nth_error (set_nth a s' (w_apis w)) b = Some r -> Plain r).
  { intros a s s' E Y b r. rewrite nth_set. destruct (Nat.eqb_spec b a) as [->|]; [|apply A]. rewrite E. intros [= <-]. eapply X; eassumption. }
  destruct H; unfold all_plain, got_version in *; wfld; try exact A.
  - eapply S; eassumption.
  - intros b r. rewrite nth_map. destruct (nth_error (w_apis w) b) as [s|] eqn:E; [|discriminate]. intros [= <-]. eapply X; [exact E|apply tick_x, H].
  - intros b r. unfold life_event_happens. wfld. rewrite sync_nth. destruct (nth_error (y_apis _) b) as [x|]; [|discriminate]. intros [= <-].
    assert (F : forall s, xprims s (flags x s)) by (intro s; unfold flags; eapply xprims_cons; [apply X_open|]; apply xprims_one, X_app).
    destruct (nth_error (w_apis w) b) as [s|] eqn:E; [eapply X; [exact E|apply F]|]. eapply plain_xs; [apply F|apply winv_new|]. intros t k i Gt. discriminate Gt.
  - eapply S; [eassumption|apply xprims_one, X_wait].
  - eapply S; [eassumption|apply call_raw_x, (proj2 (proj2 G) _ _ H5)].
Qed.
Lemma wreach_plain w : wreachable w -> all_plain w.
Proof. revert w. apply wreach_ind; [intros devs a s; destruct a; discriminate|exact all_plain_p]. Qed.

(** ** no wait of a start-up is over at once *)
Lemma leg_long w p a l pl ws c : Leg w p a l pl ws -> version_part p \/ (exists v, p = part_form (version_of v) c) -> forall u y, In (u, y) (l ++ place_deeds pl) -> act_long y.
Proof.
  intros L P u y Hi.
  assert (S : safe p) by (destruct P as [[->|[->| ->]]|[v ->]]; [apply safe_ping|apply safe_version|apply safe_device|apply safe_form]).
  destruct (leg_run _ _ _ _ _ _ L S) as (tr & Lt & R).
  destruct (likes_in _ _ y Lt) as (y' & Hy & Ly); [apply in_map_iff; exists (u, y); auto|].
  enough (K : act_long y') by (destruct y as [sub cmd d x r|m to|m [r|e]|sub cmd d]; cbn [like] in Ly; try exact I; rewrite Ly; exact K).
  destruct P as [P|[v ->]].
  - destruct (version_acts p tr _ P R y' Hy) as (r & [->|[->| ->]]); exact I.
  - apply form_runs in R as (g & R). pose proof (start_long _ _ _ _ _ _ R) as F. rewrite Forall_forall in F. apply F, Hy.
Qed.
Lemma waits_long c x a s t k m to : xreachable c x -> nth_error (w_apis (x_world x)) a = Some s -> get s t = Some k -> t_job k = JWaitFor m to -> 0 < to.
Proof.
  intros R A G J. pose proof (owned_reachable c x R) as O. pose proof (I_world c x (xreach_inv c x R)) as Rw.
  destruct (V_tids s (wreach_winv _ a s Rw A)) as [_ T]. specialize (T t k G).
  destruct (O a t) as [(s' & j & A' & (k' & G' & J') & Hj)|D]; [unfold tasks_of; rewrite A; exact T| |].
  - assert (s' = s) by congruence. subst s'. assert (k' = k) by congruence. subst k'. destruct Hj as [(n & o & obj & _ & _ & ->)|(mode & ->)]; congruence.
  - destruct D as (u & auto & ds & y & D & Hi & M). pose proof (attempted_shape c x u auto ds R D) as Sh. pose proof (shape_legs _ _ _ _ _ _ _ Sh Hi) as Lg.
    destruct (some_evidence _ _ _ _ _ _ _ Lg) as (s' & A' & (j & (k' & G' & J1) & J2) & _). assert (s' = s) by congruence. subst s'. assert (k' = k) by congruence. subst k'.
    assert (j = JWaitFor m to) as -> by congruence. destruct y as [sub cmd d y r|m' to'|m' r|sub cmd d]; cbn [job_of] in J2; try discriminate J2; try discriminate M.
    injection J2 as <- <-. destruct Lg as [(p & l & pl & ws & L & Hil & _ & P)|(s' & E & _)]; [|discriminate E].
    exact (leg_long _ _ _ _ _ _ c L ltac:(destruct P as [P|(v & _ & P & _)]; eauto) t _ Hil).
Qed.

(** ** why it failed *)
Lemma xstartup_blamed c devs es x t auto ds e at_ : valid_config c -> xreachable c x -> x_world x = world_run es (world_init devs) -> wfields_exist (x_world x) ->
  In (XOver t auto ds (Err e) at_) (x_log x) ->
  exists ds' a u y, ds = ds' ++ [(a, u, y)] /\ failed y e /\ xlet_act es (world_init devs) (x_world x) a u y.
Proof.
  intros V R E F H. destruct (failed_why _ _ _ _ _ _ _ R H) as (ds' & a & u & y & -> & B). exists ds', a, u, y. split; [reflexivity|]. split; [exact B|].
  assert (D : attempted x t auto (ds' ++ [(a, u, y)])) by (left; eauto). pose proof (attempted_shape c x t auto _ R D) as Sh.
  assert (Hi : In (a, u, y) (ds' ++ [(a, u, y)])) by (apply in_or_app; right; left; reflexivity).
  pose proof (shape_legs _ _ _ _ _ _ _ Sh Hi) as Lg. destruct (some_evidence _ _ _ _ _ _ _ Lg) as (s & A & (j & (k & G & J1) & J2) & Ev & We).
  pose proof (I_world c x (xreach_inv c x R)) as Rw. exists s. split; [exact A|]. exists k. split; [exact G|].
  rewrite E in F, A. 
  destruct y as [sub cmd d1 z [[m|e']|]|m to|m [r|e']|sub cmd d1]; cbn [failed evidence job_of wait_evidence] in *; try contradiction.
  - destruct B as (_ & _ & _ & p & B). exists p. exact B.
  - assert (Q : act_sendable (ARequest sub cmd d1 z (Some (Err e')))).
    { destruct Lg as [(p & l & pl & ws & L & Hil & _ & P)|(s' & C & _)]; [|discriminate C].
      apply (leg_acts _ _ _ _ _ _ c V L) with (u := u); [destruct P as [P|(v & _ & P & _)]; eauto|exact Hil]. }
    cbn [act_sendable] in Q. assert (Jk : t_job k = JCommand sub cmd d1 z) by congruence. split; [exact Jk|].
    pose proof (wtask_blamed devs es a s u k e' F A G) as X. rewrite Jk in X. specialize (X ltac:(discriminate) Ev).
    inversion X; subst; rewrite ?Jk in *; try (econstructor; eassumption).
    + exfalso. match goal with C : some_step _ _ _ |- _ => destruct C as (es1 & e1 & es2 & -> & n & o & q & -> & Ho & Hat) end.
      destruct (wreach_hist _ (wreach_run _ es1 (wreach_init devs))) as [_ [Hh _]]. destruct (Hh n o Ho) as [_ Hh1]. rewrite Hat in Hh1.
      destruct Hh1 as (k1 & (s1 & E1 & G1) & _ & _ & _ & obj & _ & Hj1 & _). pose proof (job_later devs es1 (VCancel n :: es2) a s1 u k1 s k E1 G1 A G). congruence.
    + exfalso. eapply command_sendable; eassumption.
    + exfalso. rewrite <- E in A. destruct (wreach_plain _ Rw a s A u k i G) as [obj C]; [assumption|congruence].
  - destruct We as (i & W1 & [W2|W2]); [destruct B as (_ & _ & B); contradiction|]. split; [exact W1|].
    destruct W2 as (u' & k' & cc & G' & Wd & Us & Pd). rewrite <- E in A. destruct (wreach_plain _ Rw a s A u' k' i G' Wd) as [obj Jk]. exists u', k', obj, i, cc.
    pose proof (proj1 (MachineProofs4.unexpected_some r (t_job k') cc) Us) as [Sc _]. rewrite Jk in Us, Pd.
    repeat (split; [assumption|]). split.
    + intros ->. unfold unexpected_status in Us. cbn [expected_of] in Us. destruct (dict_get _ _) as [[v| | | |]|]; try discriminate Us.
      destruct (existsb _ _) eqn:Ex in Us; [discriminate Us|]. injection Us as ->. discriminate Ex.
    + eapply ended_logged; [apply (V_life _ (wreach_winv _ a s Rw A))|exact G'|exact Pd].
  - destruct J2 as [to J2]. exists to. assert (Jk : t_job k = JWaitFor m to) by congruence. split; [exact Jk|].
    assert (L : 0 < to) by (eapply (waits_long c x a s u k m to R); [rewrite E; exact A|exact G|exact Jk]).
    destruct (wwait_blamed devs es a s u k m to e' F A G Jk L Ev) as [[-> K]|[-> K]]; [apply K_wait_cancelled, K|apply K_unheard, K].
Qed.

Lemma xstartup_served c devs es x t auto ds r at_ : valid_config c -> xreachable c x -> x_world x = world_run es (world_init devs) -> wfields_exist (x_world x) ->
  In (XOver t auto ds r at_) (x_log x) -> (forall a u y, In (a, u, y) ds -> xserved es (world_init devs) (x_world x) a u y) -> r = Ok tt.
Proof.
  intros V R E F H S. destruct r as [[]|e]; [reflexivity|]. exfalso. destruct (xstartup_blamed c devs es x t auto ds e at_ V R E F H) as (ds' & a & u & y & -> & B & (s & A & k & G & L)).
  destruct (S a u y) as [S1 S2]; [apply in_or_app; right; left; reflexivity|].
  destruct y as [sub cmd d1 z [[m|e']|]|m to|m [m'|e']|sub cmd d1]; cbn [failed] in *; try contradiction.
  - destruct B as (_ & _ & -> & p & Hp & Np). destruct S2 as (_ & _ & _ & S2). apply Np. eapply S2; [reflexivity|reflexivity|exact Hp].
  - destruct L as [_ L]. destruct S2 as (S2 & S3 & S4 & _). inversion L; subst; try contradiction.
    + cbn [build] in *. eapply S3; [|eassumption]. match goal with K : in_coroutine ?q = Ok _ |- _ => destruct q as [|[]]; cbn [in_coroutine] in K; congruence end.
    + eapply S4. rewrite (history_of _ _ _ A). eassumption.
  - destruct S2 as [_ S2]. apply (S2 m' eq_refl). exists s. split; [exact A|apply L].
  - destruct L as (to & _ & L). destruct S2 as [S2 _]. inversion L; subst; [contradiction|]. eapply S2. eassumption.
Qed.
Lemma histories_exist c x : xreachable c x -> exists devs es, x_world x = world_run es (world_init devs).
Proof. intro R. exact (I_world c x (xreach_inv c x R)). Qed.
Lemma xstartup_recovers c devs es x T M rs t : valid_config c -> xreachable c x -> asking x t -> 60000 <= T -> 0 <= M ->
  xserving_rounds c T x rs -> uncrowded c M x rs -> 108 * (4 + 2 * M) <= Z.of_nat (length rs) ->
  let e := whole_run c (concat rs) x in x_world e = world_run es (world_init devs) -> wfields_exist (x_world e) ->
  (forall l auto ds r at_ a u y, x_log e = x_log x ++ l -> In (XOver t auto ds r at_) l -> In (a, u, y) ds -> xserved es (world_init devs) (x_world e) a u y) ->
  exists l auto ds at_, x_log e = x_log x ++ l /\ In (XOver t auto ds (Ok tt) at_) l.
Proof.
  intros V R A HT HM HS HU Hl e E F S. destruct (start_ups_end_soon c x T M rs t V R A HT HM HS HU Hl) as (l & auto & ds & r & at_ & El & Hi). fold e in El.
  assert (Re : xreachable c e). { destruct R as (d0 & es0 & ->). exists d0, (es0 ++ concat rs). unfold e. rewrite xrun_app. reflexivity. }
  assert (r = Ok tt) as ->.
  { eapply (xstartup_served c devs es e t auto ds r at_ V Re E F); [rewrite El; apply in_or_app; right; exact Hi|]. intros a u y Hy. eapply S; eassumption. }
  exists l, auto, ds, at_. auto.
Qed.
