(** * WholeProofs2: every step keeps the invariant *)
From Coq Require Import ZifyBool ZifyNat.
From Verif Require Import Base Types Uart Buffalo CmdTable Zpi Api App Machine Life World SpecMachine SpecLife SpecWorld
  ApiProofs AppProofs AppProofs2 MachineBase MachineInv MachineInv2 DispatchProofs LifeProofs2 LifeProofs3 WorldInv WorldFace WorldBase WorldLife WorldProofs2 WorldProofs4
  Nv StartZnp AppStart SpecStart Host SpecHost HostProofs Whole WholeInv WholeHost WholeBase WholeProofs.

(** ** a part goes on *)
Lemma called_api w a s j : uses_sem j = false -> nth_error (w_apis w) a = Some s -> nth_error (w_apis (world_step (VApiCall a j) w)) a = Some (step (ECall j) s).
Proof. intros U A. cbn [world_step]. rewrite U. apply nth_on_api, A. Qed.
Lemma ran_api w a s t : nth_error (w_apis w) a = Some s -> nth_error (w_apis (world_step (VTask a t) w)) a = Some (step (ERun t) s).
Proof. intro A. cbn [world_step]. rewrite apis_afters. apply nth_on_api, A. Qed.
(** from one world to another by events that are not about start-ups *)
Definition aside_steps (w w' : world) : Prop := exists es, w' = world_run es w /\ Forall (fun e => other_event e = true) es.
Lemma aside_nil w : aside_steps w w.
Proof. exists []. split; [reflexivity|constructor]. Qed.
Lemma aside_one e w : other_event e = true -> aside_steps w (world_step e w).
Proof. intro O. exists [e]. split; [reflexivity|constructor; [exact O|constructor]]. Qed.
Lemma part_goes_ok w p0 p l : Leg w p0 (r_api p) l (r_place p) (r_waiters p) ->
  let '(w', p', ds) := part_goes p w in
  aside_steps w w' /\ r_api p' = r_api p /\ exists l', ds = deeds_of (r_api p) l' /\ Leg w' p0 (r_api p) (l ++ l') (r_place p') (r_waiters p').
Proof.
  intros (s & A & G). pose proof (ginv_go p0 _ G) as G'. unfold part_goes. rewrite A. unfold go in G'. cbn [h_st h_place h_waiters h_trace] in G'.
  assert (St : aside_steps w w /\ r_api p = r_api p /\ exists l', [] = deeds_of (r_api p) l' /\ Leg w p0 (r_api p) (l ++ l') (r_place p) (r_waiters p)).
  { split; [apply aside_nil|]. split; [reflexivity|]. exists []. split; [reflexivity|]. rewrite app_nil_r. exists s. split; [exact A|exact G]. }
  destruct p as [a pl ws]. cbn [r_api r_place r_waiters] in *. destruct pl as [[v|e|sub cmd d x k|m to k|o k|sub cmd d k]|t sub cmd d x k|t m k]; try exact St.
  - split; [apply aside_one; reflexivity|]. split; [reflexivity|]. exists []. split; [reflexivity|]. rewrite app_nil_r. eexists. split; [apply called_api; [reflexivity|exact A]|exact G'].
  - split; [eexists; split; [reflexivity|]; constructor; [reflexivity|constructor; [reflexivity|constructor]]|]. split; [reflexivity|].
    exists [(s_ntid s, AListen m to)]. split; [reflexivity|]. eexists. split; [|exact G']. unfold world_run. cbn [fold_left]. apply ran_api, called_api; [reflexivity|exact A].
  - destruct (object o ws) as [t|] eqn:O; [|exact St]. split; [apply aside_one; reflexivity|]. split; [reflexivity|]. exists []. split; [reflexivity|]. rewrite app_nil_r.
    eexists. split; [apply ran_api, A|exact G'].
  - split; [apply aside_one; reflexivity|]. split; [reflexivity|]. exists [(s_ntid s, ASpawn sub cmd d)]. split; [reflexivity|].
    eexists. split; [apply called_api; [reflexivity|exact A]|exact G'].
  - destruct (came_back s t) as [r|]; [|exact St]. split; [apply aside_nil|]. split; [reflexivity|]. exists [(t, ARequest sub cmd d x (Some r))]. split; [reflexivity|].
    exists s. split; [exact A|exact G'].
  - destruct (came_back s t) as [r|]; [|exact St]. split; [apply aside_nil|]. split; [reflexivity|]. exists [(t, AAwait m r)]. split; [reflexivity|].
    exists s. split; [exact A|exact G'].
Qed.
Lemma aside_facts w w' : aside_steps w w' -> wreachable w -> wreachable w' /\ later w w' /\ (forall t, user_called w t -> user_called w' t) /\
  (forall t, starting w' t = starting w t) /\ (forall o, ~ quiet_obs o -> In o (w_log w') -> In o (w_log w)).
Proof.
  intros (es & -> & F) R. induction es as [|e es IH] using rev_ind; [split; [exact R|split; [apply later_refl|auto]]|].
  apply Forall_app in F. destruct F as [F Fe]. inversion Fe as [|e0 l0 O _]. subst. rewrite world_run_snoc.
  destruct (IH F) as (R1 & X1 & U1 & S1 & N1). split; [apply wreach_step, R1|]. split; [eapply later_trans; [exact X1|apply later_step, R1]|].
  split; [intros t U; apply user_step, U1, U|]. split; [intro t; rewrite starting_other by exact O; apply S1|].
  intros o Q H. apply N1; [exact Q|]. eapply news_calm; [|exact Q|exact H]. destruct e; try exact I; discriminate O.
Qed.
(** ** between two parts *)
Lemma xinv_version c x t p : XInv c x -> starting (x_world x) t = true -> (exists a ds, done_leg (x_world x) part_version a ds (TVersion p)) ->
  XInv c (happens (VGotVersion t p) x) /\ exists q, In (WNewSem q (concurrent p)) (w_log (x_world (happens (VGotVersion t p) x))).
Proof.
  intros H S (a & ds & V). pose proof (I_world c x H) as R. split.
  - unfold happens. set (w' := world_step (VGotVersion t p) (x_world x)). assert (X : later (x_world x) w') by apply later_step, R.
    assert (E : w' = got_version p (x_world x)) by (unfold w'; cbn [world_step]; rewrite S; reflexivity).
    apply (xinv_moves c x); auto.
    + apply wreach_step, R.
    + intros u U. apply user_step, U.
    + intro u. eapply boot_later; [exact X| |apply H]. rewrite E. reflexivity.
    + intros q n Y. rewrite E in Y. unfold got_version in Y. wfldin Y. apply in_app_or in Y. destruct Y as [Y|[Y|[]]]; [left; exact Y|right].
      injection Y as _ <-. exists a, ds, p. split; [eapply done_later; eassumption|reflexivity].
    + intros i n Y. rewrite E in Y. unfold got_version in Y. wfldin Y. apply in_app_or in Y. destruct Y as [Y|[Y|[]]]; [left; exact Y|discriminate].
  - cbn [happens x_world world_step]. rewrite S. unfold got_version. wfld. eexists. apply in_or_app. right. left. reflexivity.
Qed.
Lemma xinv_device c x t i n : XInv c x -> starting (x_world x) t = true -> (exists a ds, done_leg (x_world x) part_device a ds (TDevice i n)) ->
  XInv c (happens (VGotDevice t i n) x) /\ In (WAdded i n) (w_log (x_world (happens (VGotDevice t i n) x))).
Proof.
  intros H S (a & ds & V). pose proof (I_world c x H) as R. split.
  - unfold happens. set (w' := world_step (VGotDevice t i n) (x_world x)). assert (X : later (x_world x) w') by apply later_step, R.
    assert (E : w' = got_device i n (x_world x)) by (unfold w'; cbn [world_step]; rewrite S; reflexivity).
    apply (xinv_moves c x); auto.
    + apply wreach_step, R.
    + intros u U. apply user_step, U.
    + intro u. eapply boot_later; [exact X| |apply H]. rewrite E. reflexivity.
    + intros q m Y. rewrite E in Y. unfold got_device in Y. wfldin Y. apply in_app_or in Y. destruct Y as [Y|[Y|[]]]; [left; exact Y|discriminate].
    + intros j m Y. rewrite E in Y. unfold got_device in Y. wfldin Y. apply in_app_or in Y. destruct Y as [Y|[Y|[]]]; [left; exact Y|right].
      injection Y as <- <-. exists a, ds. eapply done_later; eassumption.
  - cbn [happens x_world world_step]. rewrite S. unfold got_device. wfld. apply in_or_app. right. left. reflexivity.
Qed.
(** the programs end in one way only *)
Lemma goes_seq {A B} (m : prog A) (f : A -> prog B) tr b : goes (StartZnp.seq m f) tr (Returned b) ->
  exists tr1 tr2 a, tr = tr1 ++ tr2 /\ goes m tr1 (Returned a) /\ goes (f a) tr2 (Returned b).
Proof.
  revert tr. induction m as [a|e|sub cmd d x k IH|mm to k IH|o k IH|sub cmd d k IH]; intros tr H; cbn [StartZnp.seq] in H.
  - exists [], tr, a. split; [reflexivity|]. split; [constructor|exact H].
  - inversion H.
  - inversion H; subst. match goal with X : goes (StartZnp.seq (k r) f) _ _ |- _ => destruct (IH r _ X) as (t1 & t2 & a & -> & G1 & G2) end. exists (ARequest sub cmd d x (Some r) :: t1), t2, a. split; [reflexivity|]. split; [constructor; assumption|exact G2].
  - inversion H; subst. match goal with X : goes (StartZnp.seq (k (mm, to)) f) _ _ |- _ => destruct (IH (mm, to) _ X) as (t1 & t2 & a & -> & G1 & G2) end. exists (AListen mm to :: t1), t2, a. split; [reflexivity|]. split; [constructor; assumption|exact G2].
  - inversion H; subst. match goal with X : goes (StartZnp.seq (k r) f) _ _ |- _ => destruct (IH r _ X) as (t1 & t2 & a & -> & G1 & G2) end. exists (AAwait m r :: t1), t2, a. split; [reflexivity|]. split; [constructor; assumption|exact G2].
  - inversion H; subst. match goal with X : goes (StartZnp.seq k f) _ _ |- _ => destruct (IH _ X) as (t1 & t2 & a & -> & G1 & G2) end. exists (ASpawn sub cmd d :: t1), t2, a. split; [reflexivity|]. split; [constructor; assumption|exact G2].
Qed.
Lemma goes_request_inv {A} sub cmd d x (k : zpi -> prog A) tr b : goes (let! m := request sub cmd d x in k m) tr (Returned b) ->
  exists m t, tr = ARequest sub cmd d x (Some (Ok m)) :: t /\ answer_possible x (Ok m) /\ goes (k m) t (Returned b).
Proof.
  intro H. apply goes_seq in H. destruct H as (t1 & t2 & m & -> & G1 & G2). unfold request in G1. inversion G1; subst.
  destruct r as [m'|e]; cbn [of_result] in *; match goal with X : goes _ _ (Returned m) |- _ => inversion X; subst end. exists m, t2. auto.
Qed.
Lemma ping_goes tr r : goes part_ping tr (Returned r) -> r = TPong /\ exists m, tr = [ARequest SYS "ping" [("capabilities", VInt 1)] [0] (Some (Ok m))] /\ answer_possible [0] (Ok m).
Proof.
  intro H. apply goes_seq in H. destruct H as (t1 & t2 & m & -> & G1 & G2). inversion G2; subst. split; [reflexivity|].
  unfold ping, request in G1. cbn [attempt] in G1. inversion G1; subst. destruct r as [m'|e]; cbn [of_result attempt] in *; match goal with X : goes _ _ (Returned m) |- _ => rename X into Y end.
  - inversion Y; subst. exists m. auto.
  - destruct e; inversion Y.
Qed.
Lemma version_goes tr r : goes part_version tr (Returned r) -> exists m p, r = TVersion p /\ dict_get (z_payload m) "product" = Some (VInt p) /\
  tr = [ARequest SYS "version" [] [0] (Some (Ok m))] /\ answer_possible [0] (Ok m).
Proof.
  intro H. apply goes_request_inv in H. destruct H as (m & t & -> & P & G). unfold field in G. destruct (dict_get (z_payload m) "product") as [v|] eqn:D; cbn [StartZnp.seq] in G; [|inversion G].
  destruct v; inversion G; subst. exists m, z. auto.
Qed.
Lemma form_goes c p tr r : goes (part_form p c) tr (Returned r) -> exists v, r = TFormed v /\ goes (start_znp p (network_options c) 2948 false) tr (Returned v).
Proof. intro H. apply goes_seq in H. destruct H as (t1 & t2 & v & -> & G1 & G2). inversion G2; subst. exists v. rewrite app_nil_r. auto. Qed.
Lemma device_goes tr r : goes part_device tr (Returned r) -> exists m i n, r = TDevice i n /\ dict_get (z_payload m) "ieeeaddr" = Some (VEui i) /\
  dict_get (z_payload m) "shortaddr" = Some (VInt n) /\ tr = [ARequest UTIL "getDeviceInfo" [] [0] (Some (Ok m))] /\ answer_possible [0] (Ok m).
Proof.
  intro H. apply goes_request_inv in H. destruct H as (m & t & -> & P & G). unfold field in G. destruct (dict_get (z_payload m) "ieeeaddr") as [v|] eqn:D; cbn [StartZnp.seq] in G; [|inversion G].
  destruct (dict_get (z_payload m) "shortaddr") as [y|] eqn:D2; cbn [StartZnp.seq] in G; [|inversion G]. destruct v; try (inversion G; fail). destruct y; inversion G; subst. exists m, l, z. auto.
Qed.
Lemma leg_goes w p0 a l r ws : Leg w p0 a l (Ready (DRet r)) ws -> goes p0 (map snd l) (Returned r).
Proof. intros (s & _ & G). apply ginv_goes in G. unfold acts, doings, ending in G. cbn [h_place h_trace] in G. rewrite app_nil_r in G. exact G. Qed.
(** what part comes to an end *)
Lemma far_cases c auto w ds p : so_far c auto w ds p -> p = part_ping \/ p = part_version \/ (exists product, p = part_form product c) \/ p = part_device.
Proof. intro H. destruct H; auto. destruct auto; eauto. Qed.
Lemma far_at_ping c auto w ds p a l ws : so_far c auto w ds p -> Leg w p a l (Ready (DRet TPong)) ws -> ds = [] /\ p = part_ping.
Proof.
  intros F L. apply leg_goes in L. destruct F; try (split; reflexivity); exfalso.
  - apply version_goes in L. destruct L as (m & p & E & _). discriminate.
  - destruct auto; [apply form_goes in L; destruct L as (v & E & _)|apply device_goes in L; destruct L as (m & i & n & E & _)]; discriminate.
  - apply device_goes in L. destruct L as (m & i & n & E & _). discriminate.
Qed.
Lemma far_at_version c auto w ds p a l ws v : so_far c auto w ds p -> Leg w p a l (Ready (DRet (TVersion v))) ws ->
  p = part_version /\ exists a1, done_leg w part_ping a1 ds TPong.
Proof.
  intros F L. apply leg_goes in L. destruct F.
  - exfalso. apply ping_goes in L. destruct L as [E _]. discriminate.
  - split; [reflexivity|eauto].
  - exfalso. destruct auto; [apply form_goes in L; destruct L as (y & E & _)|apply device_goes in L; destruct L as (m & i & n & E & _)]; discriminate.
  - exfalso. apply device_goes in L. destruct L as (m & i & n & E & _). discriminate.
Qed.
Lemma far_at_form c auto w ds p a l ws r : so_far c auto w ds p -> Leg w p a l (Ready (DRet (TFormed r))) ws ->
  auto = true /\ exists product a1 ds1 a2 ds2 q, ds = ds1 ++ ds2 /\ p = part_form product c /\ done_leg w part_ping a1 ds1 TPong /\
    done_leg w part_version a2 ds2 (TVersion product) /\ known_product product = true /\ In (WNewSem q (concurrent product)) (w_log w).
Proof.
  intros F L. apply leg_goes in L. destruct F.
  - exfalso. apply ping_goes in L. destruct L as [E _]. discriminate.
  - exfalso. apply version_goes in L. destruct L as (m & p & E & _). discriminate.
  - destruct auto; [|exfalso; apply device_goes in L; destruct L as (m & i & n & E & _); discriminate]. split; [reflexivity|]. exists product, a1, ds1, a2, ds2, q. repeat (split; [first [reflexivity|assumption]|]). assumption.
  - exfalso. apply device_goes in L. destruct L as (m & i & n & E & _). discriminate.
Qed.
Lemma far_at_device c auto w ds p a l ws i n : so_far c auto w ds p -> Leg w p a l (Ready (DRet (TDevice i n))) ws -> p = part_device.
Proof.
  intros F L. apply leg_goes in L. destruct F; try reflexivity.
  - exfalso. apply ping_goes in L. destruct L as [E _]. discriminate.
  - exfalso. apply version_goes in L. destruct L as (m & p & E & _). discriminate.
  - destruct auto; [|reflexivity]. exfalso. apply form_goes in L. destruct L as (y & E & _). discriminate.
Qed.
Lemma xinv_led c x t : XInv c x -> starting (x_world x) t = true -> exists led,
  b_deeds (x_boots (led_off t x) t) = b_deeds (x_boots x t) ++ led /\ b_auto (x_boots (led_off t x) t) = b_auto (x_boots x t) /\ b_part (x_boots (led_off t x) t) = b_part (x_boots x t) /\
  led_deed (x_world (led_off t x)) led /\ later (x_world x) (x_world (led_off t x)) /\ starting (x_world (led_off t x)) t = true /\ wreachable (x_world (led_off t x)) /\
  forall b, boot_ok c (x_world (led_off t x)) t b -> b_auto b = b_auto (x_boots x t) -> XInv c (put_boot t b (led_off t x)).
Proof.
  intros H S. pose proof (I_world c x H) as R. destruct (starting_cur _ t R S) as (a & s & C & A). unfold led_off. rewrite C, A.
  set (j := JCommand UTIL "ledControl" (led_payload LED_Off) [0]). set (e := VApiCall a j).
  assert (H' : XInv c (happens e x)) by (apply xinv_happens; [exact H|exact I|intro u; apply starting_other; reflexivity]).
  exists [(a, s_ntid s, ASpawn UTIL "ledControl" (led_payload LED_Off))]. cbn [put_boot x_boots x_world]. rewrite put_at_same. cbn [b_deeds b_auto b_part].
  split; [reflexivity|]. split; [reflexivity|]. split; [reflexivity|]. split; [|split; [apply later_step, R|split; [cbn [happens x_world]; rewrite starting_other by reflexivity; exact S|split; [apply wreach_step, R|]]]].
  - right. exists a, (s_ntid s), (step (ECall j) s). split; [reflexivity|]. split; [cbn [happens x_world]; apply called_api; [reflexivity|exact A]|].
    exists (mk_task j PStart None None). split; [apply spawned_w, (proj2 (proj2 (wreach_good _ R)) a s A)|reflexivity].
  - intros b B E. apply (xinv_moves c (happens e x)); auto; [apply H'|apply later_refl| |].
    + intro u. cbn [put_boot x_world x_boots]. destruct (Nat.eq_dec u t) as [->|N]; [rewrite put_at_same; exact B|rewrite !put_at_other by exact N; apply H'].
    + intro u. cbn [put_boot x_world x_boots]. left. destruct (Nat.eq_dec u t) as [->|N]; [rewrite put_at_same; exact E|rewrite !put_at_other by exact N; reflexivity].
Qed.

(** ** a start-up goes on *)
Lemma xinv_boot_goes c t x : XInv c x -> XInv c (boot_goes c t x).
Proof.
  intro H. pose proof (I_world c x H) as R. pose proof (I_boots c x H t) as B. unfold boot_goes. unfold boot_ok in B.
  destruct (b_part (x_boots x t)) as [p|] eqn:Bp; [|exact H]. destruct B as (S & pre & p0 & l & E & F & L).
  assert (Rest : XInv c (let '(w, p', ds) := part_goes p (x_world x) in
        put_boot t (mk_boot (b_auto (x_boots x t)) (Some p') (b_deeds (x_boots x t) ++ ds)) (mk_whole w (x_boots x) (x_until x) (x_log x)))).
  { pose proof (part_goes_ok (x_world x) p0 p l L) as P. destruct (part_goes p (x_world x)) as [[w' p'] ds]. destruct P as (A & Ea & l' & -> & L').
    destruct (aside_facts _ _ A R) as (R' & X & U & St & N). unfold put_boot. cbn [x_world x_boots x_until x_log]. apply (xinv_moves c x); auto.
    - intro u. destruct (Nat.eq_dec u t) as [->|D]; [rewrite put_at_same|rewrite put_at_other by exact D; eapply boot_later; [exact X|apply St|apply H]].
      unfold boot_ok. cbn [b_part b_deeds b_auto]. rewrite Ea, St. split; [exact S|]. exists pre, p0, (l ++ l').
      split; [rewrite E; unfold deeds_of; rewrite map_app, app_assoc; reflexivity|]. split; [eapply far_later; eassumption|exact L'].
    - intro u. left. destruct (Nat.eq_dec u t) as [->|D]; [rewrite put_at_same|rewrite put_at_other by exact D]; reflexivity.
    - intros q n Y. left. apply N; [apply new_sem_loud|exact Y].
    - intros i n Y. left. apply N; [apply added_loud|exact Y]. }
  destruct (r_place p) as [[v|e|sub cmd d x0 k|m to k|o k|sub cmd d k]|t0 sub cmd d x0 k|t0 m k] eqn:Ep; try exact Rest; [|].
  - destruct v as [|product|r|ieee nwk].
    + destruct (far_at_ping _ _ _ _ _ _ _ _ F L) as [-> ->]. apply xinv_next; [exact H|exact S|]. rewrite E. cbn [app]. eapply far_pinged. exists l, (r_waiters p). split; [reflexivity|exact L].
    + destruct (far_at_version _ _ _ _ _ _ _ _ _ F L) as [-> (a1 & L1)].
      assert (V : done_leg (x_world x) part_version (r_api p) (deeds_of (r_api p) l) (TVersion product)) by (exists l, (r_waiters p); split; [reflexivity|exact L]).
      destruct (xinv_version c x t product H S) as [H1 [q Q]]; [eauto|]. cbv zeta.
      assert (X : later (x_world x) (x_world (happens (VGotVersion t product) x))) by (apply later_step, R).
      assert (S1 : starting (x_world (happens (VGotVersion t product) x)) t = true) by (cbn [happens x_world world_step]; rewrite S; exact S).
      destruct (known_product product) eqn:K.
      * apply xinv_next; [exact H1|exact S1|]. change (x_boots (happens (VGotVersion t product) x) t) with (x_boots x t). rewrite E.
        eapply far_known; [eapply done_later; eassumption|eapply done_later; eassumption|exact K|exact Q].
      * apply xinv_over; [exact H1|exact S1|]. change (x_boots (happens (VGotVersion t product) x) t) with (x_boots x t). rewrite E.
        eapply over_unknown; [eapply done_later; eassumption|eapply done_later; eassumption|exact K].
    + destruct (far_at_form _ _ _ _ _ _ _ _ _ F L) as (Au & product & a1 & ds1 & a2 & ds2 & q & -> & -> & L1 & L2 & K & Q).
      assert (Fo : done_leg (x_world x) (part_form product c) (r_api p) (deeds_of (r_api p) l) (TFormed r)) by (exists l, (r_waiters p); split; [reflexivity|exact L]).
      assert (V := wreach_versioned _ R _ _ Q). destruct (w_version (x_world x)) as [v|]; [|congruence]. cbn [set_led].
      destruct (v =? zStack3x0).
      * apply xinv_next; [exact H|exact S|]. rewrite E, <- app_assoc, <- (app_nil_r (deeds_of (r_api p) l)). eapply far_formed; try eassumption. left. reflexivity.
      * destruct (xinv_led c x t H S) as (led & Ed & Eau & Epa & Ld & X & S1 & R1 & Put). unfold next_part. destruct (starting_cur _ t R1 S1) as (a & s & C & A). rewrite C.
        apply Put; [|exact Eau]. unfold boot_ok. cbn [b_part b_deeds b_auto r_api r_place r_waiters]. split; [exact S1|].
        exists (b_deeds (x_boots (led_off t x) t)), part_device, []. split; [cbn [deeds_of map]; rewrite app_nil_r; reflexivity|]. split.
        -- rewrite Ed, E, Eau, <- !app_assoc. eapply far_formed; [exact Au| | |exact K| | |exact Ld]; try (eapply done_later; eassumption). apply X, Q.
        -- exists s. split; [exact A|]. apply (ginv_start part_device s); [apply (proj2 (proj2 (wreach_good _ R1)) a s A)|apply (wreach_heard _ R1 a s A)].
    + assert (p0 = part_device) as -> by exact (far_at_device _ _ _ _ _ _ _ _ _ _ F L).
      assert (V : done_leg (x_world x) part_device (r_api p) (deeds_of (r_api p) l) (TDevice ieee nwk)) by (exists l, (r_waiters p); split; [reflexivity|exact L]).
      destruct (xinv_device c x t ieee nwk H S) as [H1 Q]; [eauto|].
      assert (X : later (x_world x) (x_world (happens (VGotDevice t ieee nwk) x))) by (apply later_step, R).
      apply xinv_over; [exact H1|cbn [happens x_world world_step]; rewrite S; exact S|]. change (x_boots (happens (VGotDevice t ieee nwk) x) t) with (x_boots x t). rewrite E.
      eapply over_well; [eapply far_later; eassumption|eapply done_later; eassumption|exact Q].
  - apply xinv_over; [exact H|exact S|]. rewrite E. eapply over_raised; eassumption.
Qed.

(** ** every step *)
Lemma xinv_init c devs : XInv c (whole_init devs).
Proof.
  constructor; cbn [whole_init x_world x_boots x_log].
  - exists devs, []. reflexivity.
  - intro t. split; [reflexivity|]. destruct t; reflexivity.
  - intro t. left. reflexivity.
  - intros t auto ds r at_ [].
  - intros q n [].
  - intros i n [].
Qed.
Lemma xinv_go c x t r : XInv c x -> starting (x_world x) t = false ->
  XInv c (let x1 := falls_asleep t (happens (VLife (VGo t r)) x) in if starting (x_world x1) t then next_part t part_ping x1 else x1).
Proof.
  intros H S. cbv zeta. pose proof (I_world c x H) as R. set (e := VLife (VGo t r)).
  assert (X : later (x_world x) (world_step e (x_world x))) by apply later_step, R.
  assert (R1 : wreachable (world_step e (x_world x))) by apply wreach_step, R.
  assert (Os : forall u, u <> t -> starting (world_step e (x_world x)) u = starting (x_world x) u) by (intros u N; apply starting_life; intros r0 [= E]; congruence).
  assert (Bt : b_part (x_boots x t) = None /\ b_deeds (x_boots x t) = []).
  { pose proof (I_boots c x H t) as B. unfold boot_ok in B. destruct (b_part (x_boots x t)); [destruct B; congruence|split; [reflexivity|apply B]]. }
  assert (News : forall o, ~ quiet_obs o -> In o (w_log (world_step e (x_world x))) -> In o (w_log (x_world x))) by (intros o Q Y; eapply news_calm; [|exact Q|exact Y]; exact I).
  rewrite asleep_world. cbn [happens x_world]. destruct (starting (world_step e (x_world x)) t) eqn:S1.
  - unfold next_part. rewrite asleep_world, asleep_boots. cbn [happens x_world x_boots]. destruct (starting_cur _ t R1 S1) as (a & s & C & A). rewrite C.
    assert (Y : XInv c (put_boot t (mk_boot (b_auto (x_boots x t)) (Some (mk_part a (Ready part_ping) [])) (b_deeds (x_boots x t))) (happens e x))).
    { unfold put_boot, happens. cbn [x_world x_boots x_until x_log]. apply (xinv_moves c x); auto.
      - intros u U. apply user_step, U.
      - intro u. destruct (Nat.eq_dec u t) as [->|N]; [rewrite put_at_same|rewrite put_at_other by exact N; eapply boot_later; [exact X|apply Os, N|apply H]].
        unfold boot_ok. cbn [b_part b_deeds b_auto r_api r_place r_waiters]. split; [exact S1|]. exists [], part_ping, []. rewrite (proj2 Bt). split; [reflexivity|]. split; [constructor|].
        exists s. split; [exact A|]. apply (ginv_start part_ping s); [apply (proj2 (proj2 (wreach_good _ R1)) a s A)|apply (wreach_heard _ R1 a s A)].
      - intro u. left. destruct (Nat.eq_dec u t) as [->|N]; [rewrite put_at_same|rewrite put_at_other by exact N]; reflexivity. }
    unfold falls_asleep. destruct (stage_of (x_world (happens e x)) t) as [[]|]; first [exact Y|exact (xinv_until c _ _ Y)].
  - apply xinv_asleep. apply xinv_happens; [exact H|exact I|]. intro u. destruct (Nat.eq_dec u t) as [->|N]; [congruence|apply Os, N].
Qed.
Lemma xinv_step c e x : XInv c x -> XInv c (whole_step c e x).
Proof.
  intro H. pose proof (I_world c x H) as R. destruct e as [auto r|t|e]; cbn [whole_step].
  - set (t := length (y_tasks (w_life (x_world x)))). apply xinv_asleep. set (e := VLife (VStartup r)).
    assert (St : forall u, starting (world_step e (x_world x)) u = starting (x_world x) u) by (intro u; apply starting_life; discriminate).
    assert (N : nth_error (y_tasks (w_life (x_world x))) t = None) by (apply nth_error_None; unfold t; lia).
    assert (H1 : XInv c (tries t (happens e x))) by (apply xinv_tries, xinv_happens; [exact H|exact I|exact St]).
    apply xinv_boot; [exact H1| |].
    + split; [reflexivity|]. cbn [tries xnote x_world happens]. rewrite St. unfold starting. rewrite N. reflexivity.
    + right. cbn [tries xnote x_world happens]. unfold e. cbn [world_step]. unfold life_event_happens, user_called. wfld. cbn [life_step].
      set (s1 := with_tasks _ _). assert (G1 : nth_error (y_tasks s1) t = Some (mk_coroutine false KBegin)) by (unfold s1, t; cbn [with_tasks y_tasks]; rewrite nth_snoc, Nat.eqb_refl; reflexivity).
      fold t. assert (K : exists k, nth_error (y_tasks (startup_begins t r s1)) t = Some k).
      { unfold startup_begins. cbv zeta. destruct r as [v|y].
        - unfold at_stage. cbn [with_gws with_apis log y_tasks]. rewrite G1. cbn [with_gws with_apis with_tasks log y_tasks]. rewrite nth_set, Nat.eqb_refl, G1. eauto.
        - set (s2 := with_apis _ _). assert (G2 : nth_error (y_tasks s2) t = Some (mk_coroutine false KBegin)) by exact G1.
          destruct (ended_shape t (Err y) _ s2 G2) as [E2 _]. rewrite E2, nth_set, Nat.eqb_refl, G2. eauto. }
      destruct K as [k K]. exists k. split; [exact K|]. destruct (begins_stage _ _ _ _ K) as ((k0 & G0 & E0) & _). rewrite G1 in G0. injection G0 as <-. exact E0.
  - apply xinv_boot_goes, H.
  - destruct (from_outside x e) eqn:O; [|exact H].
    assert (Other : other_event e = true -> XInv c (happens e x)) by (intro Oe; apply xinv_happens; [exact H|destruct e; try exact I; discriminate Oe|intro u; apply starting_other, Oe]).
    destruct e as [| | | | | | | | | |e| |]; try (apply Other; reflexivity); try discriminate O.
    assert (Life : (forall u r, e <> VGo u r) -> XInv c (happens (VLife e) x)) by (intro Ne; apply xinv_happens; [exact H|exact I|intro u; apply starting_life; intros r; apply Ne]).
    destruct e as [r| |g|t r]; try (apply Life; discriminate).
    assert (S : starting (x_world x) t = false).
    { cbn [from_outside] in O. unfold starting. unfold stage_of in O. destruct (nth_error (y_tasks (w_life (x_world x))) t) as [k|]; [|reflexivity]. cbn [option_map] in O. destruct (k_stage k); try reflexivity. discriminate O. }
    set (x1 := match stage_of (x_world x) t, r with Some KSleep, Err CancelledError => x | Some KSleep, _ => tries t x | _, _ => x end).
    assert (X1 : XInv c x1 /\ x_world x1 = x_world x).
    { assert (Y : XInv c (tries t x) /\ x_world (tries t x) = x_world x) by (split; [apply xinv_tries, H|reflexivity]). assert (Z : XInv c x /\ x_world x = x_world x) by (split; [exact H|reflexivity]).
      unfold x1. destruct (stage_of (x_world x) t) as [[]|]; try exact Z. destruct r as [v|y]; [exact Y|]. destruct y; first [exact Y|exact Z]. }
    destruct X1 as [H1 E1]. apply xinv_go; [exact H1|rewrite E1; exact S].
Qed.
Lemma xinv_run c es x : XInv c x -> XInv c (whole_run c es x).
Proof. revert x. induction es as [|e es IH]; intros x H; [exact H|]. apply IH, xinv_step, H. Qed.
