(** * WholeAgain: a reconnect loop tries again until it succeeds *)
From Coq Require Import ZifyBool ZifyNat.
From Verif Require Import Base Types Uart Buffalo CmdTable Zpi Api App Machine Life World SpecMachine SpecProgress SpecLife SpecWorld SpecWorldProgress
  LifeProofs2 LifeProofs3 WorldBase WorldLife WorldProofs2 WorldProgress2 Nv StartZnp AppStart SpecStart Host Whole WholeBase WholeProofs WholeProofs2 SpecWhole WholeProofs4
  WholeTime WholeInd WholeParts SpecWholeEnds WholeEnds WholeEnds2.

(** ** what leaves coroutine [t] where it is *)
Definition same (t : nat) (x x' : whole) : Prop :=
  coroutine_of (x_world x') t = coroutine_of (x_world x) t /\ x_until x' t = x_until x t /\
  exists l, x_log x' = x_log x ++ l /\ forall o a, In o l -> ~ noted t a o.
Lemma same_refl t x : same t x x.
Proof. split; [reflexivity|]. split; [reflexivity|]. exists []. rewrite app_nil_r. split; [reflexivity|intros o a []]. Qed.
Lemma same_trans t x y z : same t x y -> same t y z -> same t x z.
Proof.
  intros (C1 & U1 & l1 & L1 & N1) (C2 & U2 & l2 & L2 & N2). split; [congruence|]. split; [congruence|]. exists (l1 ++ l2). split; [rewrite L2, L1, app_assoc; reflexivity|].
  intros o a Ho. apply in_app_or in Ho as [Ho|Ho]; auto.
Qed.
Lemma same_boot t u b x : same t x (put_boot u b x).
Proof. split; [reflexivity|]. split; [reflexivity|]. exists []. rewrite app_nil_r. split; [reflexivity|intros o a []]. Qed.
Lemma same_asleep t u x : u <> t -> same t x (falls_asleep u x).
Proof.
  intro D. split; [rewrite asleep_world; reflexivity|]. split; [|exists []; rewrite app_nil_r, asleep_log; split; [reflexivity|intros o a []]].
  unfold falls_asleep. destruct (stage_of (x_world x) u) as [[]|]; try reflexivity; apply put_at_other; congruence.
Qed.
Lemma same_note t o x : (forall a, ~ noted t a o) -> same t x (xnote o x).
Proof. intro N. split; [reflexivity|]. split; [reflexivity|]. exists [o]. split; [reflexivity|]. intros p a [<-|[]]. apply N. Qed.
Lemma coroutine_kept e w t k : coroutine_of w t = Some k -> (forall r, e <> VLife (VGo t r)) -> coroutine_of (world_step e w) t = Some k.
Proof.
  intros E N. unfold coroutine_of in *. destruct (other_event e) eqn:O; [rewrite life_other by exact O; exact E|]. destruct e; try discriminate O; cbn [world_step].
  - unfold life_event_happens. wfld. apply stage_kept; [exact E|]. intros r ->. apply (N r eq_refl).
  - destruct (starting w t0); unfold got_version; wfld; exact E.
  - destruct (starting w t0); unfold got_device; wfld; exact E.
Qed.
Lemma same_happens t k e x : coroutine_of (x_world x) t = Some k -> (forall r, e <> VLife (VGo t r)) -> same t x (happens e x).
Proof.
  intros E N. split; [cbn [happens x_world]; rewrite (coroutine_kept e _ t k E N), E; reflexivity|]. split; [reflexivity|]. exists []. rewrite app_nil_r. split; [reflexivity|intros o a []].
Qed.
Lemma same_world t k f x b : coroutine_of (x_world x) t = Some k -> Forall (fun e => other_event e = true) f -> same t x (mk_whole (world_run f (x_world x)) b (x_until x) (x_log x)).
Proof.
  intros E F. split; [|split; [reflexivity|exists []; rewrite app_nil_r; split; [reflexivity|intros o a []]]]. cbn [x_world]. rewrite E.
  generalize dependent (x_world x). clear x b. induction F as [|e f O F IH]; intros w E; [exact E|]. change (world_run (e :: f) w) with (world_run f (world_step e w)). apply IH, coroutine_kept; [exact E|].
  intros r ->. discriminate O.
Qed.
Lemma same_over t u r x k : u <> t -> coroutine_of (x_world x) t = Some k -> same t x (attempt_over u r x).
Proof.
  intros D E. unfold attempt_over. eapply same_trans; [|apply same_asleep, D]. eapply same_trans; [|apply same_boot]. eapply same_trans; [apply (same_happens t k (VLife (VGo u r)) x E); intros r0 H; injection H; congruence|].
  apply same_note. intros a [N _]. congruence.
Qed.
Lemma same_next t u p x k : u <> t -> coroutine_of (x_world x) t = Some k -> same t x (next_part u p x).
Proof. intros D E. unfold next_part. destruct (y_cur _); [apply same_boot|eapply same_over; eassumption]. Qed.

(** ** what moves it *)
Definition good_end (r : result unit) : Prop := match r with Ok _ | Err CancelledError => True | _ => False end.
Definition rank (k : coroutine) : nat := match k_stage k with KEnd _ => 0 | KSleep => 1 | KBegin | KRequests => 2 | KSettle _ _ => 3 end.
Definition lower (t : nat) (n : nat) (x' : whole) : Prop :=
  exists k', coroutine_of (x_world x') t = Some k' /\ k_loop k' = true /\ (rank k' < n)%nat /\ forall r, k_stage k' = KEnd r -> good_end r.
Definition tried_in (x x' : whole) (t : nat) : Prop := exists l at_, x_log x' = x_log x ++ l /\ In (XTries t at_) l.
Definition moves (t : nat) (k : coroutine) (x x' : whole) : Prop := same t x x' \/ tried_in x x' t \/ lower t (rank k) x'.
Lemma ended_lower t k r w : coroutine_of w t = Some k -> k_loop k = true -> k_stage k = KRequests ->
  exists k', coroutine_of (world_step (VLife (VGo t r)) w) t = Some k' /\ k_loop k' = true /\ (rank k' < rank k)%nat /\ forall r, k_stage k' = KEnd r -> good_end r.
Proof.
  intros E L S. unfold coroutine_of in *. cbn [world_step]. unfold life_event_happens. wfld. cbn [life_step]. unfold go_on. rewrite E, S.
  destruct (ended_shape t r k (w_life w) E) as [Sh _]. rewrite Sh, nth_set, Nat.eqb_refl, E. eexists. split; [reflexivity|]. cbn [k_loop]. split; [exact L|]. rewrite L.
  unfold rank. rewrite S. cbn [k_stage andb]. destruct r as [v|e]; [split; [lia|intros r [= <-]; exact I]|].
  destruct e; (split; [lia|]); intros r; try discriminate. intros [= <-]. exact I.
Qed.
Lemma over_lower t k r x : coroutine_of (x_world x) t = Some k -> k_loop k = true -> k_stage k = KRequests -> lower t (rank k) (attempt_over t r x).
Proof.
  intros E L S. unfold lower, attempt_over. rewrite asleep_world. cbn [put_boot xnote happens x_world]. apply ended_lower; assumption.
Qed.
Lemma next_moves t k p y : coroutine_of (x_world y) t = Some k -> k_loop k = true -> k_stage k = KRequests -> same t y (next_part t p y) \/ lower t (rank k) (next_part t p y).
Proof. intros E L S. unfold next_part. destruct (y_cur _); [left; apply same_boot|right; apply over_lower; assumption]. Qed.
Lemma goes_moves c t k x : XInv c x -> coroutine_of (x_world x) t = Some k -> k_loop k = true -> moves t k x (boot_goes c t x).
Proof.
  intros X E L. pose proof (I_boots c x X t) as B. unfold boot_ok in B. unfold boot_goes. destruct (b_part (x_boots x t)) as [p|] eqn:Bp; [|left; apply same_refl].
  destruct B as (S & pre & p0 & l & _ & _ & Lg).
  assert (Sk : k_stage k = KRequests) by (unfold starting in S; unfold coroutine_of in E; rewrite E in S; destruct (k_stage k); try discriminate S; reflexivity).
  assert (Rest : moves t k x (let '(w, p', ds) := part_goes p (x_world x) in
        put_boot t (mk_boot (b_auto (x_boots x t)) (Some p') (b_deeds (x_boots x t) ++ ds)) (mk_whole w (x_boots x) (x_until x) (x_log x)))).
  { pose proof (part_goes_ok (x_world x) p0 p l Lg) as Q. destruct (part_goes p (x_world x)) as [[w' p'] ds]. destruct Q as ((f & -> & F) & _). left.
    eapply same_trans; [|apply same_boot]. apply (same_world t k); assumption. }
  assert (N : forall y q, same t x y -> moves t k x (next_part t q y)).
  { intros y q H. assert (E' : coroutine_of (x_world y) t = Some k) by (rewrite (proj1 H); exact E). destruct (next_moves t k q y E' L Sk) as [H'|H']; [left; eapply same_trans; eassumption|right; right; exact H']. }
  assert (O : forall y r, same t x y -> moves t k x (attempt_over t r y)).
  { intros y r H. right. right. apply over_lower; [rewrite (proj1 H); exact E|exact L|exact Sk]. }
  destruct (r_place p) as [[v|e|sub cmd d x0 q|m to q|o q|sub cmd d q]|t0 sub cmd d x0 q|t0 m q]; try exact Rest; clear Rest; [|apply O, same_refl].
  destruct v as [|product|r|ieee nwk].
  - apply N, same_refl.
  - cbv zeta. assert (H : same t x (happens (VGotVersion t product) x)) by (apply (same_happens t k); [exact E|discriminate]). destruct (known_product product); [apply N, H|apply O, H].
  - destruct (set_led _ _) as [[|z zs]|e]; [apply N, same_refl| |apply O, same_refl]. apply N. unfold led_off. destruct (y_cur _) as [a|]; [|apply same_refl].
    destruct (nth_error _ a) as [m|]; [|apply same_refl]. eapply same_trans; [|apply same_boot]. apply (same_happens t k); [exact E|discriminate].
  - apply O. apply (same_happens t k); [exact E|discriminate].
Qed.
Lemma vgo_moves t k r w : coroutine_of w t = Some k -> k_loop k = true -> exists k', coroutine_of (world_step (VLife (VGo t r)) w) t = Some k' /\ k_loop k' = true /\
  match k_stage k with
  | KBegin => k_stage k' = KSleep \/ (k_stage k' = KEnd r /\ r = Err CancelledError)
  | KSleep => (k_stage k' = KEnd r /\ r = Err CancelledError) \/ r <> Err CancelledError
  | KSettle _ _ => k_stage k' = KRequests \/ (k_stage k' = KEnd r /\ r = Err CancelledError)
  | KRequests => True
  | KEnd _ => k' = k
  end.
Proof.
  intros E L. destruct (kept_step (VGo t r) (w_life w) t k E) as (k' & G & L'). assert (Ec : coroutine_of (world_step (VLife (VGo t r)) w) t = Some k') by (unfold coroutine_of; cbn [world_step]; unfold life_event_happens; wfld; exact G).
  exists k'. split; [exact Ec|]. split; [congruence|]. clear Ec. unfold coroutine_of in E. revert G. cbn [life_step]. unfold go_on. rewrite E.
  assert (At : forall st s1, nth_error (y_tasks s1) t = Some k -> nth_error (y_tasks (at_stage t st s1)) t = Some (mk_coroutine true st)).
  { intros st s1 E1. unfold at_stage. rewrite E1. cbn [with_tasks y_tasks]. rewrite nth_set, Nat.eqb_refl, E1, L. reflexivity. }
  assert (Top : nth_error (y_tasks (loop_top t (w_life w))) t = Some (mk_coroutine true KSleep)).
  { unfold loop_top. apply At. cbn [log y_tasks]. rewrite tasks_app_close. exact E. }
  destruct (k_stage k) as [| |a g| |r0].
  - destruct r as [v|e]; [|destruct e]; rewrite ?Top; try (intros [= <-]; left; reflexivity). rewrite At by exact E. intros [= <-]. right. split; reflexivity.
  - destruct r as [v|e]; [|destruct e]; try (intros _; right; discriminate). rewrite At by exact E. intros [= <-]. left. split; reflexivity.
  - destruct r as [v|e]; [|destruct e]; try (rewrite At by exact E; intros [= <-]; left; reflexivity).
    destruct (ended_shape t (Err CancelledError) k (w_life w) E) as [Sh _]. rewrite Sh, nth_set, Nat.eqb_refl, E, L. cbn [andb]. intros [= <-]. right. split; reflexivity.
  - auto.
  - congruence.
Qed.

Lemma loop_step c e x t k : XInv c x -> coroutine_of (x_world x) t = Some k -> k_loop k = true -> moves t k x (whole_step c e x).
Proof.
  intros X E L. destruct e as [auto r|u|e]; cbn [whole_step].
  - set (n := length _). assert (D : n <> t) by (pose proof (nth_lt _ _ _ E); unfold n; lia). left.
    eapply same_trans; [|apply same_asleep, D]. eapply same_trans; [|apply same_boot]. eapply same_trans; [apply (same_happens t k (VLife (VStartup r))); [exact E|discriminate]|].
    unfold tries. apply same_note. intros a [N _]. congruence.
  - destruct (Nat.eq_dec u t) as [->|D]; [apply goes_moves; assumption|]. left.
    pose proof (I_boots c x X u) as B. unfold boot_ok in B. unfold boot_goes. destruct (b_part (x_boots x u)) as [p|] eqn:Bp; [|apply same_refl].
    destruct B as (S & pre & p0 & l & _ & _ & Lg).
    assert (Rest : same t x (let '(w, p', ds) := part_goes p (x_world x) in
        put_boot u (mk_boot (b_auto (x_boots x u)) (Some p') (b_deeds (x_boots x u) ++ ds)) (mk_whole w (x_boots x) (x_until x) (x_log x)))).
    { pose proof (part_goes_ok (x_world x) p0 p l Lg) as Q. destruct (part_goes p (x_world x)) as [[w' p'] ds]. destruct Q as ((f & -> & F) & _).
      eapply same_trans; [|apply same_boot]. apply (same_world t k); assumption. }
    assert (N : forall y q, same t x y -> same t x (next_part u q y)) by (intros y q H; eapply same_trans; [exact H|apply (same_next t u q y k); [exact D|rewrite (proj1 H); exact E]]).
    assert (O : forall y r, same t x y -> same t x (attempt_over u r y)) by (intros y r H; eapply same_trans; [exact H|apply (same_over t u r y k); [exact D|rewrite (proj1 H); exact E]]).
    destruct (r_place p) as [[v|e|sub cmd d x0 q|m to q|o q|sub cmd d q]|t0 sub cmd d x0 q|t0 m q]; try exact Rest; clear Rest; [|apply O, same_refl].
    destruct v as [|product|r|ieee nwk].
    + apply N, same_refl.
    + cbv zeta. assert (H : same t x (happens (VGotVersion u product) x)) by (apply (same_happens t k); [exact E|discriminate]). destruct (known_product product); [apply N, H|apply O, H].
    + destruct (set_led _ _) as [[|z zs]|e]; [apply N, same_refl| |apply O, same_refl]. apply N. unfold led_off. destruct (y_cur _) as [a|]; [|apply same_refl].
      destruct (nth_error _ a) as [m|]; [|apply same_refl]. eapply same_trans; [|apply same_boot]. apply (same_happens t k); [exact E|discriminate].
    + apply O. apply (same_happens t k); [exact E|discriminate].
  - destruct (from_outside x e) eqn:O; [|left; apply same_refl].
    assert (Ho : (forall r, e <> VLife (VGo t r)) -> same t x (happens e x)) by (apply (same_happens t k), E).
    destruct e as [| | | | | | | | | |e|u p|u i n]; try (left; apply Ho; discriminate). destruct e as [| | |u r]; try (left; apply Ho; discriminate). clear Ho. cbv zeta.
    set (x1 := match stage_of (x_world x) u with Some KSleep => _ | _ => _ end).
    assert (E1 : x_world x1 = x_world x /\ x_until x1 = x_until x) by (unfold x1; destruct (stage_of (x_world x) u) as [[]|]; try (split; reflexivity); destruct r as [v|[]]; split; reflexivity).
    destruct E1 as [E1 U1].
    destruct (Nat.eq_dec u t) as [->|D].
    + set (x2 := falls_asleep t (happens (VLife (VGo t r)) x1)).
      assert (W2 : x_world x2 = world_step (VLife (VGo t r)) (x_world x)) by (unfold x2; rewrite asleep_world; cbn [happens x_world]; rewrite E1; reflexivity).
      destruct (vgo_moves t k r (x_world x) E L) as (k' & Ek & Lk & M). rewrite <- W2 in Ek.
      assert (S0 : stage_of (x_world x) t = Some (k_stage k)) by (unfold stage_of, coroutine_of in *; rewrite E; reflexivity).
      assert (Fin : (rank k' < rank k)%nat -> (forall r, k_stage k' = KEnd r -> good_end r) -> moves t k x (if starting (x_world x2) t then next_part t part_ping x2 else x2)).
      { intros Rk Gd. right. right. destruct (starting (x_world x2) t) eqn:St; [|exists k'; auto].
        assert (Sk : k_stage k' = KRequests) by (unfold starting, coroutine_of in *; rewrite Ek in St; destruct (k_stage k'); try discriminate St; reflexivity).
        destruct (next_moves t k' part_ping x2 Ek Lk Sk) as [H|(k2 & A & B & C & G)]; [exists k'; rewrite (proj1 H); auto|]. exists k2. split; [exact A|]. split; [exact B|]. split; [lia|exact G]. }
      cbn [from_outside] in O. rewrite S0 in O. unfold rank in Fin.
      destruct (k_stage k) as [| |a g| |r0] eqn:Sk.
      * apply Fin; destruct M as [->|[-> ->]]; try lia; intros r0; [discriminate|intros [= <-]; exact I].
      * destruct M as [[S ->]|N]; [apply Fin; rewrite S; [lia|intros r0 [= <-]; exact I]|]. right. left.
        assert (T1 : x1 = tries t x) by (unfold x1; rewrite S0; destruct r as [v|[]]; try reflexivity; congruence).
        assert (T2 : x_log x2 = x_log x ++ [XTries t (w_now (x_world x))]) by (unfold x2; rewrite asleep_log; cbn [happens x_log]; rewrite T1; reflexivity).
        destruct (starting (x_world x2) t); [|exists [XTries t (w_now (x_world x))], (w_now (x_world x)); split; [exact T2|left; reflexivity]].
        unfold next_part. destruct (y_cur _); [exists [XTries t (w_now (x_world x))], (w_now (x_world x)); split; [exact T2|left; reflexivity]|].
        eexists; exists (w_now (x_world x)). unfold attempt_over. rewrite asleep_log. cbn [put_boot xnote happens x_log]. rewrite T2, <- app_assoc. split; [reflexivity|left; reflexivity].
      * apply Fin; destruct M as [->|[-> ->]]; try lia; intros r0; [discriminate|intros [= <-]; exact I].
      * discriminate O.
      * left. subst k'. rewrite Sk in *. assert (St : starting (x_world x2) t = false) by (unfold starting, coroutine_of in *; rewrite Ek, Sk; reflexivity). rewrite St.
        split; [congruence|]. assert (S2 : stage_of (x_world (happens (VLife (VGo t r)) x1)) t = Some (KEnd r0)).
        { cbn [happens x_world]. rewrite E1, <- W2. unfold stage_of, coroutine_of in *. rewrite Ek. cbn [option_map]. rewrite Sk. reflexivity. }
        split; [unfold x2, falls_asleep; rewrite S2; cbn [happens x_until]; rewrite U1; reflexivity|]. exists []. rewrite app_nil_r. split; [|intros o a []].
        unfold x2. rewrite asleep_log. cbn [happens x_log]. unfold x1. rewrite S0. reflexivity.
    + left. assert (S1 : same t x x1).
      { unfold x1. destruct (stage_of (x_world x) u) as [[]|]; try apply same_refl. destruct r as [v|[]]; try apply same_refl; unfold tries; apply same_note; intros a [N _]; congruence. }
      set (x2 := falls_asleep u (happens (VLife (VGo u r)) x1)).
      assert (S2 : same t x x2).
      { eapply same_trans; [exact S1|]. eapply same_trans; [|apply same_asleep, D]. apply (same_happens t k); [rewrite E1; exact E|]. intros r0 H. injection H; congruence. }
      destruct (starting (x_world x2) u); [|exact S2]. eapply same_trans; [exact S2|]. apply (same_next t u _ _ k D). rewrite (proj1 S2). exact E.
Qed.

(** ** runs *)
Lemma tried_later c es x y t : XInv c y -> tried_in x y t -> tried_in x (whole_run c es y) t.
Proof. intros X (l & at_ & E & Hi). destruct (xlog_run c es y X) as (l' & E'). exists (l ++ l'), at_. split; [rewrite app_assoc, <- E; exact E'|apply in_or_app; left; exact Hi]. Qed.
Lemma tried_earlier c es x y t : XInv c x -> tried_in (whole_run c es x) y t -> tried_in x y t.
Proof. intros X (l & at_ & E & Hi). destruct (xlog_run c es x X) as (l' & E'). exists (l' ++ l), at_. split; [rewrite app_assoc, <- E'; exact E|apply in_or_app; right; exact Hi]. Qed.
Lemma loop_run c es t : forall x k, XInv c x -> coroutine_of (x_world x) t = Some k -> k_loop k = true -> moves t k x (whole_run c es x).
Proof.
  induction es as [|e es IH]; intros x k X E L; [left; apply same_refl|]. change (whole_run c (e :: es) x) with (whole_run c es (whole_step c e x)).
  pose proof (xinv_step c e x X) as X1. destruct (loop_step c e x t k X E L) as [S|[T|(k1 & E1 & L1 & R1 & G1)]].
  - assert (E1 : coroutine_of (x_world (whole_step c e x)) t = Some k) by (rewrite (proj1 S); exact E).
    destruct (IH _ k X1 E1 L) as [S'|[T|Lo]]; [left; eapply same_trans; eassumption|right; left; exact (tried_earlier c [e] x _ t X T)|right; right; exact Lo].
  - right. left. apply tried_later; assumption.
  - destruct (IH _ k1 X1 E1 L1) as [S'|[T|(k2 & E2 & L2 & R2 & G2)]]; right; [right; exists k1; rewrite (proj1 S'); auto|left; exact (tried_earlier c [e] x _ t X T)|].
    right. exists k2. split; [exact E2|]. split; [exact L2|]. split; [lia|exact G2].
Qed.
(** nobody sleeps longer than five seconds *)
Lemma until_asleep t x : (forall u, x_until x u <= w_now (x_world x) + 5000) -> forall u, x_until (falls_asleep t x) u <= w_now (x_world (falls_asleep t x)) + 5000.
Proof.
  intros H u. rewrite asleep_world. unfold falls_asleep. destruct (stage_of (x_world x) t) as [[]|]; try apply H; cbn [x_until]; unfold put_at, SETTLE_MS; destruct (Nat.eqb u t); try apply H; lia.
Qed.
Definition Until (x : whole) : Prop := wreachable (x_world x) /\ forall u, x_until x u <= w_now (x_world x) + 5000.
Lemma until_happens e x : Until x -> Until (happens e x).
Proof. intros [R H]. split; [apply wreach_step, R|]. intro u. cbn [happens x_until x_world]. pose proof (now_step e _ R). specialize (H u). lia. Qed.
Lemma until_over t r x : Until x -> Until (attempt_over t r x).
Proof.
  intro H. unfold attempt_over. destruct (until_happens (VLife (VGo t r)) x H) as [R' H']. split; [rewrite asleep_world; exact R'|]. apply until_asleep. exact H'.
Qed.
Lemma until_next t p x : Until x -> Until (next_part t p x).
Proof. intro H. unfold next_part. destruct (y_cur _); [exact H|apply until_over, H]. Qed.
Lemma until_world f x b : Until x -> Until (mk_whole (world_run f (x_world x)) b (x_until x) (x_log x)).
Proof. revert x. induction f as [|e f IH]; intros x H; [exact H|]. exact (IH (happens e x) (until_happens e x H)). Qed.
Lemma until_step c e x : Until x -> Until (whole_step c e x).
Proof.
  intro H. destruct e as [auto r|t|e]; cbn [whole_step].
  - destruct (until_happens (VLife (VStartup r)) x H) as [R' H']. split; [rewrite asleep_world; exact R'|]. apply until_asleep. exact H'.
  - unfold boot_goes. destruct (b_part (x_boots x t)) as [p|]; [|exact H].
    assert (Rest : Until (let '(w, p', ds) := part_goes p (x_world x) in
        put_boot t (mk_boot (b_auto (x_boots x t)) (Some p') (b_deeds (x_boots x t) ++ ds)) (mk_whole w (x_boots x) (x_until x) (x_log x)))).
    { destruct (ws_part p (x_world x)) as (f & W). destruct (part_goes p (x_world x)) as [[w' p'] ds]. cbn [fst] in W. subst w'. apply (until_world f x (x_boots x) H). }
    destruct (r_place p) as [[v|e|sub cmd d x0 q|m to q|o q|sub cmd d q]|t0 sub cmd d x0 q|t0 m q]; try exact Rest; clear Rest; [|apply until_over, H].
    destruct v as [|product|r|ieee nwk].
    + apply until_next, H.
    + cbv zeta. destruct (known_product product); [apply until_next|apply until_over]; apply until_happens, H.
    + destruct (set_led _ _) as [[|z zs]|e]; [apply until_next, H| |apply until_over, H]. apply until_next. unfold led_off. destruct (y_cur _) as [a|]; [|exact H].
      destruct (nth_error _ a); [|exact H]. apply (until_happens (VApiCall a (JCommand UTIL "ledControl" (led_payload LED_Off) [0])) x H).
    + apply until_over, until_happens, H.
  - destruct (from_outside x e); [|exact H]. destruct e as [| | | | | | | | | |e|u p|u i n]; try (apply until_happens, H). destruct e as [| | |u r]; try (apply until_happens, H). cbv zeta.
    set (x1 := match stage_of (x_world x) u with Some KSleep => _ | _ => _ end).
    assert (H1 : Until x1) by (unfold x1; destruct (stage_of (x_world x) u) as [[]|]; try exact H; destruct r as [v|[]]; exact H).
    assert (H2 : Until (falls_asleep u (happens (VLife (VGo u r)) x1))).
    { destruct (until_happens (VLife (VGo u r)) x1 H1) as [R' H']. split; [rewrite asleep_world; exact R'|]. apply until_asleep. exact H'. }
    destruct (starting _ u); [apply until_next, H2|exact H2].
Qed.
Lemma until_run c es : forall x, Until x -> Until (whole_run c es x).
Proof. induction es as [|e es IH]; intros x H; [exact H|]. apply IH, until_step, H. Qed.
Lemma until_reachable c x : xreachable c x -> Until x.
Proof.
  intros (devs & es & ->). apply until_run. split; [exists devs, []; reflexivity|]. intro u. cbn [whole_init x_until x_world world_init w_now]. lia.
Qed.
Lemma now_xrun c es : forall x, XInv c x -> w_now (x_world x) + xpassing es <= w_now (x_world (whole_run c es x)).
Proof.
  induction es as [|e es IH]; intros x X; [cbn; lia|]. change (whole_run c (e :: es) x) with (whole_run c es (whole_step c e x)).
  specialize (IH _ (xinv_step c e x X)). enough (w_now (x_world x) + match e with XWorld (VTick ms) => Z.max 0 ms | _ => 0 end <= w_now (x_world (whole_step c e x))) by (unfold xpassing in *; cbn [fold_right]; destruct e as [| |[]]; lia).
  pose proof (I_world c x X) as R. assert (K : w_now (x_world x) <= w_now (x_world (whole_step c e x))).
  { destruct (ws_step c e x) as (f & ->). pose proof (now_run (x_world x) f R). assert (0 <= passing f) by (clear; induction f as [|v f IH]; [unfold passing; cbn; lia|]; unfold passing in *; cbn [fold_right]; destruct v; lia). lia. }
  destruct e as [| |v]; try lia. destruct v; try lia. cbn [whole_step from_outside happens x_world world_step]. destruct (0 <=? ms) eqn:Q; wfld; lia.
Qed.

(** ** rounds *)
Lemma not_same_over t x x' : ended_in x x' t -> ~ same t x x'.
Proof.
  intros (l & auto & ds & r & at_ & E & Hi) (_ & _ & l' & E' & N). rewrite E in E'. apply app_inv_head in E'. subst l'. apply (N _ at_ Hi). split; reflexivity.
Qed.
Lemma woken c x t k T r : xreachable c x -> coroutine_of (x_world x) t = Some k -> k_loop k = true -> match k_stage k with KBegin | KSleep | KSettle _ _ => True | _ => False end ->
  5000 <= T -> xwaking T x r -> tried_in x (whole_run c r x) t \/ lower t (rank k) (whole_run c r x).
Proof.
  intros R E L Rs HT (a & b & -> & Hp & Hb). pose proof (xreach_inv c x R) as X. destruct (Hb t) as (v & Hv); [exists k; auto|]. apply in_split in Hv as (b1 & b2 & ->). rewrite app_assoc.
  rewrite xrun_app. change (whole_run c (XWorld (VLife (VGo t v)) :: b2) ?y) with (whole_run c b2 (whole_step c (XWorld (VLife (VGo t v))) y)). set (x1 := whole_run c (a ++ b1) x).
  assert (X1 : XInv c x1) by apply xinv_run, X. set (x2 := whole_step c (XWorld (VLife (VGo t v))) x1). assert (X2 : XInv c x2) by apply xinv_step, X1.
  assert (Ea : forall y, tried_in x1 y t -> tried_in x y t) by (intros y; apply (tried_earlier c (a ++ b1) x y t X)).
  assert (Eb : forall y, tried_in x2 y t -> tried_in x1 y t) by (intros y; apply (tried_earlier c [XWorld (VLife (VGo t v))] x1 y t X1)).
  assert (Go : forall y n, XInv c y -> (forall z, tried_in y z t -> tried_in x z t) -> lower t n y -> forall f, tried_in x (whole_run c f y) t \/ lower t n (whole_run c f y)).
  { intros y n Y Ey (k' & E' & L' & R' & G') f. destruct (loop_run c f t y k' Y E' L') as [S|[Tr|(k2 & E2 & L2 & R2 & G2)]]; [right; exists k'; rewrite (proj1 S); auto|left; apply Ey, Tr|].
    right. exists k2. split; [exact E2|]. split; [exact L2|]. split; [lia|exact G2]. }
  pose proof (loop_run c (a ++ b1) t x k X E L) as D. fold x1 in D. destruct D as [S|[Tr|Lo]].
  - assert (E1 : coroutine_of (x_world x1) t = Some k) by (rewrite (proj1 S); exact E).
    assert (U : x_until x1 t <= w_now (x_world x1)).
    { destruct S as (_ & U & _). rewrite U. destruct (until_reachable c x R) as [_ Hu]. specialize (Hu t). pose proof (now_xrun c (a ++ b1) x X) as Nw. fold x1 in Nw.
      assert (P : xpassing a <= xpassing (a ++ b1)).
      { clear. induction a as [|e a IH]; [induction b1 as [|e b IH]; [reflexivity|]; unfold xpassing in *; cbn [app fold_right] in *; destruct e as [| |[]]; lia|].
        unfold xpassing in *. cbn [app fold_right]. destruct e as [| |[]]; lia. }
      lia. }
    pose proof (loop_step c (XWorld (VLife (VGo t v))) x1 t k X1 E1 L) as D. fold x2 in D. destruct D as [S'|[Tr|Lo]].
    + exfalso. assert (S0 : stage_of (x_world x1) t = Some (k_stage k)) by (unfold stage_of, coroutine_of in *; rewrite E1; reflexivity).
      assert (Fo : from_outside x1 (VLife (VGo t v)) = true).
      { cbn [from_outside]. rewrite S0. destruct (k_stage k); try contradiction; try reflexivity; apply orb_true_iff; left; lia. }
      destruct (vgo_moves t k v (x_world x1) E1 L) as (k' & Ek & Lk & M).
      assert (W2 : k_stage k = KSleep /\ v <> Err CancelledError \/ coroutine_of (x_world x2) t <> Some k).
      { unfold x2. cbn [whole_step]. rewrite Fo. cbv zeta. set (y1 := match stage_of (x_world x1) t with Some KSleep => _ | _ => _ end).
        assert (Ey : x_world y1 = x_world x1) by (unfold y1; destruct (stage_of (x_world x1) t) as [[]|]; try reflexivity; destruct v as [v|[]]; reflexivity).
        set (y2 := falls_asleep t (happens (VLife (VGo t v)) y1)). assert (Wy : x_world y2 = world_step (VLife (VGo t v)) (x_world x1)) by (unfold y2; rewrite asleep_world; cbn [happens x_world]; rewrite Ey; reflexivity).
        rewrite <- Wy in Ek.
        assert (Fin : (rank k' < rank k)%nat -> coroutine_of (x_world (if starting (x_world y2) t then next_part t part_ping y2 else y2)) t <> Some k).
        { intros Rk. destruct (starting (x_world y2) t) eqn:St; [|rewrite Ek; intros [= ->]; lia].
          assert (Sk : k_stage k' = KRequests) by (unfold starting, coroutine_of in *; rewrite Ek in St; destruct (k_stage k'); try discriminate St; reflexivity).
          destruct (next_moves t k' part_ping y2 Ek Lk Sk) as [H|(k2 & A & B & C & G)]; [rewrite (proj1 H), Ek; intros [= ->]; lia|rewrite A; intros [= ->]; lia]. }
        unfold rank in Fin. destruct (k_stage k) as [| |a0 g| |r0] eqn:Sk; try contradiction.
        - right. apply Fin. destruct M as [->|[-> _]]; lia.
        - destruct M as [[M _]|M]; [right; apply Fin; rewrite M; lia|left; auto].
        - right. apply Fin. destruct M as [->|[-> _]]; lia. }
      destruct W2 as [[Sk Nv]|W2]; [|apply W2; rewrite (proj1 S'); exact E1].
      destruct S' as (_ & _ & l & El & Nl). unfold x2 in El. cbn [whole_step] in El. rewrite Fo in El. cbv zeta in El. rewrite S0, Sk in El.
      assert (T1 : match v with Err CancelledError => x1 | _ => tries t x1 end = tries t x1) by (destruct v as [v|[]]; try reflexivity; congruence). rewrite T1 in El.
      set (y2 := falls_asleep t (happens (VLife (VGo t v)) (tries t x1))) in El.
      assert (L2 : x_log y2 = x_log x1 ++ [XTries t (w_now (x_world x1))]) by (unfold y2; rewrite asleep_log; reflexivity).
      assert (Hi : exists m, x_log (if starting (x_world y2) t then next_part t part_ping y2 else y2) = x_log x1 ++ XTries t (w_now (x_world x1)) :: m).
      { destruct (starting (x_world y2) t); [|exists []; exact L2]. unfold next_part. destruct (y_cur _); [exists []; exact L2|]. unfold attempt_over. rewrite asleep_log. cbn [put_boot xnote happens x_log].
        rewrite L2, <- app_assoc. eexists. reflexivity. }
      destruct Hi as (m & Hm). rewrite Hm in El. apply app_inv_head in El. subst l. apply (Nl (XTries t (w_now (x_world x1))) (w_now (x_world x1)) (or_introl eq_refl)). split; reflexivity.
    + left. apply tried_later; [exact X2|apply Ea, Tr].
    + apply (Go x2 (rank k) X2); [intros z Hz; apply Ea, Eb, Hz|exact Lo].
  - left. change (whole_run c b2 x2) with (whole_run c (XWorld (VLife (VGo t v)) :: b2) x1). apply tried_later; assumption.
  - apply (Go x1 (rank k) X1 Ea Lo (XWorld (VLife (VGo t v)) :: b2)).
Qed.
Lemma fair_app c T r1 r2 : forall x, xfair_rounds c T x (r1 ++ r2) -> xfair_rounds c T x r1 /\ xfair_rounds c T (whole_run c (concat r1) x) r2.
Proof.
  induction r1 as [|r r1 IH]; intros x H; [split; [exact I|exact H]|]. cbn [app xfair_rounds concat] in *. destruct H as (H1 & H2 & H3). rewrite xrun_app.
  destruct (IH _ H3). split; [split; [exact H1|split; assumption]|assumption].
Qed.
Lemma fair_serving c T rs : forall x, xfair_rounds c T x rs -> xserving_rounds c T x rs.
Proof. induction rs as [|r rs IH]; intros x H; [exact I|]. cbn [xfair_rounds xserving_rounds] in *. destruct H as (H1 & _ & H3). split; [exact H1|apply IH, H3]. Qed.
Lemma split_at {A} n (l : list A) : (n <= length l)%nat -> exists l1 l2, l = l1 ++ l2 /\ length l1 = n.
Proof. intro H. exists (firstn n l), (skipn n l). split; [symmetry; apply firstn_skipn|]. rewrite firstn_length. lia. Qed.
Definition cost (B n : nat) : nat := match n with O => 0 | S O => 1 | S (S O) => 108 * S B + 1 | _ => 108 * S B + 2 end.
Lemma again_n c T t B : valid_config c -> 60000 <= T -> forall n x k rs, (rank k <= n)%nat -> xreachable c x -> coroutine_of (x_world x) t = Some k -> k_loop k = true ->
  (forall r, k_stage k = KEnd r -> good_end r) -> xfair_rounds c T x rs -> burden (x_world x) (x_world (whole_run c (concat rs) x)) <= Z.of_nat B -> (cost B (rank k) <= length rs)%nat ->
  let e := whole_run c (concat rs) x in tried_in x e t \/ exists r, gave e t r /\ good_end r.
Proof.
  intros V HT. induction n as [n IH] using lt_wf_ind. intros x k rs Hn R E L G F HB Hl e. subst e. pose proof (xreach_inv c x R) as X. pose proof (I_world c x X) as Rw.
  (* a prefix of the rounds that brings it further suffices *)
  assert (Step : forall m, (m <= length rs)%nat -> (forall r1 r2, rs = r1 ++ r2 -> length r1 = m -> tried_in x (whole_run c (concat r1) x) t \/ lower t (rank k) (whole_run c (concat r1) x)) ->
    (forall j, (j < rank k)%nat -> (cost B j + m <= cost B (rank k))%nat) -> tried_in x (whole_run c (concat rs) x) t \/ exists r, gave (whole_run c (concat rs) x) t r /\ good_end r).
  { intros m Hm H Hc. destruct (split_at m rs Hm) as (r1 & r2 & -> & L1). destruct (fair_app c T r1 r2 x F) as [F1 F2]. specialize (H r1 r2 eq_refl L1).
    rewrite concat_app, xrun_app in *. set (x1 := whole_run c (concat r1) x) in *. assert (R1 : xreachable c x1) by apply xreach_run, R.
    destruct H as [Tr|(k' & E' & L' & R' & G')]; [left; apply tried_later; [apply xreach_inv, R1|exact Tr]|].
    destruct (IH (rank k') ltac:(lia) x1 k' r2 (le_n _) R1 E' L' G' F2) as [Tr|D].
    - revert HB. destruct (flat_exists c (concat r1) x) as (f & Ff). destruct (flat_exists c (concat r2) x1) as (g & Fg). rewrite (flat_world _ _ _ _ Fg).
      unfold x1. rewrite (flat_world _ _ _ _ Ff). destruct (burden_less (x_world x) f g Rw) as (K & _). lia.
    - specialize (Hc (rank k') R'). rewrite app_length in Hl. lia.
    - left. apply (tried_earlier c (concat r1) x _ t X Tr).
    - right. exact D. }
  assert (One : match k_stage k with KBegin | KSleep | KSettle _ _ => True | _ => False end -> forall r1 r2, rs = r1 ++ r2 -> length r1 = 1%nat ->
    tried_in x (whole_run c (concat r1) x) t \/ lower t (rank k) (whole_run c (concat r1) x)).
  { intros Rs r1 r2 -> L1. destruct r1 as [|r [|r' r1]]; try discriminate L1. cbn [concat]. rewrite app_nil_r. cbn [app xfair_rounds] in F. destruct F as (_ & F & _).
    apply (woken c x t k T r R E L Rs ltac:(lia) F). }
  unfold rank in *. destruct (k_stage k) as [| |a g| |r] eqn:S; cbn [cost] in Hl.
  - apply (Step 1%nat); [lia|apply One, I|]. intros j Hj. destruct j as [|[|j]]; cbn [cost]; lia.
  - apply (Step 1%nat); [lia|apply One, I|]. intros j Hj. destruct j as [|j]; cbn [cost]; lia.
  - apply (Step 1%nat); [lia|apply One, I|]. intros j Hj. destruct j as [|[|[|j]]]; cbn [cost]; lia.
  - apply (Step (108 * Datatypes.S B)%nat); [lia| |intros j Hj; destruct j as [|[|j]]; cbn [cost]; lia]. intros r1 r2 -> L1. destruct (fair_app c T r1 r2 x F) as [F1 F2].
    destruct (loop_run c (concat r1) t x k X E L) as [Sm|[Tr|Lo]]; [exfalso|left; exact Tr|right; unfold rank in Lo; rewrite S in Lo; exact Lo]. revert Sm. apply not_same_over.
    apply (start_ups_end c x T r1 t V R); [exists k; auto|exact HT|apply fair_serving, F1|].
    revert HB. rewrite concat_app, xrun_app. destruct (flat_exists c (concat r1) x) as (f & Ff). destruct (flat_exists c (concat r2) (whole_run c (concat r1) x)) as (g & Fg).
    rewrite (flat_world _ _ _ _ Fg), (flat_world _ _ _ _ Ff). destruct (burden_less (x_world x) f g Rw) as (_ & K & _). lia.
  - destruct (loop_run c (concat rs) t x k X E L) as [Sm|[Tr|(k' & _ & _ & H & _)]]; [right|left; exact Tr|unfold rank in H; rewrite S in H; lia].
    exists r. split; [|apply G; reflexivity]. exists k. destruct Sm as [Sm _]. unfold coroutine_of in *. rewrite Sm. auto.
Qed.
Lemma tries_again c x T rs t : valid_config c -> xreachable c x -> reconnecting x t -> 60000 <= T -> xfair_rounds c T x rs ->
  let e := whole_run c (concat rs) x in 108 * (1 + burden (x_world x) (x_world e)) + 2 <= Z.of_nat (length rs) ->
  (exists l at_, x_log e = x_log x ++ l /\ In (XTries t at_) l) \/ gave e t (Ok tt) \/ gave e t (Err CancelledError).
Proof.
  intros V R (k & E & L & N) HT F e Hl. pose proof (xreach_inv c x R) as X. set (b := burden _ _) in *.
  assert (Hb : 0 <= b). { unfold b, e. destruct (flat_exists c (concat rs) x) as (f & Ff). rewrite (flat_world _ _ _ _ Ff). apply (burden_less (x_world x) f [] (I_world c x X)). }
  destruct (again_n c T t (Z.to_nat b) V HT (rank k) x k rs (le_n _) R E L) as [H|(r & H & G)].
  - intros r Hr. destruct (N r Hr).
  - exact F.
  - fold e. fold b. lia.
  - unfold rank. destruct (k_stage k); cbn [cost]; lia.
  - left. exact H.
  - right. destruct r as [[]|e0]; [left; exact H|right]. destruct e0; try contradiction. exact H.
Qed.
