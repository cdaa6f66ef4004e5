(** * WholeTime: how often a start-up is tried *)
From Coq Require Import ZifyBool ZifyNat.
From Verif Require Import Base Types Uart Buffalo CmdTable Zpi Api App Machine Life World SpecMachine SpecLife SpecWorld SpecWorldProgress
  LifeProofs2 LifeProofs3 WorldBase WorldLife WorldProofs2 WorldProgress2 Nv StartZnp AppStart SpecStart Host Whole WholeBase WholeProofs WholeProofs2 SpecWhole WholeProofs4.

Record TBut (s : option nat) (x : whole) : Prop := mk_TBut {
  T_world : wreachable (x_world x);
  T_past : forall t a o, In o (x_log x) -> noted t a o -> a <= w_now (x_world x) /\ stage_of (x_world x) t <> None;
  T_sleep : forall t a o, s <> Some t -> In o (x_log x) -> noted t a o -> stage_of (x_world x) t = Some KSleep -> a + 5000 <= x_until x t;
  T_apart : forall t a b l1 o l2, x_log x = l1 ++ o :: l2 -> noted t a o -> In (XTries t b) l2 -> a + 5000 <= b }.
Notation TInv := (TBut None).
Lemma tinv_but t x : TInv x -> TBut (Some t) x.
Proof. intros [W P S A]. constructor; auto. intros u a o _. apply S. discriminate. Qed.
Lemma now_step e w : wreachable w -> w_now w <= w_now (world_step e w).
Proof. intro R. pose proof (now_run w [e] R) as H. unfold passing, world_run in H. cbn [fold_left fold_right] in H. destruct e; lia. Qed.
Lemma stage_life e w u : (forall r, e <> VGo u r) -> stage_of w u <> None -> stage_of (world_step (VLife e) w) u = stage_of w u.
Proof.
  intros N H. unfold stage_of in *. cbn [world_step]. unfold life_event_happens. wfld. destruct (nth_error (y_tasks (w_life w)) u) as [k|] eqn:E; [|destruct (H eq_refl)].
  rewrite (stage_kept e _ u k E N). reflexivity.
Qed.
Lemma stage_other e w u : other_event e = true -> stage_of (world_step e w) u = stage_of w u.
Proof. intro N. unfold stage_of. rewrite life_other by exact N. reflexivity. Qed.
Lemma stage_some e w u : stage_of w u <> None -> stage_of (world_step (VLife e) w) u <> None.
Proof.
  unfold stage_of. intro H. destruct (nth_error (y_tasks (w_life w)) u) as [k|] eqn:E; [|destruct (H eq_refl)].
  cbn [world_step]. unfold life_event_happens. wfld. destruct (kept_step e (w_life w) u k E) as (k' & G & _). rewrite G. discriminate.
Qed.
(** the world moves, the log and the sleeps stay *)
Lemma t_moves s x e : (forall t, s <> Some t -> stage_of (x_world x) t <> None -> stage_of (world_step e (x_world x)) t = stage_of (x_world x) t) ->
  (forall t, stage_of (x_world x) t <> None -> stage_of (world_step e (x_world x)) t <> None) -> TBut s x -> TBut s (happens e x).
Proof.
  intros K1 K2 [W P S A]. constructor; cbn [happens x_world x_log x_until].
  - apply wreach_step, W.
  - intros t a o H N. destruct (P t a o H N) as [P1 P2]. split; [pose proof (now_step e _ W); lia|apply K2, P2].
  - intros t a o Hs H N G. apply (S t a o Hs H N). destruct (P t a o H N) as [_ P2]. rewrite <- (K1 t Hs P2). exact G.
  - exact A.
Qed.
Lemma t_other s x e : other_event e = true -> TBut s x -> TBut s (happens e x).
Proof. intros O. apply t_moves; intros; rewrite stage_other by exact O; auto. Qed.
Lemma t_got s x e : match e with VGotVersion _ _ | VGotDevice _ _ _ => True | _ => False end -> TBut s x -> TBut s (happens e x).
Proof.
  intro N. assert (E : forall t, stage_of (world_step e (x_world x)) t = stage_of (x_world x) t).
  { intro t. unfold stage_of. destruct e; try contradiction; cbn [world_step]; destruct (starting _ _); try reflexivity; unfold got_version, got_device; wfld; reflexivity. }
  apply t_moves; intros; rewrite E; auto.
Qed.
Lemma t_go t r x : TBut (Some t) x -> TBut (Some t) (happens (VLife (VGo t r)) x).
Proof. apply t_moves; [|intros; apply stage_some; assumption]. intros u N. apply stage_life. intros r0 [= E]. congruence. Qed.
Lemma t_boot s t b x : TBut s x -> TBut s (put_boot t b x).
Proof. intros [W P S A]. constructor; assumption. Qed.
Lemma asleep_log t x : x_log (falls_asleep t x) = x_log x.
Proof. unfold falls_asleep. destruct (stage_of (x_world x) t) as [[]|]; reflexivity. Qed.
Lemma t_asleep t x : TBut (Some t) x -> TInv (falls_asleep t x).
Proof.
  intros [W P S A]. constructor; rewrite ?asleep_world, ?asleep_log; auto.
  intros u a o _ H N G. destruct (Nat.eq_dec u t) as [->|D].
  - unfold falls_asleep. rewrite G. cbn [x_until]. rewrite put_at_same. destruct (P t a o H N). lia.
  - assert (E : x_until (falls_asleep t x) u = x_until x u) by (unfold falls_asleep; destruct (stage_of (x_world x) t) as [[]|]; cbn [x_until]; rewrite ?put_at_other by exact D; reflexivity).
    rewrite E. eapply S; eauto. congruence.
Qed.
(** something is noted about [t] now *)
Lemma t_note t o x : noted t (w_now (x_world x)) o -> stage_of (x_world x) t <> None ->
  (match o with XTries _ _ => forall a p, In p (x_log x) -> noted t a p -> a + 5000 <= w_now (x_world x) | _ => True end) ->
  TBut (Some t) x -> TBut (Some t) (xnote o x).
Proof.
  intros N0 G0 T [W P S A]. constructor; cbn [xnote x_world x_log x_until].
  - exact W.
  - intros u a p H N. apply in_app_or in H as [H|[<-|[]]]; [apply (P u a p H N)|]. destruct o; destruct N as [<- <-]; destruct N0 as [<- <-]; split; [lia|exact G0|lia|exact G0].
  - intros u a p Hs H N G. apply in_app_or in H as [H|[<-|[]]]; [eapply S; eassumption|]. exfalso. apply Hs. destruct o; destruct N as [<- _]; destruct N0 as [<- _]; reflexivity.
  - intros u a b l1 p l2 E N H. destruct l2 as [|q l2 _] using rev_ind; [contradiction|]. rewrite app_comm_cons, app_assoc in E. apply app_inj_tail in E as [E Eo]. subst q.
    apply in_app_or in H as [H|[H|[]]]; [eapply A; eassumption|]. subst o. destruct N0 as [-> ->]. apply (T a p); [rewrite E; apply in_or_app; right; left; reflexivity|exact N].
Qed.
Lemma starting_stage w t : starting w t = true -> stage_of w t = Some KRequests.
Proof. unfold starting, stage_of. destruct (nth_error (y_tasks (w_life w)) t) as [k|]; [|discriminate]. cbn [option_map]. destruct (k_stage k); try discriminate. reflexivity. Qed.
Lemma t_over t r x : starting (x_world x) t = true -> TInv x -> TInv (attempt_over t r x).
Proof.
  intros G H. unfold attempt_over. apply t_asleep, t_boot. apply t_note; [split; reflexivity| |exact I|apply t_go, tinv_but, H].
  cbn [happens x_world]. apply stage_some. rewrite (starting_stage _ _ G). discriminate.
Qed.
Lemma t_next t p x : starting (x_world x) t = true -> TInv x -> TInv (next_part t p x).
Proof. intros G H. unfold next_part. destruct (y_cur _); [apply t_boot, H|apply t_over; assumption]. Qed.
Lemma got_starting e x t : match e with VGotVersion _ _ | VGotDevice _ _ _ => True | _ => False end -> starting (x_world (happens e x)) t = starting (x_world x) t.
Proof.
  intro N. unfold starting. destruct e; try contradiction; cbn [happens x_world world_step]; unfold starting at 1; fold (starting (x_world x) t0); destruct (starting (x_world x) t0) eqn:E;
    unfold starting in E; rewrite ?E; try reflexivity; unfold got_version, got_device; wfld; reflexivity.
Qed.
Lemma t_aside s w' x b : aside_steps (x_world x) w' -> TBut s x -> TBut s (mk_whole w' b (x_until x) (x_log x)).
Proof.
  intros (es & -> & F) H. revert x H. induction F as [|e es O F IH]; intros x H; [destruct H; constructor; assumption|].
  exact (IH (happens e x) (t_other s x e O H)).
Qed.
Lemma led_time s t x : TBut s x -> TBut s (led_off t x).
Proof.
  intro H. unfold led_off. destruct (y_cur _) as [a|]; [|exact H]. destruct (nth_error _ a) as [m|]; [|exact H]. apply t_boot, t_other; [reflexivity|exact H].
Qed.
Lemma led_starting t x u : starting (x_world (led_off t x)) u = starting (x_world x) u.
Proof.
  unfold led_off. destruct (y_cur _) as [a|]; [|reflexivity]. destruct (nth_error _ a) as [m|]; [|reflexivity]. cbn [put_boot happens x_world]. apply starting_other. reflexivity.
Qed.
Lemma t_boot_goes c t x : XInv c x -> TInv x -> TInv (boot_goes c t x).
Proof.
  intros X H. pose proof (I_boots c x X t) as B. unfold boot_goes. unfold boot_ok in B.
  destruct (b_part (x_boots x t)) as [p|] eqn:Bp; [|exact H]. destruct B as (S & pre & p0 & l & E & F & L).
  assert (Rest : TInv (let '(w, p', ds) := part_goes p (x_world x) in
        put_boot t (mk_boot (b_auto (x_boots x t)) (Some p') (b_deeds (x_boots x t) ++ ds)) (mk_whole w (x_boots x) (x_until x) (x_log x)))).
  { pose proof (part_goes_ok (x_world x) p0 p l L) as P. destruct (part_goes p (x_world x)) as [[w' p'] ds]. destruct P as (A & _). apply t_boot, t_aside; assumption. }
  destruct (r_place p) as [[v|e|sub cmd d x0 k|m to k|o k|sub cmd d k]|t0 sub cmd d x0 k|t0 m k]; try exact Rest.
  - destruct v as [|product|r|ieee nwk].
    + apply t_next; assumption.
    + cbv zeta. destruct (known_product product); [apply t_next|apply t_over]; try (rewrite got_starting; [exact S|exact I]); (apply t_got; [exact I|exact H]).
    + destruct (set_led _ _) as [[|z zs]|e]; [apply t_next; assumption| |apply t_over; assumption]. apply t_next; [rewrite led_starting; exact S|apply led_time, H].
    + apply t_over; [rewrite got_starting; [exact S|exact I]|apply t_got; [exact I|exact H]].
  - apply t_over; assumption.
Qed.
Lemma fresh_stage w r : stage_of (world_step (VLife (VStartup r)) w) (length (y_tasks (w_life w))) <> None.
Proof.
  unfold stage_of. cbn [world_step]. unfold life_event_happens. wfld. cbn [life_step].
  set (s1 := with_tasks _ _). assert (G : nth_error (y_tasks s1) (length (y_tasks (w_life w))) = Some (mk_coroutine false KBegin)).
  { unfold s1. cbn [with_tasks y_tasks]. rewrite nth_error_app2, Nat.sub_diag by lia. reflexivity. }
  generalize dependent (length (y_tasks (w_life w))). intros t G. unfold startup_begins. cbv zeta. destruct r as [v|e].
  - unfold at_stage. cbn [with_gws with_apis log y_tasks]. rewrite G. cbn [with_tasks y_tasks]. rewrite nth_set, Nat.eqb_refl. cbn [with_gws with_apis log y_tasks]. rewrite G. discriminate.
  - set (s2 := with_apis _ _). assert (G2 : nth_error (y_tasks s2) t = Some (mk_coroutine false KBegin)) by exact G.
    destruct (ended_shape t (Err e) _ s2 G2) as [Sh _]. rewrite Sh, nth_set, Nat.eqb_refl, G2. discriminate.
Qed.
Lemma t_step c e x : XInv c x -> TInv x -> TInv (whole_step c e x).
Proof.
  intros X H. destruct e as [auto r|t|e]; cbn [whole_step].
  - set (t := length _). apply t_asleep, t_boot. unfold tries. assert (N : stage_of (x_world x) t = None) by (unfold stage_of; replace (nth_error _ t) with (@None coroutine) by (symmetry; apply nth_error_None; unfold t; lia); reflexivity).
    assert (H1 : TInv (happens (VLife (VStartup r)) x)).
    { apply t_moves; [| |exact H]; intros u; [intros _ G; apply stage_life; [discriminate|exact G]|apply stage_some]. }
    apply t_note; [split; reflexivity|apply fresh_stage| |apply tinv_but, H1].
    cbn [happens x_log x_world]. intros a o Ho No. destruct (T_past _ _ H t a o Ho No) as [_ Q]. congruence.
  - apply t_boot_goes; assumption.
  - destruct (from_outside x e) eqn:O; [|exact H].
    assert (Other : match e with VLife (VGo _ _) => False | _ => True end -> TInv (happens e x)).
    { intro N. destruct (other_event e) eqn:Oe; [apply t_other; assumption|]. destruct e as [| | | | | | | | | |e|t p|t i n]; try discriminate Oe; [|apply t_got; [exact I|exact H]..].
      apply t_moves; [| |exact H]; intros u; [intros _ G; apply stage_life; [|exact G]|apply stage_some]. intros r ->. exact N. }
    destruct e as [| | | | | | | | | |e|t p|t i n]; try (apply Other; exact I). destruct e as [| | |t r]; try (apply Other; exact I). clear Other. cbv zeta.
    set (x1 := match stage_of (x_world x) t with Some KSleep => _ | _ => _ end).
    assert (H1 : TBut (Some t) x1 /\ x_world x1 = x_world x).
    { unfold x1. cbn [from_outside] in O. destruct (stage_of (x_world x) t) as [st|] eqn:G; [|split; [apply tinv_but, H|reflexivity]].
      assert (T : st = KSleep -> match r with Err CancelledError => False | _ => True end -> TBut (Some t) (tries t x)).
      { intros -> Nr. assert (U : x_until x t <= w_now (x_world x)) by (destruct r as [v|[]]; try contradiction; rewrite orb_false_r in O; lia).
        apply t_note; [split; reflexivity|congruence| |apply tinv_but, H]. intros a o Ho No. pose proof (T_sleep _ _ H t a o ltac:(discriminate) Ho No G). lia. }
      destruct st; try (split; [apply tinv_but, H|reflexivity]). destruct r as [v|e]; [split; [apply T; [reflexivity|exact I]|reflexivity]|].
      destruct e; try (split; [apply T; [reflexivity|exact I]|reflexivity]). split; [apply tinv_but, H|reflexivity]. }
    destruct H1 as [H1 E1]. set (x2 := falls_asleep t (happens (VLife (VGo t r)) x1)). assert (H2 : TInv x2) by apply t_asleep, t_go, H1.
    destruct (starting (x_world x2) t) eqn:S; [apply t_next; assumption|exact H2].
Qed.
Lemma t_init devs : TInv (whole_init devs).
Proof.
  constructor; cbn [whole_init x_world x_log].
  - exists devs, []. reflexivity.
  - contradiction.
  - contradiction.
  - intros t a b [|] o l2 E; discriminate E.
Qed.
Lemma tries_apart c x t a b l1 o l2 : xreachable c x -> x_log x = l1 ++ o :: l2 -> noted t a o -> In (XTries t b) l2 -> a + 5000 <= b.
Proof.
  intros (devs & es & ->). assert (H : XInv c (whole_run c es (whole_init devs)) /\ TInv (whole_run c es (whole_init devs))).
  { induction es as [|e es IH] using rev_ind; [split; [apply xinv_init|apply t_init]|]. unfold whole_run in *. rewrite fold_left_app. cbn [fold_left]. destruct IH. split; [apply xinv_step|apply t_step]; assumption. }
  apply (T_apart None), (proj2 H).
Qed.
