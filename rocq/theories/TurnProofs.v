(** * TurnProofs: the turn of a coroutine that waits for its next step (Life.v, Whole.v) *)
From Coq Require Import ZifyBool ZifyNat.
From Verif Require Import Base Types Zpi Api App Machine Nv StartZnp AppStart Life World Whole SpecWorld SpecWhole SpecTurn LifeProofs WholeProofs WholeProofs4 WholeInd WholeEnds WholeEnds2.

Lemma stage_inv w t s : stage_of w t = Some s -> exists k, nth_error (y_tasks (w_life w)) t = Some k /\ k_stage k = s.
Proof. unfold stage_of. destruct (nth_error _ t) as [k|]; cbn [option_map]; [|discriminate]. intro E. injection E as <-. eauto. Qed.
Lemma nth_put {A} n (x : A) l : forall m, nth_error (set_nth n x l) m = if Nat.eqb n m then match nth_error l n with Some _ => Some x | None => None end else nth_error l m.
Proof.
  revert n. induction l as [|a l IH]; intros n m; [destruct n, m; cbn [set_nth nth_error Nat.eqb]; try reflexivity; destruct (Nat.eqb n m); reflexivity|].
  destruct n, m; cbn [set_nth nth_error Nat.eqb]; try reflexivity. apply IH.
Qed.
Lemma cancelled_life t s k : nth_error (y_tasks s) t = Some k -> waiting (k_stage k) ->
  exists l, life_step (VGo t (Err CancelledError)) s = mk_life (y_gws s) (y_apis s) (y_cur s) (set_nth t (mk_coroutine (k_loop k) (KEnd (Err CancelledError))) (y_tasks s)) (y_log s ++ l).
Proof.
  intros E W. unfold life_step, go_on. rewrite E. destruct (k_stage k); try contradiction; unfold startup_ended, at_stage, log, with_tasks; cbn [y_tasks y_gws y_apis y_cur y_log]; rewrite ?E;
    cbn [y_tasks y_gws y_apis y_cur y_log]; eexists; reflexivity.
Qed.
Lemma turn_admitted x t r s : stage_of (x_world x) t = Some s -> waiting s ->
  from_outside x (VLife (VGo t r)) = match s with KBegin => true | _ => (x_until x t <=? w_now (x_world x)) || match r with Err CancelledError => true | _ => false end end.
Proof. intros E W. unfold from_outside. rewrite E. destruct s; try contradiction; reflexivity. Qed.

Lemma cancelled_at_rest c x t s : stage_of (x_world x) t = Some s -> waiting s ->
  let y := whole_step c (turn t (Err CancelledError)) x in
  stage_of (x_world y) t = Some (KEnd (Err CancelledError)) /\ (forall u, u <> t -> stage_of (x_world y) u = stage_of (x_world x) u) /\
  y_gws (old y) = y_gws (old x) /\ y_apis (old y) = y_apis (old x) /\ y_cur (old y) = y_cur (old x) /\ x_log y = x_log x.
Proof.
  intros E W y. subst y. unfold turn, whole_step. rewrite (turn_admitted _ _ _ _ E W).
  replace (match s with KBegin => true | _ => _ end) with true by (destruct s; try reflexivity; rewrite orb_true_r; reflexivity).
  destruct (stage_inv _ _ _ E) as (k & Ek & Es). rewrite <- Es in W. destruct (cancelled_life t _ k Ek W) as (l & L).
  cbv zeta. match goal with |- context [happens _ ?z] => replace z with x by (rewrite E; destruct s; reflexivity) end.
  set (h := happens (VLife (VGo t (Err CancelledError))) x).
  assert (Lh : w_life (x_world h) = mk_life (y_gws (old x)) (y_apis (old x)) (y_cur (old x)) (set_nth t (mk_coroutine (k_loop k) (KEnd (Err CancelledError))) (y_tasks (old x))) (y_log (old x) ++ l)).
  { subst h. unfold happens, world_step, life_event_happens. cbn [x_world]. rewrite L. reflexivity. }
  assert (Sh : stage_of (x_world h) t = Some (KEnd (Err CancelledError))).
  { unfold stage_of. rewrite Lh. cbn [y_tasks]. rewrite nth_put, Nat.eqb_refl. unfold old. rewrite Ek. reflexivity. }
  assert (F : falls_asleep t h = h) by (unfold falls_asleep; rewrite Sh; reflexivity). rewrite F.
  assert (N : starting (x_world h) t = false).
  { unfold starting. unfold stage_of in Sh. destruct (nth_error (y_tasks (w_life (x_world h))) t) as [k'|]; [|reflexivity]. cbn [option_map] in Sh. injection Sh as Sh. rewrite Sh. reflexivity. }
  rewrite N. split; [exact Sh|]. split; [|unfold old; rewrite Lh; cbn [y_gws y_apis y_cur]; auto].
  intros u Hu. unfold stage_of at 1. rewrite Lh. cbn [y_tasks]. rewrite nth_put. destruct (Nat.eqb_spec t u); [congruence|reflexivity].
Qed.
Lemma not_before c x t s r : stage_of (x_world x) t = Some s -> s = KSleep \/ (exists a g, s = KSettle a g) -> r <> Err CancelledError -> w_now (x_world x) < x_until x t ->
  whole_step c (turn t r) x = x.
Proof.
  intros E S R T. unfold turn, whole_step. rewrite (turn_admitted _ _ _ _ E) by (destruct S as [->|(a & g & ->)]; exact I).
  replace (x_until x t <=? w_now (x_world x)) with false by lia.
  assert (C : match r with Err CancelledError => true | _ => false end = false) by (destruct r as [|[]]; try reflexivity; congruence). rewrite C.
  destruct S as [->|(a & g & ->)]; reflexivity.
Qed.
Lemma length_put {A} n (a : A) l : length (set_nth n a l) = length l.
Proof. revert n. induction l; destruct n; cbn [set_nth length]; congruence. Qed.
Lemma close_facts s : y_tasks (app_close s) = y_tasks s /\ length (y_gws (app_close s)) = length (y_gws s).
Proof.
  unfold app_close. destruct (y_cur s) as [a|]; [|auto]. unfold api_close. destruct (nth_error (y_apis s) a) as [x|]; [|auto]. destruct (a_uart x) as [g|]; [|auto].
  unfold with_apis, gw_close. destruct (nth_error (y_gws s) g) as [y|]; [|auto]. cbn [log with_gws y_tasks y_gws]. rewrite length_put. auto.
Qed.
Lemma put_stage t st s k : nth_error (y_tasks s) t = Some k ->
  nth_error (y_tasks (at_stage t st s)) t = Some (mk_coroutine (k_loop k) st) /\ y_gws (at_stage t st s) = y_gws s.
Proof. intro E. unfold at_stage. rewrite E. cbn [with_tasks y_tasks y_gws]. rewrite nth_put, Nat.eqb_refl, E. auto. Qed.
Lemma ended_facts t r s k : nth_error (y_tasks s) t = Some k ->
  exists st, nth_error (y_tasks (startup_ended t r s)) t = Some (mk_coroutine (k_loop k) st) /\ (st = KSleep \/ st = KEnd r) /\ length (y_gws (startup_ended t r s)) = length (y_gws s).
Proof.
  intro E. unfold startup_ended. cbv zeta. set (s1 := log (LResult t r) s). assert (E1 : nth_error (y_tasks s1) t = Some k) by exact E. rewrite E1.
  assert (A : exists st, nth_error (y_tasks (at_stage t (KEnd r) s1)) t = Some (mk_coroutine (k_loop k) st) /\ (st = KSleep \/ st = KEnd r) /\ length (y_gws (at_stage t (KEnd r) s1)) = length (y_gws s)).
  { exists (KEnd r). destruct (put_stage t (KEnd r) s1 k E1) as [A B]. rewrite B. auto. }
  assert (B : exists st, nth_error (y_tasks (if k_loop k then loop_top t s1 else at_stage t (KEnd r) s1)) t = Some (mk_coroutine (k_loop k) st) /\ (st = KSleep \/ st = KEnd r) /\
    length (y_gws (if k_loop k then loop_top t s1 else at_stage t (KEnd r) s1)) = length (y_gws s)).
  { destruct (k_loop k) eqn:K; [|exact A]. exists KSleep. unfold loop_top. set (s2 := log (LClose t) (app_close s1)). destruct (close_facts s1) as [C1 C2].
    assert (E2 : nth_error (y_tasks s2) t = Some k) by (change (y_tasks s2) with (y_tasks (app_close s1)); rewrite C1; exact E1).
    destruct (put_stage t KSleep s2 k E2) as [D1 D2]. rewrite D1, D2, K. split; [reflexivity|]. split; [auto|]. change (y_gws s2) with (y_gws (app_close s1)). rewrite C2. reflexivity. }
  destruct r as [u|e]; [exact A|]. destruct e; first [exact A|exact B].
Qed.
Lemma sleep_over c x t r : stage_of (x_world x) t = Some KSleep -> r <> Err CancelledError -> x_until x t <= w_now (x_world x) ->
  let y := whole_step c (turn t r) x in
  x_log y = x_log x ++ [XTries t (w_now (x_world x))] /\
  match r with
  | Ok _ => stage_of (x_world y) t = Some (KSettle (length (y_apis (old x))) (length (y_gws (old x)))) /\
            y_gws (old y) = y_gws (old x) ++ [mk_gateway true true false (length (y_apis (old x)))] /\ x_until y t = w_now (x_world x) + SETTLE_MS
  | Err _ => length (y_gws (old y)) = length (y_gws (old x))
  end.
Proof.
  intros E R T y. subst y. unfold turn, whole_step. rewrite (turn_admitted _ _ _ _ E I). replace (x_until x t <=? w_now (x_world x)) with true by lia. cbn [orb]. rewrite E.
  replace (match r with Err CancelledError => x | _ => tries t x end) with (tries t x) by (destruct r as [|[]]; try reflexivity; congruence).
  set (h := happens (VLife (VGo t r)) (tries t x)).
  assert (Lh : w_life (x_world h) = startup_begins t r (old x)).
  { subst h. unfold happens, world_step, life_event_happens, tries, xnote. cbn [x_world]. unfold life_step, go_on.
    destruct (stage_inv _ _ _ E) as (k & Ek & Es). rewrite Ek, Es. destruct r as [|[]]; try reflexivity; congruence. }
  assert (Xh : x_log h = x_log x ++ [XTries t (w_now (x_world x))]) by reflexivity.
  assert (Nh : w_now (x_world h) = w_now (x_world x)) by reflexivity.
  destruct (stage_inv _ _ _ E) as (k & Ek & Es). fold (old x) in Ek.
  assert (Bg : exists st, nth_error (y_tasks (startup_begins t r (old x))) t = Some (mk_coroutine (k_loop k) st) /\ st <> KRequests /\
    match r with
    | Ok _ => st = KSettle (length (y_apis (old x))) (length (y_gws (old x))) /\ y_gws (startup_begins t r (old x)) = y_gws (old x) ++ [mk_gateway true true false (length (y_apis (old x)))]
    | Err _ => length (y_gws (startup_begins t r (old x))) = length (y_gws (old x)) end).
  { unfold startup_begins. cbv zeta. set (s1 := with_apis _ _). assert (E1 : nth_error (y_tasks s1) t = Some k) by exact Ek. destruct r as [u|e].
    - set (s2 := with_gws _ _). assert (E2 : nth_error (y_tasks s2) t = Some k) by exact Ek. eexists. destruct (put_stage t (KSettle (length (y_apis (old x))) (length (y_gws (old x)))) s2 k E2) as [A B].
      split; [exact A|]. split; [discriminate|]. split; [reflexivity|]. exact B.
    - destruct (ended_facts t (Err e) s1 k E1) as (st & A & B & C). exists st. split; [exact A|]. split; [destruct B as [->| ->]; discriminate|]. exact C. }
  destruct Bg as (st & B1 & B2 & B3). rewrite <- Lh in B1.
  assert (Sg0 : stage_of (x_world h) t = Some st) by (unfold stage_of; rewrite B1; reflexivity).
  assert (St : starting (x_world (falls_asleep t h)) t = false /\ x_log (falls_asleep t h) = x_log h /\ x_world (falls_asleep t h) = x_world h).
  { assert (W : x_world (falls_asleep t h) = x_world h) by (unfold falls_asleep; rewrite Sg0; destruct st; reflexivity).
    split; [|split; [unfold falls_asleep; rewrite Sg0; destruct st; reflexivity|exact W]].
    rewrite W. unfold starting. rewrite B1. cbn [k_stage]. destruct st; try reflexivity. exfalso. apply B2. reflexivity. }
  destruct St as (S1 & S2 & S3). rewrite S1. split; [rewrite S2; exact Xh|]. destruct r as [u|e].
  - destruct B3 as [-> B3]. split; [rewrite S3; exact Sg0|]. split; [unfold old at 1; rewrite S3, Lh; exact B3|].
    unfold falls_asleep. rewrite Sg0. cbn [x_until]. unfold put_at. rewrite Nat.eqb_refl, Nh. reflexivity.
  - unfold old at 1. rewrite S3, Lh. exact B3.
Qed.
Lemma over_for_good fs : forall w t k r, wreachable w -> coroutine_of w t = Some k -> k_stage k = KEnd r -> coroutine_of (world_run fs w) t = Some k.
Proof.
  induction fs as [|e fs IH]; intros w t k r R E K; [exact E|]. cbn [world_run fold_left]. apply (IH (world_step e w) t k r); [apply wreach_step, R| |exact K].
  eapply kept_over; eassumption.
Qed.
Lemma ended_for_good c es x t r : xreachable c x -> stage_of (x_world x) t = Some (KEnd r) -> stage_of (x_world (whole_run c es x)) t = Some (KEnd r).
Proof.
  intros R E. destruct (stage_inv _ _ _ E) as (k & Ek & Es). destruct (flat_exists c es x) as (fs & F). rewrite (flat_world _ _ _ _ F).
  pose proof (over_for_good fs _ t k r (I_world _ _ (xreach_inv c x R)) Ek Es) as K. unfold stage_of. unfold coroutine_of in K. rewrite K. cbn [option_map]. rewrite Es. reflexivity.
Qed.
Lemma cancelled_for_good c es x t s : xreachable c x -> stage_of (x_world x) t = Some s -> waiting s ->
  stage_of (x_world (whole_run c es (whole_step c (turn t (Err CancelledError)) x))) t = Some (KEnd (Err CancelledError)).
Proof.
  intros R E W. apply ended_for_good; [exact (xreach_run c [turn t (Err CancelledError)] x R)|]. apply (cancelled_at_rest c x t s E W).
Qed.
