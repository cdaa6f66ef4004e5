(** * WholeInd: induction over what happens to the world and to the log of attempts *)
From Coq Require Import ZifyBool ZifyNat.
From Verif Require Import Base Types Uart Buffalo CmdTable Zpi Api App Machine Life World SpecMachine SpecLife SpecWorld
  LifeProofs2 LifeProofs3 WorldBase WorldLife WorldProofs2 Nv StartZnp AppStart SpecStart Host Whole WholeBase WholeProofs WholeProofs2 SpecWhole WholeProofs4 WholeTime.

Section Ind.
Variable P : world -> list xobs -> Prop.
Hypothesis on_event : forall e w l, wreachable w -> P w l -> P (world_step e w) l.
Hypothesis on_first : forall r w l, wreachable w -> P w l -> let w' := world_step (VLife (VStartup r)) w in P w' (l ++ [XTries (length (y_tasks (w_life w))) (w_now w')]).
Hypothesis on_try : forall t w l, wreachable w -> stage_of w t = Some KSleep -> P w l -> P w (l ++ [XTries t (w_now w)]).
Hypothesis on_end : forall t auto ds r w l, wreachable w -> starting w t = true -> P w l -> P (world_step (VLife (VGo t r)) w) (l ++ [XOver t auto ds r (w_now w)]).
Let PX (x : whole) : Prop := P (x_world x) (x_log x).
Lemma px_happens e x : wreachable (x_world x) -> PX x -> PX (happens e x).
Proof. apply on_event. Qed.
Lemma px_asleep t x : PX x -> PX (falls_asleep t x).
Proof. unfold PX. rewrite asleep_world, asleep_log. auto. Qed.
Lemma px_over t r x : wreachable (x_world x) -> starting (x_world x) t = true -> PX x -> PX (attempt_over t r x).
Proof. intros R S H. unfold attempt_over. apply px_asleep. apply on_end; assumption. Qed.
Lemma px_next t p x : wreachable (x_world x) -> starting (x_world x) t = true -> PX x -> PX (next_part t p x).
Proof. intros R S H. unfold next_part. destruct (y_cur _); [exact H|apply px_over; assumption]. Qed.
Lemma px_aside x w' b : wreachable (x_world x) -> aside_steps (x_world x) w' -> PX x -> PX (mk_whole w' b (x_until x) (x_log x)).
Proof.
  intros R (es & -> & F) H. revert x R H. induction F as [|e es O F IH]; intros x R H; [exact H|].
  exact (IH (happens e x) (wreach_step e _ R) (px_happens e x R H)).
Qed.
Lemma px_boot_goes c t x : XInv c x -> PX x -> PX (boot_goes c t x).
Proof.
  intros X H. pose proof (I_world c x X) as R. pose proof (I_boots c x X t) as B. unfold boot_goes. unfold boot_ok in B.
  destruct (b_part (x_boots x t)) as [p|] eqn:Bp; [|exact H]. destruct B as (S & pre & p0 & l & E & F & L).
  assert (Rest : PX (let '(w, p', ds) := part_goes p (x_world x) in
        put_boot t (mk_boot (b_auto (x_boots x t)) (Some p') (b_deeds (x_boots x t) ++ ds)) (mk_whole w (x_boots x) (x_until x) (x_log x)))).
  { pose proof (part_goes_ok (x_world x) p0 p l L) as Q. destruct (part_goes p (x_world x)) as [[w' p'] ds]. destruct Q as (A & _). apply (px_aside x w'); assumption. }
  destruct (r_place p) as [[v|e|sub cmd d x0 k|m to k|o k|sub cmd d k]|t0 sub cmd d x0 k|t0 m k]; try exact Rest; clear Rest.
  - destruct v as [|product|r|ieee nwk].
    + apply px_next; assumption.
    + cbv zeta. destruct (known_product product); [apply px_next|apply px_over]; try (apply wreach_step, R); try (rewrite got_starting; [exact S|exact I]); apply px_happens; assumption.
    + destruct (set_led _ _) as [[|z zs]|e]; [apply px_next; assumption| |apply px_over; assumption].
      assert (K : wreachable (x_world (led_off t x)) /\ PX (led_off t x)).
      { unfold led_off. destruct (y_cur _) as [a|]; [|auto]. destruct (nth_error _ a) as [m|]; [|auto]. split; [apply wreach_step, R|]. apply (px_happens _ x); assumption. }
      apply px_next; [apply K|rewrite led_starting; exact S|apply K].
    + apply px_over; [apply wreach_step, R|rewrite got_starting; [exact S|exact I]|apply px_happens; assumption].
  - apply px_over; assumption.
Qed.
Lemma px_step c e x : XInv c x -> PX x -> PX (whole_step c e x).
Proof.
  intros X H. pose proof (I_world c x X) as R. destruct e as [auto r|t|e]; cbn [whole_step].
  - apply px_asleep. unfold tries. apply (on_first r _ _ R H).
  - apply px_boot_goes; assumption.
  - destruct (from_outside x e) eqn:O; [|exact H]. destruct e as [| | | | | | | | | |e| |]; try (apply px_happens; assumption).
    destruct e as [| | |t r]; try (apply px_happens; assumption). cbv zeta.
    set (x1 := match stage_of (x_world x) t with Some KSleep => _ | _ => _ end).
    assert (H1 : PX x1 /\ x_world x1 = x_world x).
    { unfold x1. destruct (stage_of (x_world x) t) as [[]|] eqn:G; auto. destruct r as [v|[]]; auto; (split; [apply on_try; assumption|reflexivity]). }
    destruct H1 as [H1 E1]. set (x2 := falls_asleep t (happens (VLife (VGo t r)) x1)).
    assert (R2 : wreachable (x_world x2)) by (unfold x2; rewrite asleep_world; cbn [happens x_world]; rewrite E1; apply wreach_step, R).
    assert (H2 : PX x2) by (apply px_asleep, px_happens; [rewrite E1; exact R|exact H1]).
    destruct (starting (x_world x2) t) eqn:S; [apply px_next; assumption|exact H2].
Qed.
Lemma px_reachable c x : (forall devs, P (world_init devs) []) -> xreachable c x -> PX x.
Proof.
  intros H0 (devs & es & ->). assert (H : XInv c (whole_run c es (whole_init devs)) /\ PX (whole_run c es (whole_init devs))).
  { induction es as [|e es IH] using rev_ind; [split; [apply xinv_init|apply H0]|]. unfold whole_run in *. rewrite fold_left_app. cbn [fold_left]. destruct IH. split; [apply xinv_step|apply px_step]; assumption. }
  apply H.
Qed.
End Ind.

(** ** the outcome of an attempt is the outcome that the coroutine sees *)
Lemma life_log_step e w : exists m, y_log (w_life (world_step e w)) = y_log (w_life w) ++ m.
Proof.
  destruct (other_event e) eqn:O; [rewrite life_other by exact O; exists []; rewrite app_nil_r; reflexivity|].
  destruct e; try discriminate O; cbn [world_step].
  - unfold life_event_happens. wfld. destruct (log_step e (w_life w)) as (m & E & _). eauto.
  - destruct (starting w t); unfold got_version; wfld; exists []; rewrite app_nil_r; reflexivity.
  - destruct (starting w t); unfold got_device; wfld; exists []; rewrite app_nil_r; reflexivity.
Qed.
Lemma over_result c x t auto ds r at_ : xreachable c x -> In (XOver t auto ds r at_) (x_log x) -> In (LResult t r) (y_log (w_life (x_world x))).
Proof.
  intro R. revert t auto ds r at_. apply (px_reachable (fun w l => forall t auto ds r at_, In (XOver t auto ds r at_) l -> In (LResult t r) (y_log (w_life w)))) with (c := c); [| | | | |exact R].
  - intros e w l _ H t auto ds r at_ Hi. destruct (life_log_step e w) as (m & ->). apply in_or_app. left. eapply H, Hi.
  - intros r w l _ H w' u auto ds q at_ Hi. apply in_app_or in Hi as [Hi|[Hi|[]]]; [|discriminate Hi]. unfold w'. destruct (life_log_step (VLife (VStartup r)) w) as (m & ->). apply in_or_app. left. eapply H, Hi.
  - intros t w l _ _ H u auto ds r at_ Hi. apply in_app_or in Hi as [Hi|[Hi|[]]]; [eapply H, Hi|discriminate Hi].
  - intros t auto ds r w l _ S H u a d q at_ Hi. apply in_app_or in Hi as [Hi|[Hi|[]]].
    + destruct (life_log_step (VLife (VGo t r)) w) as (m & ->). apply in_or_app. left. eapply H, Hi.
    + injection Hi as <- <- <- <- <-. cbn [world_step]. unfold life_event_happens. wfld. cbn [life_step]. unfold go_on. unfold starting in S.
      destruct (nth_error (y_tasks (w_life w)) t) as [k|]; [|discriminate S]. destruct (k_stage k); try discriminate S.
      destruct (log_ended t r (w_life w)) as (m & -> & _). apply in_or_app. right. left. reflexivity.
  - contradiction.
Qed.

(** ** an attempt that succeeded, or was cancelled, or was the user's, was the last of its coroutine *)
Definition final (k : coroutine) (r : result unit) : Prop := k_loop k = false \/ match r with Ok _ | Err CancelledError => True | _ => False end.
Definition coroutine_of (w : world) (t : nat) : option coroutine := nth_error (y_tasks (w_life w)) t.
Lemma kept_over e w t k r : wreachable w -> coroutine_of w t = Some k -> k_stage k = KEnd r -> coroutine_of (world_step e w) t = Some k.
Proof.
  intros R E K. unfold coroutine_of in *. destruct (other_event e) eqn:O; [rewrite life_other by exact O; exact E|].
  destruct e; try discriminate O; cbn [world_step].
  - unfold life_event_happens. wfld. destruct e as [r0| |g|u r0]; try (apply stage_kept; [exact E|discriminate]).
    destruct (Nat.eq_dec u t) as [->|D]; [|apply stage_kept; [exact E|congruence]]. cbn [life_step]. unfold go_on. rewrite E, K. exact E.
  - destruct (starting w t0); unfold got_version; wfld; exact E.
  - destruct (starting w t0); unfold got_device; wfld; exact E.
Qed.
Lemma kept_loop e w t k : wreachable w -> coroutine_of w t = Some k -> exists k', coroutine_of (world_step e w) t = Some k' /\ k_loop k' = k_loop k.
Proof.
  intros R E. unfold coroutine_of in *. destruct (other_event e) eqn:O; [rewrite life_other by exact O; eauto|].
  destruct e; try discriminate O; cbn [world_step].
  - unfold life_event_happens. wfld. destruct (kept_step e (w_life w) t k E) as (k' & G & L). eauto.
  - destruct (starting w t0); unfold got_version; wfld; eauto.
  - destruct (starting w t0); unfold got_device; wfld; eauto.
Qed.
Definition last_one (w : world) (l : list xobs) : Prop :=
  (forall t a o, In o l -> noted t a o -> coroutine_of w t <> None) /\
  (forall t auto ds r at_ l1 l2 k, l = l1 ++ XOver t auto ds r at_ :: l2 -> coroutine_of w t = Some k -> final k r ->
   k_stage k = KEnd r /\ forall o a, In o l2 -> ~ noted t a o).
Lemma last_event e w l : wreachable w -> last_one w l -> last_one (world_step e w) l.
Proof.
  intros R [H1 H2]. split.
  - intros t a o Ho N. destruct (coroutine_of w t) as [k|] eqn:E; [|destruct (H1 t a o Ho N E)]. destruct (kept_loop e w t k R E) as (k' & -> & _). discriminate.
  - intros t auto ds r at_ l1 l2 k' El E' F. destruct (coroutine_of w t) as [k|] eqn:E.
    + destruct (kept_loop e w t k R E) as (k2 & E2 & L). rewrite E' in E2. injection E2 as <-.
      assert (F' : final k r) by (unfold final in *; rewrite <- L; exact F). destruct (H2 t auto ds r at_ l1 l2 k El E F') as [St N]. rewrite (kept_over e w t k r R E St) in E'. injection E' as <-. auto.
    + exfalso. apply (H1 t at_ (XOver t auto ds r at_)); [rewrite El; apply in_or_app; right; left; reflexivity|split; reflexivity|exact E].
Qed.
(** an entry about a coroutine that is not over *)
Lemma last_note w l o t a : noted t a o -> coroutine_of w t <> None -> 
  (forall auto ds r at_ k, In (XOver t auto ds r at_) l -> coroutine_of w t = Some k -> final k r -> False) ->
  match o with XOver _ _ _ r _ => forall k, coroutine_of w t = Some k -> final k r -> k_stage k = KEnd r | _ => True end ->
  last_one w l -> last_one w (l ++ [o]).
Proof.
  intros No C N Q [H1 H2]. split.
  - intros u b p Hp Np. apply in_app_or in Hp as [Hp|[<-|[]]]; [eapply H1; eassumption|]. assert (u = t) as -> by (destruct o; destruct No as [<- _]; destruct Np as [<- _]; reflexivity). exact C.
  - intros u auto ds r at_ l1 l2 k E Ek F. destruct l2 as [|q l2 _] using rev_ind.
    + apply app_inj_tail in E as [<- ->]. destruct No as [-> _]. split; [apply Q; assumption|contradiction].
    + rewrite app_comm_cons, app_assoc in E. apply app_inj_tail in E as [E <-]. destruct (H2 u auto ds r at_ l1 l2 k E Ek F) as [St Nl]. split; [exact St|].
      intros p b Hp Np. apply in_app_or in Hp as [Hp|[<-|[]]]; [eapply Nl; eassumption|]. assert (u = t) as -> by (destruct o; destruct No as [<- _]; destruct Np as [<- _]; reflexivity).
      apply (N auto ds r at_ k); [rewrite E; apply in_or_app; right; left; reflexivity|exact Ek|exact F].
Qed.
Lemma last_reachable c x : xreachable c x -> last_one (x_world x) (x_log x).
Proof.
  apply (px_reachable last_one).
  - intros e w l R. apply last_event, R.
  - intros r w l R H w'. pose proof (fresh_stage w r) as G. apply (last_note w' l _ (length (y_tasks (w_life w))) (w_now w')); [split; reflexivity| | |exact I|apply last_event; assumption].
    + intro E. apply G. unfold stage_of. unfold coroutine_of in E. fold w'. rewrite E. reflexivity.
    + intros auto ds q at_ k Hi Ek F. apply (proj1 H (length (y_tasks (w_life w))) at_ _ Hi (conj eq_refl eq_refl)). apply nth_error_None. lia.
  - intros t w l R S H. apply (last_note w l _ t (w_now w)); [split; reflexivity| | |exact I|exact H].
    + intro E. unfold stage_of in S. unfold coroutine_of in E. rewrite E in S. discriminate S.
    + intros auto ds q at_ k Hi Ek F. apply in_split in Hi as (l1 & l2 & El). destruct (proj2 H t auto ds q at_ l1 l2 k El Ek F) as [St _].
      unfold stage_of in S. unfold coroutine_of in Ek. rewrite Ek in S. cbn [option_map] in S. congruence.
  - intros t auto ds r w l R S H. apply starting_stage in S. unfold stage_of in S. destruct (nth_error (y_tasks (w_life w)) t) as [k|] eqn:E; [|discriminate S]. injection S as S.
    destruct (kept_loop (VLife (VGo t r)) w t k R E) as (k' & E' & L).
    apply (last_note _ l _ t (w_now w)); [split; reflexivity|congruence| | |apply last_event; assumption].
    + intros a d q at_ k2 Hi Ek F. rewrite E' in Ek. injection Ek as <-. apply in_split in Hi as (l1 & l2 & El).
      destruct (proj2 H t a d q at_ l1 l2 k El E) as [St _]; [unfold final in *; rewrite <- L; exact F|congruence].
    + intros k2 Ek F. revert Ek. unfold coroutine_of. cbn [world_step]. unfold life_event_happens. wfld. cbn [life_step]. unfold go_on. rewrite E, S.
      destruct (ended_shape t r k (w_life w) E) as [Sh _]. rewrite Sh, nth_set, Nat.eqb_refl, E. cbn [option_map]. intro Ek. injection Ek as <-. cbn [k_stage].
      unfold final in F. cbn [k_loop] in F. destruct (k_loop k); [|reflexivity]. destruct r as [v|e]; [reflexivity|]. destruct F as [F|F]; [discriminate F|destruct e; try contradiction; reflexivity].
  - intros devs. split; [contradiction|]. intros t auto ds r at_ [|] l2 k E; discriminate E.
Qed.

Lemma attempt_last c x l1 l2 t auto ds r at_ k : xreachable c x -> x_log x = l1 ++ XOver t auto ds r at_ :: l2 -> nth_error (y_tasks (w_life (x_world x))) t = Some k ->
  k_loop k = false \/ r = Ok tt -> k_stage k = KEnd r /\ forall o a, In o l2 -> ~ noted t a o.
Proof.
  intros R E K F. apply (proj2 (last_reachable c x R) t auto ds r at_ l1 l2 k E K). destruct F as [F|F]; [left; exact F|right]. rewrite F. exact I.
Qed.
Lemma attempt_noted c x t auto ds r at_ : xreachable c x -> In (XOver t auto ds r at_) (x_log x) -> exists k, nth_error (y_tasks (w_life (x_world x))) t = Some k.
Proof.
  intros R H. pose proof (proj1 (last_reachable c x R) t at_ _ H (conj eq_refl eq_refl)) as N. unfold coroutine_of in N. destruct (nth_error _ t) as [k|]; [eauto|destruct (N eq_refl)].
Qed.

Lemma attempt_retried c x t auto ds e at_ k : xreachable c x -> In (XOver t auto ds (Err e) at_) (x_log x) -> nth_error (y_tasks (w_life (x_world x))) t = Some k ->
  k_loop k = true -> e <> CancelledError -> exists l1 l2, filter (about t) (y_log (w_life (x_world x))) = l1 ++ LResult t (Err e) :: LClose t :: l2.
Proof.
  intros R H E L N. pose proof (over_result c x t auto ds (Err e) at_ R H) as G. destruct (wreach_linked _ (I_world c x (xreach_inv c x R))) as ((les & El) & _). rewrite El in *.
  assert (G' : In (LResult t (Err e)) (filter (about t) (y_log (life_run les life_init)))) by (apply filter_In; split; [exact G|cbn [about]; apply Nat.eqb_refl]).
  apply in_split in G' as (l1 & l2 & Ef). destruct (trace_retry t _ _ e (proj2 (trails_run les) t k E L) N l1 l2 Ef) as (l3 & ->). eauto.
Qed.
Lemma always_retried c x t k e l1 l2 : xreachable c x -> nth_error (y_tasks (w_life (x_world x))) t = Some k -> k_loop k = true ->
  e <> CancelledError -> filter (about t) (y_log (w_life (x_world x))) = l1 ++ LResult t (Err e) :: l2 -> exists l3, l2 = LClose t :: l3.
Proof.
  intros R E L N H. destruct (wreach_linked _ (I_world c x (xreach_inv c x R))) as ((les & El) & _). rewrite El in *.
  exact (trace_retry t _ _ e (proj2 (trails_run les) t k E L) N l1 l2 H).
Qed.
