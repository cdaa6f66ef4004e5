(** * WholeOwn: whose every frame is *)
From Coq Require Import ZifyBool ZifyNat.
From Verif Require Import Base Types Uart Buffalo CmdTable Zpi Api App Machine Life World SpecMachine SpecLife SpecWorld
  LifeProofs2 LifeProofs3 WorldInv WorldBase WorldLife WorldProofs2 Nv StartZnp AppStart SpecStart Host HostProofs Whole WholeHost WholeBase WorldOwn WholeProofs WholeProofs2 SpecWhole WholeProofs4 WholeTime.

(** acts for which a coroutine of the API object is made; awaiting a waiter goes on with one *)
Definition made (y : act) : bool := match y with AAwait _ _ => false | _ => true end.
Definition mine (ds : list deed) : list (nat * Z) := map fst (filter (fun d => made (snd d)) ds).
Lemma mine_app a b : mine (a ++ b) = mine a ++ mine b.
Proof. unfold mine. rewrite filter_app, map_app. reflexivity. Qed.
Lemma in_mine a u ds : In (a, u) (mine ds) <-> exists y, In (a, u, y) ds /\ made y = true.
Proof.
  unfold mine. rewrite in_map_iff. split.
  - intros ([au y] & E & H). cbn [fst] in E. subst au. apply filter_In in H. eauto.
  - intros (y & H & M). exists (a, u, y). split; [reflexivity|]. apply filter_In. auto.
Qed.
(** a deed of some start-up *)
Definition deed_of (x : whole) (a : nat) (u : Z) : Prop := exists t auto ds y, attempted x t auto ds /\ In (a, u, y) ds /\ made y = true.
Definition Owned (x : whole) : Prop := forall a u, 0 <= u < tasks_of (x_world x) a -> ours (x_world x) a u \/ deed_of x a u.
Definition shown (b : boot) : list (nat * Z) :=
  match b_part b with
  | Some p => mine (b_deeds b) ++ match r_place p with Requesting u _ _ _ _ _ => [(r_api p, u)] | _ => [] end
  | None => []
  end.
Lemma shown_deed x t a u : In (a, u) (shown (x_boots x t)) -> deed_of x a u.
Proof.
  unfold shown. destruct (b_part (x_boots x t)) as [p|] eqn:B; [|contradiction]. intro H.
  exists t, (b_auto (x_boots x t)), (b_deeds (x_boots x t) ++ match r_place p with Requesting u sub cmd d y _ => [(r_api p, u, ARequest sub cmd d y None)] | _ => [] end).
  assert (K : exists y, In (a, u, y) (b_deeds (x_boots x t) ++ match r_place p with Requesting u sub cmd d y _ => [(r_api p, u, ARequest sub cmd d y None)] | _ => [] end) /\ made y = true).
  { apply in_app_or in H as [H|H].
    - apply in_mine in H as (y & H & M). exists y. split; [apply in_or_app; auto|exact M].
    - destruct (r_place p); try contradiction. destruct H as [[= <- <-]|[]]. eexists. split; [apply in_or_app; right; left; reflexivity|reflexivity]. }
  destruct K as (y & K & M). exists y. split; [|auto]. right. exists p. auto.
Qed.
Lemma deed_cases x a u : deed_of x a u -> (exists t auto ds r at_ y, In (XOver t auto ds r at_) (x_log x) /\ In (a, u, y) ds /\ made y = true) \/ exists t, In (a, u) (shown (x_boots x t)).
Proof.
  intros (t & auto & ds & y & [(r & at_ & H)|(p & B & _ & ->)] & Hi & M); [left; eauto 10|right]. exists t. unfold shown. rewrite B.
  apply in_app_or in Hi as [Hi|Hi]; apply in_or_app.
  - left. apply in_mine. eauto.
  - right. destruct (r_place p); try contradiction. destruct Hi as [[= <- <- _]|[]]. left. reflexivity.
Qed.
(** deeds stay *)
Definition keeps (x x' : whole) : Prop := forall a u, deed_of x a u -> deed_of x' a u.
Lemma keeps_trans x y z : keeps x y -> keeps y z -> keeps x z.
Proof. unfold keeps. auto. Qed.
Lemma keeps_same x x' : x_log x' = x_log x -> x_boots x' = x_boots x -> keeps x x'.
Proof. intros E1 E2 a u (t & auto & ds & y & H & Hi). exists t, auto, ds, y. split; [|exact Hi]. unfold attempted in *. rewrite E1, E2. exact H. Qed.
Lemma keeps_boot x t b : incl (shown (x_boots x t)) (shown b) -> keeps x (put_boot t b x).
Proof.
  intros Hb a u H. apply deed_cases in H as [(u0 & auto & ds & r & at_ & y & H & Hi)|(u0 & H)].
  - exists u0, auto, ds, y. split; [left; eauto|exact Hi].
  - apply (shown_deed _ u0). cbn [put_boot x_boots]. destruct (Nat.eq_dec u0 t) as [->|D]; [rewrite put_at_same; apply Hb, H|rewrite put_at_other by exact D; exact H].
Qed.
Lemma keeps_asleep t x : keeps x (falls_asleep t x).
Proof. apply keeps_same; [apply asleep_log|apply asleep_boots]. Qed.
Lemma keeps_note o x : keeps x (xnote o x).
Proof.
  intros a u H. apply deed_cases in H as [(u0 & auto & ds & r & at_ & y & H & Hi)|(u0 & H)].
  - exists u0, auto, ds, y. split; [left; exists r, at_; cbn [xnote x_log]; apply in_or_app; left; exact H|exact Hi].
  - apply (shown_deed _ u0). exact H.
Qed.
Definition settled (b : boot) : Prop := match b_part b with Some p => match r_place p with Requesting _ _ _ _ _ _ => False | _ => True end | None => True end.
Lemma settled_shown b : settled b -> incl (shown b) (mine (b_deeds b)).
Proof. unfold settled, shown. destruct (b_part b) as [p|]; [|intros _ x []]. destruct (r_place p); try contradiction; rewrite app_nil_r; intros _; apply incl_refl. Qed.
Lemma keeps_over t r x : settled (x_boots x t) -> keeps x (attempt_over t r x).
Proof.
  intros S. unfold attempt_over. eapply keeps_trans; [|apply keeps_asleep]. intros a u H. apply deed_cases in H as [(u0 & auto & ds & r0 & at_ & y & H & Hi)|(u0 & H)].
  - exists u0, auto, ds, y. split; [left; exists r0, at_; cbn [put_boot xnote happens x_log]; apply in_or_app; left; exact H|exact Hi].
  - destruct (Nat.eq_dec u0 t) as [->|D].
    + apply (settled_shown _ S) in H. apply in_mine in H as (y & H & M).
      exists t, (b_auto (x_boots x t)), (b_deeds (x_boots x t)), y. split; [left; exists r, (w_now (x_world x)); cbn [put_boot xnote happens x_log]; apply in_or_app; right; left; reflexivity|auto].
    + apply (shown_deed _ u0). cbn [put_boot xnote happens x_boots]. rewrite put_at_other by exact D. exact H.
Qed.
Lemma keeps_next t p x : settled (x_boots x t) -> keeps x (next_part t p x).
Proof.
  intros S. unfold next_part. destruct (y_cur _) as [a|]; [|apply keeps_over, S]. apply keeps_boot. eapply incl_tran; [apply settled_shown, S|].
  unfold shown. cbn [b_part b_deeds r_place]. apply incl_appl, incl_refl.
Qed.
(** one step of the world *)
Lemma owned_moves x x' : Owned x -> keeps x x' -> ext (x_world x) (x_world x') -> op_kept (x_world x) (x_world x') ->
  (forall a u, tasks_of (x_world x) a <= u < tasks_of (x_world x') a -> ours (x_world x') a u \/ deed_of x' a u) -> Owned x'.
Proof.
  intros H K X O G a u Hu. destruct (Z_lt_dec u (tasks_of (x_world x) a)) as [L|L]; [|apply G; lia].
  destruct (H a u ltac:(lia)) as [H1|H1]; [left; eapply ours_later; eassumption|right; apply K, H1].
Qed.
Lemma owned_same x x' : Owned x -> keeps x x' -> x_world x' = x_world x -> Owned x'.
Proof. intros H K E a u. rewrite E. intro Hu. destruct (H a u Hu) as [H1|H1]; [left; exact H1|right; apply K, H1]. Qed.
Lemma step_kept e w : wreachable w -> op_kept w (world_step e w).
Proof. intro R. apply kept_ps, world_step_p, wreach_good, R. Qed.
Lemma owned_happens e x : wreachable (x_world x) -> (forall a j, e <> VApiCall a j) -> Owned x -> Owned (happens e x).
Proof.
  intros R N H. apply (owned_moves x); [exact H|apply keeps_same; reflexivity|apply step_ext, R|apply step_kept, R|].
  intros a u Hu. left. apply (step_grows e _ R N). exact Hu.
Qed.
(** a call of the API *)
Lemma call_one w a j s b u : nth_error (w_apis w) a = Some s -> uses_sem j = false -> tasks_of w b <= u < tasks_of (world_step (VApiCall a j) w) b -> b = a /\ u = s_ntid s.
Proof. intros A J Hu. cbn [world_step] in Hu. rewrite J in Hu. apply (tasks_one w a (Machine.spawn j) s A eq_refl b u Hu). Qed.
Lemma owned_over t r x : wreachable (x_world x) -> settled (x_boots x t) -> Owned x -> Owned (attempt_over t r x).
Proof.
  intros R S H. pose proof (keeps_over t r x S) as K. assert (E : x_world (attempt_over t r x) = world_step (VLife (VGo t r)) (x_world x)) by (unfold attempt_over; rewrite asleep_world; reflexivity).
  apply (owned_moves x); [exact H|exact K|rewrite E; apply step_ext, R|rewrite E; apply step_kept, R|].
  rewrite E. intros a u Hu. left. apply (step_grows (VLife (VGo t r)) _ R); [discriminate|exact Hu].
Qed.
Lemma owned_next t p x : wreachable (x_world x) -> settled (x_boots x t) -> Owned x -> Owned (next_part t p x).
Proof.
  intros R S H. unfold next_part. destruct (y_cur (w_life (x_world x))) as [a|] eqn:C; [|apply owned_over; assumption].
  pose proof (keeps_next t p x S) as K. unfold next_part in K. rewrite C in K. apply (owned_same x); [exact H|exact K|reflexivity].
Qed.
Lemma led_owned t x : wreachable (x_world x) -> (exists p v, b_part (x_boots x t) = Some p /\ r_place p = Ready v) -> Owned x ->
  Owned (led_off t x) /\ wreachable (x_world (led_off t x)) /\ settled (x_boots (led_off t x) t).
Proof.
  intros R (p & v & B & Pl) H. assert (S : settled (x_boots x t)) by (unfold settled; rewrite B, Pl; exact I).
  unfold led_off. destruct (y_cur _) as [a|]; [|auto]. destruct (nth_error (w_apis (x_world x)) a) as [s|] eqn:A; [|auto].
  split; [|split; [apply wreach_step, R|]].
  - apply (owned_moves x); [exact H| |apply step_ext, R|apply step_kept, R|].
    + eapply keeps_trans; [|apply keeps_boot]; [apply keeps_same; reflexivity|]. cbn [happens x_boots]. unfold shown. cbn [b_part b_deeds]. rewrite B, Pl.
      rewrite mine_app, !app_nil_r. apply incl_appl, incl_refl.
    + intros b u Hu. right. destruct (call_one (x_world x) a (JCommand UTIL "ledControl" (led_payload LED_Off) [0]) s b u A eq_refl Hu) as [-> ->]. apply (shown_deed _ t). cbn [put_boot x_boots]. rewrite put_at_same. unfold shown. cbn [b_part b_deeds]. rewrite B, Pl.
      rewrite mine_app, app_nil_r. apply in_or_app. right. left. reflexivity.
  - cbn [put_boot x_boots]. rewrite put_at_same. unfold settled. cbn [b_part]. rewrite B, Pl. exact I.
Qed.
Lemma owned_part t p x : wreachable (x_world x) -> b_part (x_boots x t) = Some p -> Owned x ->
  Owned (let '(w, p', ds) := part_goes p (x_world x) in put_boot t (mk_boot (b_auto (x_boots x t)) (Some p') (b_deeds (x_boots x t) ++ ds)) (mk_whole w (x_boots x) (x_until x) (x_log x))).
Proof.
  intros R B H.
  (* what is needed of one step of the part *)
  assert (Q : forall w' p' ds, ext (x_world x) w' -> op_kept (x_world x) w' -> incl (shown (x_boots x t)) (shown (mk_boot (b_auto (x_boots x t)) (Some p') (b_deeds (x_boots x t) ++ ds))) ->
    (forall a u, tasks_of (x_world x) a <= u < tasks_of w' a -> ours w' a u \/ In (a, u) (shown (mk_boot (b_auto (x_boots x t)) (Some p') (b_deeds (x_boots x t) ++ ds)))) ->
    Owned (put_boot t (mk_boot (b_auto (x_boots x t)) (Some p') (b_deeds (x_boots x t) ++ ds)) (mk_whole w' (x_boots x) (x_until x) (x_log x)))).
  { intros w' p' ds X O I N. apply (owned_moves x); [exact H| |exact X|exact O|].
    - eapply keeps_trans; [|apply keeps_boot]; [apply keeps_same; reflexivity|exact I].
    - intros a u Hu. destruct (N a u Hu) as [K|K]; [left; exact K|right]. apply (shown_deed _ t). cbn [put_boot x_boots]. rewrite put_at_same. exact K. }
  assert (Same : forall p' ds, incl (shown (x_boots x t)) (shown (mk_boot (b_auto (x_boots x t)) (Some p') (b_deeds (x_boots x t) ++ ds))) ->
    Owned (put_boot t (mk_boot (b_auto (x_boots x t)) (Some p') (b_deeds (x_boots x t) ++ ds)) (mk_whole (x_world x) (x_boots x) (x_until x) (x_log x)))).
  { intros p' ds I. apply Q; [apply ext_refl; reflexivity|apply kept_refl|exact I|lia]. }
  assert (Stay : Owned (put_boot t (mk_boot (b_auto (x_boots x t)) (Some p) (b_deeds (x_boots x t) ++ [])) (mk_whole (x_world x) (x_boots x) (x_until x) (x_log x)))).
  { apply Same. unfold shown. rewrite B. cbn [b_part b_deeds]. rewrite app_nil_r. apply incl_refl. }
  unfold part_goes. destruct (nth_error (w_apis (x_world x)) (r_api p)) as [s|] eqn:A; [|exact Stay].
  assert (Sh : shown (x_boots x t) = mine (b_deeds (x_boots x t)) ++ match r_place p with Requesting u _ _ _ _ _ => [(r_api p, u)] | _ => [] end) by (unfold shown; rewrite B; reflexivity).
  destruct (r_place p) as [[v|e|sub cmd d y k|m to k|o k|sub cmd d k]|u sub cmd d y k|u m k] eqn:Pl; try exact Stay.
  - apply Q; [apply step_ext, R|apply step_kept, R| |].
    + rewrite Sh. unfold shown. cbn [b_part b_deeds r_place]. rewrite !app_nil_r. apply incl_appl, incl_refl.
    + intros b u Hu. right. destruct (call_one (x_world x) _ (JCommand sub cmd d y) s b u A eq_refl Hu) as [-> ->]. unfold shown. cbn [b_part b_deeds r_place r_api]. apply in_or_app. right. left. reflexivity.
  - assert (R1 : wreachable (world_step (VApiCall (r_api p) (JWaitFor m to)) (x_world x))) by apply wreach_step, R.
    apply Q.
    + unfold world_run. cbn [fold_left]. eapply ext_trans; apply step_ext; assumption.
    + unfold world_run. cbn [fold_left]. eapply kept_trans; apply step_kept; assumption.
    + rewrite Sh. unfold shown. cbn [b_part b_deeds r_place]. rewrite mine_app, !app_nil_r. apply incl_appl, incl_refl.
    + intros b u Hu. unfold world_run in Hu. cbn [fold_left] in Hu. set (w1 := world_step (VApiCall (r_api p) (JWaitFor m to)) (x_world x)) in *.
      destruct (Z_lt_dec u (tasks_of w1 b)) as [L|L].
      * right. destruct (call_one (x_world x) _ (JWaitFor m to) s b u A eq_refl ltac:(fold w1; lia)) as [-> ->]. unfold shown. cbn [b_part b_deeds r_place r_api].
        rewrite mine_app, app_nil_r. apply in_or_app. right. left. reflexivity.
      * left. apply (step_grows (VTask (r_api p) (s_ntid s)) w1 R1); [discriminate|lia].
  - destruct (object o (r_waiters p)) as [u0|]; [|exact Stay]. apply Q; [apply step_ext, R|apply step_kept, R| |].
    + rewrite Sh. unfold shown. cbn [b_part b_deeds r_place]. rewrite !app_nil_r. apply incl_refl.
    + intros b u Hu. left. apply (step_grows (VTask (r_api p) u0) _ R); [discriminate|exact Hu].
  - apply Q; [apply step_ext, R|apply step_kept, R| |].
    + rewrite Sh. unfold shown. cbn [b_part b_deeds r_place]. rewrite mine_app, !app_nil_r. apply incl_appl, incl_refl.
    + intros b u Hu. right. destruct (call_one (x_world x) _ (JCommand sub cmd d [0]) s b u A eq_refl Hu) as [-> ->]. unfold shown. cbn [b_part b_deeds r_place r_api].
      rewrite mine_app, app_nil_r. apply in_or_app. right. left. reflexivity.
  - destruct (came_back s u) as [r|]; [|exact Stay]. apply Same. rewrite Sh. unfold shown. cbn [b_part b_deeds r_place]. rewrite mine_app, app_nil_r. apply incl_refl.
  - destruct (came_back s u) as [r|]; [|exact Stay]. apply Same. rewrite Sh. unfold shown. cbn [b_part b_deeds r_place]. rewrite mine_app, !app_nil_r. apply incl_refl.
Qed.
Lemma owned_boot_goes c t x : XInv c x -> Owned x -> Owned (boot_goes c t x).
Proof.
  intros X H. pose proof (I_world c x X) as R. unfold boot_goes. destruct (b_part (x_boots x t)) as [p|] eqn:B; [|exact H].
  pose proof (owned_part t p x R B H) as Rest.
  destruct (r_place p) as [[v|e|sub cmd d y k|m to k|o k|sub cmd d k]|u sub cmd d y k|u m k] eqn:Pl; try exact Rest; clear Rest;
    (assert (S : settled (x_boots x t)) by (unfold settled; rewrite B, Pl; exact I)).
  - destruct v as [|product|r|ieee nwk].
    + apply owned_next; assumption.
    + cbv zeta. assert (H1 : Owned (happens (VGotVersion t product) x)) by (apply owned_happens; [exact R|discriminate|exact H]).
      destruct (known_product product); [apply owned_next|apply owned_over]; try exact H1; try exact S; apply wreach_step, R.
    + destruct (set_led _ _) as [[|z zs]|e]; [apply owned_next; assumption| |apply owned_over; assumption].
      destruct (led_owned t x R) as (H1 & R1 & S1); [eauto|exact H|]. apply owned_next; assumption.
    + apply owned_over; [apply wreach_step, R|exact S|]. apply owned_happens; [exact R|discriminate|exact H].
  - apply owned_over; assumption.
Qed.
Lemma owned_step c e x : XInv c x -> Owned x -> Owned (whole_step c e x).
Proof.
  intros X H. pose proof (I_world c x X) as R. destruct e as [auto r|t|e]; cbn [whole_step].
  - set (t := length _). apply (owned_same (put_boot t (idle auto) (tries t (happens (VLife (VStartup r)) x)))); [|apply keeps_asleep|apply asleep_world].
    assert (H1 : Owned (happens (VLife (VStartup r)) x)) by (apply owned_happens; [exact R|discriminate|exact H]).
    apply (owned_same (happens (VLife (VStartup r)) x)); [exact H1| |reflexivity].
    eapply keeps_trans; [apply keeps_note|]. apply keeps_boot. cbn [tries xnote happens x_boots].
    pose proof (I_boots c x X t) as Bo. unfold boot_ok in Bo. unfold shown. destruct (b_part (x_boots x t)) as [p|]; [|intros ? []].
    destruct Bo as [St _]. exfalso. unfold starting in St. replace (nth_error _ t) with (@None coroutine) in St; [discriminate St|]. symmetry. apply nth_error_None. unfold t. lia.
  - apply owned_boot_goes; assumption.
  - destruct (from_outside x e) eqn:O; [|exact H].
    assert (N : forall a j, e <> VApiCall a j) by (intros a j ->; discriminate O).
    destruct e as [| | | | | | | | | |e|t p|t i n]; try (apply owned_happens; assumption). destruct e as [| | |t r]; try (apply owned_happens; assumption). cbv zeta.
    set (x1 := match stage_of (x_world x) t with Some KSleep => _ | _ => _ end).
    assert (H1 : keeps x x1 /\ x_world x1 = x_world x /\ x_boots x1 = x_boots x).
    { assert (K0 : keeps x x) by (intros a u Hd; exact Hd). assert (K1 : keeps x (tries t x)) by apply keeps_note.
      unfold x1. destruct (stage_of (x_world x) t) as [[]|]; auto. destruct r as [v|[]]; auto. }
    destruct H1 as (K1 & E1 & B1). assert (H1 : Owned x1) by (apply (owned_same x); assumption). assert (R1 : wreachable (x_world x1)) by (rewrite E1; exact R).
    set (x2 := falls_asleep t (happens (VLife (VGo t r)) x1)).
    assert (H2 : Owned x2) by (apply (owned_same (happens (VLife (VGo t r)) x1)); [apply owned_happens; [exact R1|discriminate|exact H1]|apply keeps_asleep|apply asleep_world]).
    destruct (starting (x_world x2) t) eqn:S; [|exact H2]. apply owned_next; [unfold x2; rewrite asleep_world; apply wreach_step, R1| |exact H2].
    assert (E2 : x_boots x2 = x_boots x) by (unfold x2; rewrite asleep_boots; exact B1). rewrite E2.
    pose proof (I_boots c x X t) as Bo. unfold boot_ok in Bo. unfold settled. destruct (b_part (x_boots x t)) as [p|]; [|exact I].
    destruct Bo as [St _]. apply starting_stage in St. cbn [from_outside] in O. rewrite St in O. discriminate O.
Qed.
Lemma owned_reachable c x : xreachable c x -> Owned x.
Proof.
  intros (devs & es & ->). assert (H : XInv c (whole_run c es (whole_init devs)) /\ Owned (whole_run c es (whole_init devs))).
  { induction es as [|e es IH] using rev_ind; [split; [apply xinv_init|]|].
    - intros a u. unfold tasks_of. cbn [whole_init x_world world_init w_apis whole_run fold_left]. destruct a; cbn [nth_error]; lia.
    - unfold whole_run in *. rewrite fold_left_app. cbn [fold_left]. destruct IH. split; [apply xinv_step|apply owned_step]; assumption. }
  apply H.
Qed.
