(** * UndisturbedProofs: proofs for PropsUndisturbed *)
From Coq Require Import ZifyBool ZifyNat.
From Verif Require Import Base Types Uart Buffalo CmdTable Zpi Api App Machine Life World SpecMachine SpecLife SpecWorld
  LifeProofs2 LifeProofs3 WorldFace WorldBase WorldLife WorldProofs2 Nv StartZnp AppStart SpecStart Host Whole WholeBase WholeProofs WholeProofs2 SpecWhole WholeProofs4 WholeTime WholeInd WholeParts
  SpecSerial SerialProofs SpecUndisturbed.

(** ** ports and coroutines *)
Definition stage_open (s : life) (k : coroutine) : Prop :=
  match k_stage k with
  | KSettle a g => (a < length (y_apis s))%nat /\ exists x, nth_error (y_gws s) g = Some x /\ g_open x = true
  | KRequests => exists a y g x, y_cur s = Some a /\ nth_error (y_apis s) a = Some y /\ a_uart y = Some g /\ nth_error (y_gws s) g = Some x /\ g_open x = true
  | _ => True
  end.
Definition opens (s : life) : Prop := forall t k, nth_error (y_tasks s) t = Some k -> stage_open s k.
Definition works (s : life) (t : nat) : Prop := exists k, nth_error (y_tasks s) t = Some k /\ forall r, k_stage k <> KEnd r.
Lemma ended_open s k r : k_stage k = KEnd r -> stage_open s k.
Proof. unfold stage_open. intros ->. exact I. Qed.
Lemma at_stage_self t q s k : nth_error (y_tasks (at_stage t q s)) t = Some k -> k_stage k = q.
Proof.
  unfold at_stage. destruct (nth_error (y_tasks s) t) as [k0|] eqn:E; [|congruence]. cbn [with_tasks y_tasks]. rewrite nth_set, Nat.eqb_refl, E. intros [= <-]. reflexivity.
Qed.
Lemma at_stage_parts t q s : y_apis (at_stage t q s) = y_apis s /\ y_gws (at_stage t q s) = y_gws s /\ y_cur (at_stage t q s) = y_cur s.
Proof. unfold at_stage. destruct (nth_error _ _); auto. Qed.
Lemma ended_self t r s k s' : nth_error (y_tasks (startup_ended t r s)) t = Some k -> stage_open s' k.
Proof.
  intro G. destruct (nth_error (y_tasks s) t) as [k0|] eqn:E.
  - destruct (ended_shape t r k0 s E) as [S _]. rewrite S, nth_set, Nat.eqb_refl, E in G. injection G as <-. unfold stage_open. cbn [k_stage]. destruct (_ && _); exact I.
  - unfold startup_ended in G. cbv zeta in G. cbn [log y_tasks] in G. rewrite E in G. cbn [log y_tasks] in G. congruence.
Qed.
Lemma begins_self t r s k : nth_error (y_tasks (startup_begins t r s)) t = Some k -> stage_open (startup_begins t r s) k.
Proof.
  unfold startup_begins. cbv zeta. destruct r as [v|e]; [|intro G; eapply ended_self, G].
  match goal with |- context [at_stage t ?q ?s0] => intro G; pose proof (at_stage_self t q s0 k G) as Q; destruct (at_stage_parts t q s0) as (A & B & _) end.
  unfold stage_open. rewrite Q, A, B. cbn [with_gws with_apis log y_apis y_gws]. split; [rewrite app_length; cbn [length]; lia|].
  eexists. split; [rewrite nth_snoc, Nat.eqb_refl; reflexivity|reflexivity].
Qed.
Lemma go_self t r s k : opens s -> nth_error (y_tasks (go_on t r s)) t = Some k -> stage_open (go_on t r s) k.
Proof.
  intro O. unfold go_on. destruct (nth_error (y_tasks s) t) as [k0|] eqn:E; [|congruence]. pose proof (O t k0 E) as O0. unfold stage_open in O0.
  assert (Done : forall q s0, nth_error (y_tasks (at_stage t (KEnd q) s0)) t = Some k -> stage_open (at_stage t (KEnd q) s0) k) by (intros q s0 G; eapply ended_open, at_stage_self, G).
  assert (Top : nth_error (y_tasks (loop_top t s)) t = Some k -> stage_open (loop_top t s) k) by (unfold loop_top; intro G; apply at_stage_self in G; unfold stage_open; rewrite G; exact I).
  destruct (k_stage k0) as [| |a g| |r0] eqn:K.
  - destruct r as [v|[]]; first [exact Top|apply Done].
  - destruct r as [v|[]]; first [apply begins_self|apply Done].
  - destruct O0 as (La & x & Gx & Ox).
    match goal with |- context [at_stage t KRequests ?s0] => assert (Go : nth_error (y_tasks (at_stage t KRequests s0)) t = Some k -> stage_open (at_stage t KRequests s0) k) end.
    { match goal with |- context [at_stage t KRequests ?s0] => intro G; pose proof (at_stage_self t KRequests s0 k G) as Q; destruct (at_stage_parts t KRequests s0) as (A & B & C) end.
      unfold stage_open. rewrite Q, A, B, C. cbn [with_cur with_apis log y_apis y_gws y_cur]. exists a, (mk_api_obj (Some g) true), g, x. split; [reflexivity|].
      split; [rewrite nth_set, Nat.eqb_refl; destruct (nth_error (y_apis s) a) eqn:N; [reflexivity|apply nth_error_None in N; lia]|]. auto. }
    destruct r as [v|[]]; first [exact Go|intro G; eapply ended_self, G].
  - intro G. eapply ended_self, G.
  - intro G. rewrite G in E. injection E as ->. unfold stage_open. rewrite K. exact I.
Qed.
Lemma opens_go t r s : (forall u v, works s u -> works s v -> u = v) -> opens s -> opens (go_on t r s).
Proof.
  intros W O. destruct (nth_error (y_tasks s) t) as [k|] eqn:E; [|unfold go_on; rewrite E; exact O].
  assert (D : (exists r0, k_stage k = KEnd r0) \/ forall r0, k_stage k <> KEnd r0) by (destruct (k_stage k); eauto; right; discriminate).
  destruct D as [[r0 D]|D]; [unfold go_on; rewrite E, D; exact O|].
  intros u k' G. destruct (Nat.eq_dec u t) as [->|N]; [apply go_self; assumption|].
  destruct (nth_error (y_tasks s) u) as [k0|] eqn:Eu.
  - pose proof (stage_kept (VGo t r) s u k0 Eu ltac:(congruence)) as G0. cbn [life_step] in G0. rewrite G0 in G. injection G as <-.
    destruct (k_stage k0) as [| |a g| |q] eqn:K; [..|eapply ended_open, K]; (destruct N; apply W; [exists k0; split; [exact Eu|congruence]|exists k; auto]).
  - apply nth_error_None in Eu. assert (u < length (y_tasks (go_on t r s)))%nat by (apply nth_error_Some; congruence). rewrite go_len in *. lia.
Qed.
Lemma opens_other e s : e <> VShutdown -> (forall t r, e <> VGo t r) -> ((length (y_tasks s) < length (y_tasks (life_step e s)))%nat -> forall t, ~ works s t) -> opens s -> opens (life_step e s).
Proof.
  intros N1 N2 H O. assert (Grown : (length (y_tasks s) < length (y_tasks (life_step e s)))%nat -> (forall k, nth_error (y_tasks (life_step e s)) (length (y_tasks s)) = Some k -> stage_open (life_step e s) k) -> opens (life_step e s)).
  { intros L New t k G. specialize (H L). destruct (Nat.eq_dec t (length (y_tasks s))) as [->|N]; [apply New, G|].
    destruct (nth_error (y_tasks s) t) as [k0|] eqn:E.
    - rewrite (stage_kept e s t k0 E) in G by apply N2. injection G as <-. destruct (k_stage k0) as [| |a g| |q] eqn:K; [..|eapply ended_open, K]; (destruct (H t); exists k0; split; [exact E|congruence]).
    - apply nth_error_None in E. assert (t < length (y_tasks (life_step e s)))%nat by (apply nth_error_Some; congruence). destruct (life_same e s N2). lia. }
  destruct e as [r| |g|t r]; [|congruence| |destruct (N2 t r eq_refl)].
  - apply Grown; cbn [life_step].
    + destruct (begins_same (length (y_tasks s)) r (with_tasks (y_tasks s ++ [mk_coroutine false KBegin]) s)) as [_ ->]. cbn [with_tasks y_tasks]. rewrite app_length. cbn [length]. lia.
    + intros k G. apply begins_self, G.
  - cbn [life_step] in *. unfold lost in *. destruct (nth_error (y_gws s) g) as [x|] eqn:Gx; [|exact O]. destruct (g_told x); [exact O|]. cbv zeta in *.
    set (s1 := log (LLost g) (with_gws (set_nth g (mk_gateway (g_open x) false true (g_api x)) (y_gws s)) s)) in *.
    assert (Keep : forall s2, y_tasks s2 = y_tasks s -> y_apis s2 = y_apis s -> y_cur s2 = y_cur s -> y_gws s2 = y_gws s1 -> opens s2).
    { intros s2 E1 E2 E3 E4 t k G. rewrite E1 in G. specialize (O t k G). unfold stage_open in *. rewrite E2, E3, E4.
      assert (P : forall h, (exists z, nth_error (y_gws s) h = Some z /\ g_open z = true) -> exists z, nth_error (y_gws s1) h = Some z /\ g_open z = true).
      { intros h (z & Z1 & Z2). unfold s1. cbn [log with_gws y_gws]. rewrite nth_set. destruct (Nat.eqb_spec h g) as [->|Nh]; [|eauto]. rewrite Gx in *. injection Z1 as <-. eexists. split; [reflexivity|exact Z2]. }
      destruct (k_stage k); auto.
      - destruct O as [La O]. split; [exact La|]. apply P, O.
      - destruct O as (a & y & h & z & A & B & C & D & E). destruct (P h) as (z' & Z1 & Z2); [eauto|]. exists a, y, h, z'. auto. }
    destruct (g_open x); [|apply Keep; reflexivity]. destruct (nth_error (y_apis s1) (g_api x)) as [a|]; [|apply Keep; reflexivity].
    destruct (a_app a); [|apply Keep; reflexivity]. apply Grown; cbn [log with_tasks y_tasks].
    + unfold s1. cbn [log with_gws y_tasks]. rewrite app_length. cbn [length]. lia.
    + unfold s1. cbn [log with_gws y_tasks]. intros k G. rewrite nth_snoc, Nat.eqb_refl in G. injection G as <-. exact I.
Qed.

(** ** the application *)
Lemma life_over t r x : w_life (x_world (attempt_over t r x)) = go_on t r (w_life (x_world x)).
Proof. unfold attempt_over. rewrite asleep_world. reflexivity. Qed.
Lemma life_next t q x : w_life (x_world (next_part t q x)) = w_life (x_world x) \/ exists r, w_life (x_world (next_part t q x)) = go_on t r (w_life (x_world x)).
Proof. unfold next_part. destruct (y_cur _); [left; reflexivity|right; eexists; apply life_over]. Qed.
Lemma life_boot_goes c t x : XInv c x -> w_life (x_world (boot_goes c t x)) = w_life (x_world x) \/ exists r, w_life (x_world (boot_goes c t x)) = go_on t r (w_life (x_world x)).
Proof.
  intros I. pose proof (I_boots c x I t) as B. unfold boot_goes. unfold boot_ok in B.
  destruct (b_part (x_boots x t)) as [p|] eqn:Bp; [|left; reflexivity]. destruct B as (S & pre & p0 & l & E & F & L).
  pose proof (part_goes_ok (x_world x) p0 p l L) as Q.
  assert (Rest : w_life (x_world (let '(w, p', ds) := part_goes p (x_world x) in
        put_boot t (mk_boot (b_auto (x_boots x t)) (Some p') (b_deeds (x_boots x t) ++ ds)) (mk_whole w (x_boots x) (x_until x) (x_log x)))) = w_life (x_world x)).
  { destruct (part_goes p (x_world x)) as [[w' p'] ds]. destruct Q as (A & _). apply aside_life, A. }
  clear Q. destruct (r_place p) as [[v|e|sub cmd d x0 k|m to k|o k|sub cmd d k]|t0 sub cmd d x0 k|t0 m k]; try (left; exact Rest); clear Rest.
  - assert (Got : forall e, match e with VGotVersion _ _ | VGotDevice _ _ _ => True | _ => False end -> w_life (x_world (happens e x)) = w_life (x_world x)) by (intros e He; apply got_life, He).
    destruct v as [|product|r|ieee nwk].
    + apply life_next.
    + cbv zeta. rewrite <- (Got (VGotVersion t product) Logic.I). destruct (known_product product); [apply life_next|right; eexists; apply life_over].
    + destruct (set_led _ _) as [[|z zs]|e]; [apply life_next| |right; eexists; apply life_over].
      assert (K : w_life (x_world (led_off t x)) = w_life (x_world x)).
      { unfold led_off. destruct (y_cur _) as [a|]; [|reflexivity]. destruct (nth_error _ a); [|reflexivity]. cbn [put_boot happens x_world]. apply life_other. reflexivity. }
      rewrite <- K. apply life_next.
    + rewrite <- (Got (VGotDevice t ieee nwk) Logic.I). right. eexists. apply life_over.
  - right. eexists. apply life_over.
Qed.
Lemma works_grown w w' : grown 0 w w' -> one_at_work w -> one_at_work w'.
Proof. intros [L G] W t u Ht Hu. destruct (G t Ht) as [A|A]; [|lia]. destruct (G u Hu) as [B|B]; [|lia]. apply W; assumption. Qed.
Lemma opens_step c e x : XInv c x -> one_at_work (x_world x) -> no_shutdown e -> ((coroutines x < coroutines (whole_step c e x))%nat -> forall t, ~ at_work (x_world x) t) ->
  opens (w_life (x_world x)) -> opens (w_life (x_world (whole_step c e x))).
Proof.
  intros I W N H O. destruct e as [auto r|t|e]; cbn [whole_step] in *.
  - unfold coroutines in H. rewrite asleep_world in *. cbn [put_boot tries xnote happens x_world] in *. rewrite life_happens in *. apply opens_other; [discriminate|discriminate|exact H|exact O].
  - destruct (life_boot_goes c t x I) as [->|[r ->]]; [exact O|apply opens_go; assumption].
  - destruct (from_outside x e) eqn:Out; [|exact O].
    assert (Other : other_event e = true -> opens (w_life (x_world (happens e x)))) by (intro Oe; cbn [happens x_world]; rewrite life_other by exact Oe; exact O).
    destruct e as [| | | | | | | | | |e| |]; try (apply Other; reflexivity); try discriminate Out. clear Other.
    destruct e as [r| |g|t r]; [discriminate Out|destruct (N eq_refl)| |].
    + unfold coroutines in H. cbn [happens x_world] in *. rewrite life_happens in *. apply opens_other; [discriminate|discriminate|exact H|exact O].
    + cbv zeta in *. clear H N.
      set (x1 := match stage_of (x_world x) t with Some KSleep => _ | _ => _ end).
      assert (E1 : x_world x1 = x_world x) by (unfold x1; destruct (stage_of (x_world x) t) as [[]|]; try reflexivity; destruct r as [v|[]]; reflexivity).
      clearbody x1. set (x2 := falls_asleep t (happens (VLife (VGo t r)) x1)).
      assert (E2 : x_world x2 = world_step (VLife (VGo t r)) (x_world x)) by (unfold x2; rewrite asleep_world; cbn [happens x_world]; rewrite E1; reflexivity). clearbody x2.
      assert (O2 : opens (w_life (x_world x2))) by (rewrite E2, life_happens; apply opens_go; assumption).
      destruct (starting (x_world x2) t); [|exact O2]. destruct (life_next t part_ping x2) as [->|[r0 ->]]; [exact O2|]. apply opens_go; [|exact O2].
      apply (works_grown (x_world x) (x_world x2)); [rewrite E2; apply grown_go|exact W].
Qed.
Lemma opens_run c es x : XInv c x -> one_at_work (x_world x) -> Solo x -> one_by_one c es x -> Forall no_shutdown es -> opens (w_life (x_world x)) -> opens (w_life (x_world (whole_run c es x))).
Proof.
  intros I W X H F O. revert x I W X H O. induction F as [|e es N F IH]; intros x I W X H O; [exact O|].
  destruct (solo_run c [e] x I W X (conj (proj1 H) Logic.I)) as [W' X'].
  apply (IH (whole_step c e x)); [apply xinv_step, I|exact W'|exact X'|apply H|]. apply opens_step; try assumption. apply H.
Qed.
Lemma undisturbed c es devs t p : one_by_one c es (whole_init devs) -> Forall no_shutdown es -> b_part (x_boots (whole_run c es (whole_init devs)) t) = Some p ->
  link_open (x_world (whole_run c es (whole_init devs))) (r_api p).
Proof.
  intros H F B. assert (O : opens (w_life (x_world (whole_run c es (whole_init devs))))).
  { apply opens_run; [apply xinv_init| | |exact H|exact F|intros u k G; destruct u; discriminate G].
    - intros u v (k & G & _). destruct u; discriminate G.
    - constructor; [discriminate|intros u auto ds r at_ []]. }
  pose proof (serial_current c es devs t p H B) as C. set (x := whole_run c es (whole_init devs)) in *.
  assert (I : XInv c x) by (apply xinv_run, xinv_init). clearbody x. pose proof (I_boots c x I t) as Bt. unfold boot_ok in Bt. rewrite B in Bt. destruct Bt as [S _].
  pose proof (I_world c x I) as R. destruct (starting_cur _ _ R S) as (a & s & Ca & As). rewrite C in Ca. injection Ca as <-.
  unfold starting in S. destruct (nth_error (y_tasks (w_life (x_world x))) t) as [k|] eqn:G; [|discriminate]. specialize (O t k G). unfold stage_open in O. destruct (k_stage k); try discriminate S.
  destruct O as (a & y & g & z & A1 & A2 & A3 & A4 & A5). rewrite C in A1. injection A1 as <-. split; [exact C|]. exists y, g, z, s. repeat (split; [assumption|]).
  destruct (wreach_linked _ R) as (_ & _ & Lk). specialize (Lk _ y s A2 As). unfold face, port_of in Lk. rewrite A3 in Lk. congruence.
Qed.
