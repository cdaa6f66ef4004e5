(** * SerialProofs: proofs for PropsSerial *)
From Coq Require Import ZifyBool ZifyNat.
From Verif Require Import Base Types Uart Buffalo CmdTable Zpi Api App Machine Life World SpecMachine SpecLife SpecWorld
  LifeProofs2 LifeProofs3 WorldBase WorldLife WorldProofs2 Nv StartZnp AppStart SpecStart Host Whole WholeBase WholeProofs WholeProofs2 SpecWhole WholeProofs4 WholeTime WholeInd WholeParts SpecSerial.

(** ** which API object the application has *)
Lemma gw_close_same g s : y_cur (gw_close g s) = y_cur s /\ y_tasks (gw_close g s) = y_tasks s.
Proof. unfold gw_close. destruct (nth_error _ g); split; reflexivity. Qed.
Lemma api_close_same a s : y_cur (api_close a s) = y_cur s /\ y_tasks (api_close a s) = y_tasks s.
Proof. unfold api_close. destruct (nth_error _ a) as [x|]; [|auto]. destruct (a_uart x) as [g|]; [|auto]. exact (gw_close_same g s). Qed.
Lemma app_close_same s : y_cur (app_close s) = y_cur s /\ y_tasks (app_close s) = y_tasks s.
Proof. unfold app_close. destruct (y_cur s) as [a|] eqn:C; [|auto]. rewrite <- C. apply api_close_same. Qed.
Lemma set_nth_len {A} n (v : A) l : length (set_nth n v l) = length l.
Proof. revert n. induction l as [|a l IH]; intros [|n]; cbn [set_nth length]; try reflexivity. rewrite IH. reflexivity. Qed.
Lemma at_stage_same t k s : y_cur (at_stage t k s) = y_cur s /\ length (y_tasks (at_stage t k s)) = length (y_tasks s).
Proof. unfold at_stage. destruct (nth_error _ t); cbn [with_tasks y_cur y_tasks]; rewrite ?set_nth_len; auto. Qed.
Lemma loop_top_same t s : y_cur (loop_top t s) = y_cur s /\ length (y_tasks (loop_top t s)) = length (y_tasks s).
Proof.
  unfold loop_top. destruct (at_stage_same t KSleep (log (LClose t) (app_close s))) as [-> ->]. cbn [log y_cur y_tasks]. destruct (app_close_same s) as [-> ->]. auto.
Qed.
Lemma ended_same t r s : y_cur (startup_ended t r s) = y_cur s /\ length (y_tasks (startup_ended t r s)) = length (y_tasks s).
Proof.
  unfold startup_ended. cbv zeta. destruct (nth_error _ t) as [k|]; [|auto].
  destruct r as [v|e]; [apply (at_stage_same t _ (log _ s))|].
  destruct e; try (apply (at_stage_same t _ (log _ s))); (destruct (k_loop k); [apply (loop_top_same t (log _ s))|apply (at_stage_same t _ (log _ s))]).
Qed.
Lemma begins_same t r s : y_cur (startup_begins t r s) = y_cur s /\ length (y_tasks (startup_begins t r s)) = length (y_tasks s).
Proof.
  unfold startup_begins. cbv zeta. destruct r as [v|e].
  - destruct (at_stage_same t (KSettle (length (y_apis (log (LAttempt t) s))) (length (y_gws (with_apis (y_apis (log (LAttempt t) s) ++ [mk_api_obj None false]) (log (LAttempt t) s)))))
      (with_gws (y_gws (with_apis (y_apis (log (LAttempt t) s) ++ [mk_api_obj None false]) (log (LAttempt t) s)) ++ [mk_gateway true true false (length (y_apis (log (LAttempt t) s)))])
        (with_apis (y_apis (log (LAttempt t) s) ++ [mk_api_obj None false]) (log (LAttempt t) s)))) as [A B]. split; [exact A|exact B].
  - destruct (ended_same t (Err e) (with_apis (y_apis (log (LAttempt t) s) ++ [mk_api_obj None false]) (log (LAttempt t) s))) as [A B]. split; [exact A|exact B].
Qed.
Lemma go_len t r s : length (y_tasks (go_on t r s)) = length (y_tasks s).
Proof.
  unfold go_on. destruct (nth_error _ t) as [k|]; [|reflexivity].
  assert (C : forall k0 s0, length (y_tasks s0) = length (y_tasks s) -> length (y_tasks (at_stage t k0 s0)) = length (y_tasks s)) by (intros k0 s0 E; destruct (at_stage_same t k0 s0) as [_ ->]; exact E).
  destruct (k_stage k) as [| |a g| |r0]; [| | | |reflexivity].
  - destruct r as [v|[]]; try apply loop_top_same. apply C. reflexivity.
  - destruct r as [v|[]]; try apply begins_same. apply C. reflexivity.
  - destruct r as [v|[]]; try apply ended_same; apply C; reflexivity.
  - apply ended_same.
Qed.
Lemma go_cur t r s : (forall k a g, nth_error (y_tasks s) t = Some k -> k_stage k <> KSettle a g) -> y_cur (go_on t r s) = y_cur s.
Proof.
  intro N. unfold go_on. destruct (nth_error _ t) as [k|] eqn:G; [|reflexivity]. specialize (N k).
  assert (C : forall k0 s0, y_cur s0 = y_cur s -> y_cur (at_stage t k0 s0) = y_cur s) by (intros k0 s0 E; destruct (at_stage_same t k0 s0) as [-> _]; exact E).
  destruct (k_stage k) as [| |a g| |r0]; [| | | |reflexivity].
  - destruct r as [v|[]]; try apply loop_top_same. apply C. reflexivity.
  - destruct r as [v|[]]; try apply begins_same. apply C. reflexivity.
  - destruct (N a g eq_refl eq_refl).
  - apply ended_same.
Qed.
Lemma life_same e s : (forall t r, e <> VGo t r) -> y_cur (life_step e s) = y_cur s /\ (length (y_tasks (life_step e s)) <= S (length (y_tasks s)))%nat.
Proof.
  intro N. destruct e as [r| |g|t r]; cbn [life_step]; [| | |destruct (N t r eq_refl)].
  - destruct (begins_same (length (y_tasks s)) r (with_tasks (y_tasks s ++ [mk_coroutine false KBegin]) s)) as [-> ->]. cbn [with_tasks y_cur y_tasks]. rewrite app_length. cbn [length]. split; [reflexivity|lia].
  - destruct (y_cur s) as [a|] eqn:C; [|split; [exact C|cbn [log y_tasks]; lia]]. destruct (api_close_same a s) as [-> ->]. rewrite C. split; [reflexivity|lia].
  - unfold lost. destruct (nth_error _ g) as [x|]; [|split; [reflexivity|lia]]. destruct (g_told x); [split; [reflexivity|lia]|]. cbv zeta.
    destruct (g_open x); [|split; [reflexivity|cbn [log with_gws y_tasks]; lia]]. destruct (nth_error _ _) as [a|]; [|split; [reflexivity|cbn [log with_gws y_tasks]; lia]].
    destruct (a_app a); [|split; [reflexivity|cbn [log with_gws y_tasks]; lia]]. split; [reflexivity|]. cbn [log with_gws with_tasks y_tasks]. rewrite app_length. cbn [length]. lia.
Qed.

(** ** who is at work *)
Definition tasks_of (w : world) : list coroutine := y_tasks (w_life w).
Definition grown (n : nat) (w w' : world) : Prop :=
  (length (tasks_of w) <= length (tasks_of w') <= n + length (tasks_of w))%nat /\
  forall t, at_work w' t -> at_work w t \/ (length (tasks_of w) <= t < length (tasks_of w'))%nat.
Lemma grown_same n w w' : w_life w' = w_life w -> grown n w w'.
Proof. intro E. unfold grown, at_work, tasks_of. rewrite E. split; [lia|auto]. Qed.
Lemma grown_trans n m w w1 w2 : grown n w w1 -> grown m w1 w2 -> grown (n + m) w w2.
Proof. intros [L1 A1] [L2 A2]. split; [lia|]. intros t H. destruct (A2 t H) as [B|B]; [destruct (A1 t B) as [D|D]; [left; exact D|right; lia]|right; lia]. Qed.
Lemma grown_0 n w w1 w2 : grown 0 w w1 -> grown n w1 w2 -> grown n w w2.
Proof. exact (grown_trans 0 n w w1 w2). Qed.
Lemma life_happens e w : w_life (world_step (VLife e) w) = life_step e (w_life w).
Proof. reflexivity. Qed.
Lemma grown_life e n w : (length (y_tasks (life_step e (w_life w))) <= n + length (tasks_of w))%nat -> grown n w (world_step (VLife e) w).
Proof.
  intro U.
  assert (K : forall t k, nth_error (tasks_of w) t = Some k -> nth_error (y_tasks (life_step e (w_life w))) t <> None).
  { intros t k G. destruct (kept_step e (w_life w) t k G) as (k' & -> & _). discriminate. }
  assert (L : (length (tasks_of w) <= length (y_tasks (life_step e (w_life w))))%nat).
  { destruct (length (tasks_of w)) as [|n0] eqn:E; [lia|]. destruct (nth_error (tasks_of w) n0) as [k|] eqn:G; [|apply nth_error_None in G; lia].
    pose proof (proj1 (nth_error_Some _ _) (K n0 k G)). lia. }
  split; [unfold tasks_of at 2 3; rewrite life_happens; lia|].
  intros t (k' & G' & N'). unfold tasks_of at 2. rewrite life_happens in *.
  assert (T : (t < length (y_tasks (life_step e (w_life w))))%nat) by (apply nth_error_Some; congruence).
  destruct (Nat.lt_ge_cases t (length (tasks_of w))) as [H|H]; [left|right; lia].
  destruct (nth_error (tasks_of w) t) as [k|] eqn:G; [|apply nth_error_None in G; lia]. unfold tasks_of in G. exists k. split; [exact G|]. intros r Er.
  assert (D : (exists r1, e = VGo t r1) \/ forall r1, e <> VGo t r1).
  { destruct e as [| | |u r1]; try (right; discriminate). destruct (Nat.eq_dec u t) as [->|Nu]; [left; eauto|right; congruence]. }
  destruct D as [[r1 ->]|D].
  - cbn [life_step] in G'. unfold go_on in G'. rewrite G, Er, G in G'. injection G' as <-. exact (N' r Er).
  - rewrite (stage_kept e (w_life w) t k G D) in G'. injection G' as <-. exact (N' r Er).
Qed.
Lemma grown_go t r w : grown 0 w (world_step (VLife (VGo t r)) w).
Proof. apply grown_life. cbn [life_step]. rewrite go_len. unfold tasks_of. lia. Qed.
Lemma got_life e w : match e with VGotVersion _ _ | VGotDevice _ _ _ => True | _ => False end -> w_life (world_step e w) = w_life w.
Proof. intro N. destruct e; try contradiction; cbn [world_step]; destruct (starting _ _); reflexivity. Qed.
Lemma aside_life w w' : aside_steps w w' -> w_life w' = w_life w.
Proof.
  intros (es & -> & F). induction es as [|e es IH] using rev_ind; [reflexivity|]. apply Forall_app in F. destruct F as [F Fe]. inversion Fe as [|e0 l0 O _]. subst.
  rewrite world_run_snoc, life_other by exact O. apply IH, F.
Qed.

(** ** what start-ups do goes to one API object *)
Definition all_to (a : nat) (ds : list deed) : Prop := Forall (fun d => fst (fst d) = a) ds.
Record Solo (x : whole) : Prop := mk_Solo {
  So_parts : forall t p, b_part (x_boots x t) = Some p -> y_cur (w_life (x_world x)) = Some (r_api p) /\ all_to (r_api p) (b_deeds (x_boots x t));
  So_over : forall t auto ds r at_, In (XOver t auto ds r at_) (x_log x) -> exists a, all_to a ds }.
Definition fine (n : nat) (x x' : whole) : Prop := grown n (x_world x) (x_world x') /\ Solo x'.
Lemma solo_cur e x : y_cur (w_life (world_step e (x_world x))) = y_cur (w_life (x_world x)) -> Solo x -> Solo (happens e x).
Proof. intros E [P O]. constructor; cbn [happens x_world x_boots x_log]; [rewrite E; exact P|exact O]. Qed.
Lemma solo_asleep t x : Solo x -> Solo (falls_asleep t x).
Proof. intros [P O]. constructor; rewrite ?asleep_world, ?asleep_boots, ?asleep_log; assumption. Qed.
Lemma solo_boot t b x : (forall p, b_part b = Some p -> y_cur (w_life (x_world x)) = Some (r_api p) /\ all_to (r_api p) (b_deeds b)) -> Solo x -> Solo (put_boot t b x).
Proof.
  intros B [P O]. constructor; [|exact O]. cbn [put_boot x_boots x_world]. intro u. destruct (Nat.eq_dec u t) as [->|N]; [rewrite put_at_same; exact B|rewrite put_at_other by exact N; apply P].
Qed.
Lemma solo_note o x : match o with XOver _ _ ds _ _ => exists a, all_to a ds | _ => True end -> Solo x -> Solo (xnote o x).
Proof.
  intros H [P O]. constructor; [exact P|]. cbn [xnote x_log]. intros t auto ds r at_ Hi. apply in_app_or in Hi as [Hi|[->|[]]]; [eapply O, Hi|exact H].
Qed.
Lemma starting_stage w t : starting w t = true -> forall k a g, nth_error (y_tasks (w_life w)) t = Some k -> k_stage k <> KSettle a g.
Proof. unfold starting. intros S k a g G E. rewrite G, E in S. discriminate S. Qed.
Lemma fine_over t r p x : starting (x_world x) t = true -> b_part (x_boots x t) = Some p -> Solo x -> fine 0 x (attempt_over t r x).
Proof.
  intros S B X. unfold attempt_over. split; [rewrite asleep_world; apply grown_go|]. apply solo_asleep, solo_boot; [discriminate|].
  apply solo_note; [exists (r_api p); apply (So_parts x X t p B)|]. apply solo_cur; [|exact X]. rewrite life_happens. apply go_cur, starting_stage, S.
Qed.
Lemma fine_next t q p x : starting (x_world x) t = true -> b_part (x_boots x t) = Some p -> Solo x -> fine 0 x (next_part t q x).
Proof.
  intros S B X. unfold next_part. destruct (y_cur (w_life (x_world x))) as [a|] eqn:C; [|apply (fine_over t _ p); assumption].
  split; [apply grown_same; reflexivity|]. apply solo_boot; [|exact X]. intros p' [= <-]. cbn [r_api b_deeds]. split; [exact C|].
  destruct (So_parts x X t p B) as [C' A]. rewrite C in C'. injection C' as ->. exact A.
Qed.
Lemma fine_trans x x1 n x2 : fine 0 x x1 -> fine n x1 x2 -> fine n x x2.
Proof. intros [A _] [B S]. split; [eapply grown_0; eassumption|exact S]. Qed.
Lemma fine_got e x : match e with VGotVersion _ _ | VGotDevice _ _ _ => True | _ => False end -> Solo x -> fine 0 x (happens e x).
Proof. intros N X. split; [apply grown_same, got_life, N|]. apply solo_cur; [rewrite got_life by exact N; reflexivity|exact X]. Qed.
Lemma fine_boot_goes c t x : XInv c x -> Solo x -> fine 0 x (boot_goes c t x).
Proof.
  intros I X. pose proof (I_boots c x I t) as B. unfold boot_goes. unfold boot_ok in B.
  destruct (b_part (x_boots x t)) as [p|] eqn:Bp; [|split; [apply grown_same; reflexivity|exact X]]. destruct B as (S & pre & p0 & l & E & F & L).
  assert (Rest : fine 0 x (let '(w, p', ds) := part_goes p (x_world x) in
        put_boot t (mk_boot (b_auto (x_boots x t)) (Some p') (b_deeds (x_boots x t) ++ ds)) (mk_whole w (x_boots x) (x_until x) (x_log x)))).
  { pose proof (part_goes_ok (x_world x) p0 p l L) as Q. destruct (part_goes p (x_world x)) as [[w' p'] ds]. destruct Q as (A & Ea & l' & -> & _). apply aside_life in A.
    split; [apply grown_same; exact A|]. apply solo_boot.
    - cbn [b_part b_deeds x_world]. intros q [= <-]. destruct (So_parts x X t p Bp) as [C D]. rewrite A, Ea. split; [exact C|]. apply Forall_app. split; [exact D|]. apply Forall_forall. intros d Hd. unfold deeds_of in Hd. apply in_map_iff in Hd as (y & <- & _). reflexivity.
    - destruct X as [P O]. constructor; [|exact O]. cbn [x_boots x_world]. rewrite A. exact P. }
  destruct (r_place p) as [[v|e|sub cmd d x0 k|m to k|o k|sub cmd d k]|t0 sub cmd d x0 k|t0 m k]; try exact Rest; clear Rest.
  - destruct v as [|product|r|ieee nwk].
    + apply (fine_next t _ p); assumption.
    + cbv zeta. pose proof (fine_got (VGotVersion t product) x Logic.I X) as H. apply (fine_trans _ _ _ _ H). destruct H as [_ X1].
      assert (S1 : starting (x_world (happens (VGotVersion t product) x)) t = true) by (rewrite got_starting; [exact S|exact Logic.I]).
      destruct (known_product product); [apply (fine_next t _ p)|apply (fine_over t _ p)]; assumption.
    + destruct (set_led _ _) as [[|z zs]|e]; [apply (fine_next t _ p); assumption| |apply (fine_over t _ p); assumption].
      assert (K : fine 0 x (led_off t x) /\ b_part (x_boots (led_off t x) t) = Some p).
      { assert (Z : fine 0 x x) by (split; [apply grown_same; reflexivity|exact X]). unfold led_off. destruct (y_cur _) as [a|] eqn:C; [|auto]. destruct (nth_error _ a) as [m|]; [|auto].
        split; [|cbn [put_boot x_boots]; rewrite put_at_same; exact Bp].
        assert (Lf : forall j, w_life (world_step (VApiCall a j) (x_world x)) = w_life (x_world x)) by (intro j; apply life_other; reflexivity).
        split; [apply grown_same, Lf|]. apply solo_boot; [|apply solo_cur; [rewrite Lf; reflexivity|exact X]].
        cbn [b_part b_deeds happens x_world]. rewrite Lf. intros q Hq. rewrite Bp in Hq. injection Hq as <-. destruct (So_parts x X t p Bp) as [C' D]. split; [exact C'|].
        apply Forall_app. split; [exact D|]. constructor; [|constructor]. cbn [fst]. congruence. }
      destruct K as [K Bl]. apply (fine_trans _ _ _ _ K). apply (fine_next t _ p); [rewrite led_starting; exact S|exact Bl|apply K].
    + pose proof (fine_got (VGotDevice t ieee nwk) x Logic.I X) as H. apply (fine_trans _ _ _ _ H). destruct H as [_ X1].
      apply (fine_over t _ p); [rewrite got_starting; [exact S|exact Logic.I]|exact Bp|exact X1].
  - apply (fine_over t _ p); assumption.
Qed.
Definition one_at_work (w : world) : Prop := forall t u, at_work w t -> at_work w u -> t = u.
Lemma starting_work w t : starting w t = true -> at_work w t.
Proof. unfold starting, at_work. destruct (nth_error _ t) as [k|]; [|discriminate]. intro S. exists k. split; [reflexivity|]. intros r E. rewrite E in S. discriminate S. Qed.
Lemma fine_step c e x : XInv c x -> one_at_work (x_world x) -> Solo x -> fine 1 x (whole_step c e x).
Proof.
  intros I W X. destruct e as [auto r|t|e]; cbn [whole_step].
  - split; [rewrite asleep_world; apply grown_life, life_same; discriminate|]. apply solo_asleep, solo_boot; [discriminate|]. unfold tries. apply solo_note; [exact Logic.I|].
    apply solo_cur; [|exact X]. rewrite life_happens. apply life_same; discriminate.
  - destruct (fine_boot_goes c t x I X) as [G S]. split; [|exact S]. split; [destruct G; lia|apply G].
  - destruct (from_outside x e) eqn:O; [|split; [apply grown_same; reflexivity|exact X]].
    assert (Other : other_event e = true -> fine 1 x (happens e x)).
    { intro Oe. split; [apply grown_same, life_other, Oe|]. apply solo_cur; [rewrite life_other by exact Oe; reflexivity|exact X]. }
    destruct e as [| | | | | | | | | |e| |]; try (apply Other; reflexivity); try discriminate O. clear Other.
    assert (Life : (forall u r, e <> VGo u r) -> fine 1 x (happens (VLife e) x)).
    { intro Ne. split; [apply grown_life, life_same, Ne|]. apply solo_cur; [rewrite life_happens; apply life_same, Ne|exact X]. }
    destruct e as [r| |g|t r]; try (apply Life; discriminate). clear Life. cbv zeta.
    set (x1 := match stage_of (x_world x) t with Some KSleep => _ | _ => _ end).
    assert (H1 : Solo x1 /\ x_world x1 = x_world x /\ x_boots x1 = x_boots x /\ XInv c x1).
    { assert (Y : Solo (tries t x) /\ x_world (tries t x) = x_world x /\ x_boots (tries t x) = x_boots x /\ XInv c (tries t x)) by (split; [apply solo_note; [exact Logic.I|exact X]|split; [reflexivity|split; [reflexivity|apply xinv_tries, I]]]).
      unfold x1. destruct (stage_of (x_world x) t) as [[]|]; auto. destruct r as [v|[]]; auto. }
    destruct H1 as (X1 & E1 & B1 & _). clearbody x1.
    assert (S : starting (x_world x) t = false).
    { cbn [from_outside] in O. unfold starting. unfold stage_of in O. destruct (nth_error (y_tasks (w_life (x_world x))) t) as [k|]; [|reflexivity]. cbn [option_map] in O. destruct (k_stage k); try reflexivity. discriminate O. }
    assert (N : b_part (x_boots x t) = None /\ b_deeds (x_boots x t) = []).
    { pose proof (I_boots c x I t) as B. unfold boot_ok in B. destruct (b_part (x_boots x t)); [destruct B; congruence|split; [reflexivity|apply B]]. }
    assert (X2 : Solo (happens (VLife (VGo t r)) x1)).
    { destruct (nth_error (y_tasks (w_life (x_world x))) t) as [k|] eqn:G.
      - assert (D : (exists a g, k_stage k = KSettle a g) \/ forall a g, k_stage k <> KSettle a g) by (destruct (k_stage k); eauto; right; discriminate).
        destruct D as [(a & g & D)|D].
        + constructor; [|exact (So_over x1 X1)]. cbn [happens x_boots x_world]. rewrite B1. intros u p Bu. pose proof (I_boots c x I u) as B. unfold boot_ok in B. rewrite Bu in B. destruct B as [Su _].
          assert (U : u = t) by (apply W; [apply starting_work, Su|exists k; split; [exact G|congruence]]). subst u. congruence.
        + apply solo_cur; [|exact X1]. rewrite life_happens, E1. apply go_cur. intros k0 a g G0. rewrite G in G0. injection G0 as <-. apply D.
      - apply solo_cur; [|exact X1]. rewrite life_happens, E1. apply go_cur. intros k0 a g G0. congruence. }
    set (x2 := falls_asleep t (happens (VLife (VGo t r)) x1)).
    assert (X3 : Solo x2) by (apply solo_asleep, X2).
    assert (G2 : grown 0 (x_world x) (x_world x2)) by (unfold x2; rewrite asleep_world; cbn [happens x_world]; rewrite E1; apply grown_go).
    assert (N2 : b_part (x_boots x2 t) = None /\ b_deeds (x_boots x2 t) = []) by (unfold x2; rewrite asleep_boots; cbn [happens x_boots]; rewrite B1; exact N).
    assert (F : fine 0 x x2) by (split; assumption).
    assert (F1 : forall y, fine 0 x y -> fine 1 x y) by (intros y [[? ?] ?]; split; [split; [lia|assumption]|assumption]). apply F1. clear F1.
    destruct (starting (x_world x2) t) eqn:S2; [|exact F]. clearbody x2. apply (fine_trans _ _ _ _ F). unfold next_part.
    destruct (y_cur (w_life (x_world x2))) as [a|] eqn:C.
    + split; [apply grown_same; reflexivity|]. apply solo_boot; [|exact X3]. intros p' [= <-]. cbn [r_api b_deeds]. split; [exact C|]. destruct N2 as [_ ->]. constructor.
    + unfold attempt_over. split; [rewrite asleep_world; apply grown_go|]. apply solo_asleep, solo_boot; [discriminate|].
      apply solo_note; [exists 0%nat; destruct N2 as [_ ->]; constructor|]. apply solo_cur; [|exact X3]. rewrite life_happens. apply go_cur, starting_stage, S2.
Qed.
Lemma solo_run c es x : XInv c x -> one_at_work (x_world x) -> Solo x -> one_by_one c es x ->
  one_at_work (x_world (whole_run c es x)) /\ Solo (whole_run c es x).
Proof.
  revert x. induction es as [|e es IH]; intros x I W X H; [auto|]. destruct H as [H Hs]. destruct (fine_step c e x I W X) as [[L G] X'].
  apply (IH (whole_step c e x)); [apply xinv_step, I| |exact X'|exact Hs].
  intros t u Ht Hu. unfold coroutines in H. fold (tasks_of (x_world x)) in H. fold (tasks_of (x_world (whole_step c e x))) in H.
  destruct (Nat.lt_ge_cases (length (tasks_of (x_world x))) (length (tasks_of (x_world (whole_step c e x))))) as [Y|Y].
  - specialize (H Y). destruct (G t Ht) as [A|A]; [destruct (H t A)|]. destruct (G u Hu) as [B|B]; [destruct (H u B)|]. lia.
  - destruct (G t Ht) as [A|A]; [|lia]. destruct (G u Hu) as [B|B]; [|lia]. apply W; assumption.
Qed.
Lemma solo_init c es devs : one_by_one c es (whole_init devs) -> one_at_work (x_world (whole_run c es (whole_init devs))) /\ Solo (whole_run c es (whole_init devs)).
Proof.
  apply solo_run; [apply xinv_init| |].
  - intros t u (k & G & _). destruct t; discriminate G.
  - constructor; [discriminate|intros t auto ds r at_ []].
Qed.
Lemma serial_one c es devs : one_by_one c es (whole_init devs) -> forall t u, at_work (x_world (whole_run c es (whole_init devs))) t -> at_work (x_world (whole_run c es (whole_init devs))) u -> t = u.
Proof. intro H. apply (solo_init c es devs H). Qed.
Lemma serial_link c es devs t auto ds : one_by_one c es (whole_init devs) -> attempted (whole_run c es (whole_init devs)) t auto ds ->
  exists a l, ds = made_to a l.
Proof.
  intros H A. destruct (solo_init c es devs H) as [_ [P O]].
  assert (K : exists a, all_to a ds).
  { destruct A as [(r & at_ & A)|(p & B & _ & ->)]; [eapply O, A|]. destruct (P t p B) as [_ D]. exists (r_api p). apply Forall_app. split; [exact D|].
    destruct (r_place p); repeat constructor. }
  destruct K as [a K]. clear A. exists a, (map (fun d => (snd (fst d), snd d)) ds). unfold made_to. rewrite map_map. cbn [fst snd].
  induction K as [|[[b u] y] l E _ IH]; [reflexivity|]. cbn [map fst snd] in *. subst b. f_equal. exact IH.
Qed.
Lemma serial_current c es devs t p : one_by_one c es (whole_init devs) -> b_part (x_boots (whole_run c es (whole_init devs)) t) = Some p ->
  y_cur (w_life (x_world (whole_run c es (whole_init devs)))) = Some (r_api p).
Proof. intros H B. destruct (solo_init c es devs H) as [_ X]. apply (So_parts _ X t p B). Qed.
(** ** deciding it, for examples *)
Definition over_now (k : coroutine) : bool := match k_stage k with KEnd _ => true | _ => false end.
Fixpoint check_serial (c : nwk_config) (es : list xevent) (x : whole) : bool :=
  match es with
  | [] => true
  | e :: r => let x' := whole_step c e x in ((coroutines x' <=? coroutines x)%nat || forallb over_now (y_tasks (w_life (x_world x)))) && check_serial c r x'
  end.
Lemma check_serial_ok c es x : check_serial c es x = true -> one_by_one c es x.
Proof.
  revert x. induction es as [|e es IH]; intros x H; [exact I|]. cbn [check_serial one_by_one] in *. cbv zeta in H. apply andb_prop in H. destruct H as [H Hs]. split; [|apply IH, Hs].
  intros L t (k & G & N). apply orb_prop in H. destruct H as [H|H]; [apply Nat.leb_le in H; lia|].
  pose proof (proj1 (forallb_forall _ _) H k (nth_error_In _ _ G)) as E. unfold over_now in E. destruct (k_stage k) as [| | | |r]; try discriminate E. exact (N r eq_refl).
Qed.
