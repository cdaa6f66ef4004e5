(** * WholeEnds2: rounds, and how many a start-up takes *)
From Coq Require Import ZifyBool ZifyNat.
From Verif Require Import Base Types Uart Buffalo CmdTable Zpi Api App Machine Life World SpecMachine SpecProgress SpecLife SpecWorld SpecWorldProgress
  MachineBase MachineInv MachineInv2 MachineInv5 MachineProofs4 MachineProgress LifeProofs2 LifeProofs3 WorldInv WorldBase WorldLife WorldProofs2 WorldProofs3 WorldProofs4 WorldProgress WorldProgress2
  Nv StartZnp AppStart SpecStart Host HostProofs SpecHost SpecEnds StartProofs StartProofs5 StartLink AppStartProofs StartSend HostEnds
  Whole WholeInv WholeHost WholeBlind WholeBase WorldOwn WholeProofs WholeProofs2 WholeProofs3 SpecWhole WholeProofs4 WholeTime WholeInd WholeOwn WholeParts SpecWholeEnds WholeEnds.

(** ** the log of attempts only grows *)
Lemma xlog_step c e x : XInv c x -> exists l, x_log (whole_step c e x) = x_log x ++ l.
Proof.
  intro X. apply (px_step (fun _ l => exists m, l = x_log x ++ m)) with (c := c) (e := e) (x := x); try exact X.
  - auto.
  - intros r w l _ (m & ->) w'. rewrite <- app_assoc. eauto.
  - intros t w l _ _ (m & ->). rewrite <- app_assoc. eauto.
  - intros t auto ds r w l _ _ (m & ->). rewrite <- app_assoc. eauto.
  - exists []. rewrite app_nil_r. reflexivity.
Qed.
Lemma xlog_run c es : forall x, XInv c x -> exists l, x_log (whole_run c es x) = x_log x ++ l.
Proof.
  induction es as [|e es IH]; intros x X; [exists []; rewrite app_nil_r; reflexivity|].
  destruct (xlog_step c e x X) as (l & E). destruct (IH _ (xinv_step c e x X)) as (l' & E'). exists (l ++ l'). rewrite app_assoc, <- E. exact E'.
Qed.
Lemma ended_later c es x y t : XInv c y -> ended_in x y t -> ended_in x (whole_run c es y) t.
Proof.
  intros X (l & auto & ds & r & at_ & E & Hi). destruct (xlog_run c es y X) as (l' & E'). exists (l ++ l'), auto, ds, r, at_.
  split; [rewrite app_assoc, <- E; exact E'|apply in_or_app; left; exact Hi].
Qed.
Lemma ended_earlier c es x y t : XInv c x -> ended_in (whole_run c es x) y t -> ended_in x y t.
Proof.
  intros X (l & auto & ds & r & at_ & E & Hi). destruct (xlog_run c es x X) as (l' & E'). exists (l' ++ l), auto, ds, r, at_.
  split; [rewrite app_assoc, <- E'; exact E|apply in_or_app; right; exact Hi].
Qed.

(** ** any run *)
Lemma any_xstep c e x t p m : XInv c x -> b_part (x_boots x t) = Some p -> to_do p m -> let x' := whole_step c e x in
  ended_in x x' t \/ (exists p' m', b_part (x_boots x' t) = Some p' /\ (m' < m)%nat /\ to_do p' m') \/ b_part (x_boots x' t) = Some p.
Proof.
  intros X B H x'. assert (D : e = XGo t \/ e <> XGo t).
  { destruct e as [auto r|u|e]; try (right; discriminate). destruct (Nat.eq_dec u t) as [->|N]; [left; reflexivity|right; congruence]. }
  destruct D as [->|N].
  - unfold x'. cbn [whole_step]. destruct (go_moves c t x p m X B H) as [[E _]|[[E _]|E]]; auto.
  - right. right. apply (step_other c e x t X N), B.
Qed.
Lemma any_xrun c es t : forall x p m, XInv c x -> b_part (x_boots x t) = Some p -> to_do p m -> let x' := whole_run c es x in
  ended_in x x' t \/ (exists p' m', b_part (x_boots x' t) = Some p' /\ (m' < m)%nat /\ to_do p' m') \/ b_part (x_boots x' t) = Some p.
Proof.
  induction es as [|e es IH]; intros x p m X B H x'; [right; right; exact B|]. unfold x'. change (whole_run c (e :: es) x) with (whole_run c es (whole_step c e x)).
  pose proof (xinv_step c e x X) as X1.
  assert (Earlier : ended_in (whole_step c e x) (whole_run c es (whole_step c e x)) t -> ended_in x (whole_run c es (whole_step c e x)) t)
    by apply (ended_earlier c [e] x _ t X).
  destruct (any_xstep c e x t p m X B H) as [E|[(p1 & m1 & B1 & L1 & H1)|B1]].
  - left. apply ended_later; assumption.
  - destruct (IH _ _ _ X1 B1 H1) as [E|[(p2 & m2 & B2 & L2 & H2)|B2]]; [left; auto|right; left; exists p2, m2; repeat split; [exact B2|lia|exact H2]|].
    right. left. exists p1, m1. auto.
  - destruct (IH _ _ _ X1 B1 H) as [E|[E|E]]; auto.
Qed.
(** every start-up has at most 108 steps to go *)
Lemma all_to_do c x : xreachable c x -> forall t p, b_part (x_boots x t) = Some p -> to_do p 108.
Proof.
  intros (devs & es & ->). induction es as [|e es IH] using rev_ind; [intros t p; discriminate|]. rewrite xrun_app. set (x := whole_run c es (whole_init devs)) in *.
  assert (X : XInv c x) by apply xinv_run, xinv_init. change (whole_run c [e] x) with (whole_step c e x). intros t p B.
  destruct (b_part (x_boots x t)) as [p0|] eqn:B0.
  - specialize (IH t p0 B0).
    assert (D : e = XGo t \/ e <> XGo t).
    { destruct e as [auto r|u|e]; try (right; discriminate). destruct (Nat.eq_dec u t) as [->|N]; [left; reflexivity|right; congruence]. }
    destruct D as [->|N].
    + cbn [whole_step] in B. destruct (go_moves c t x p0 108 X B0 IH) as [[_ E]|[[E _]|(p' & m' & E & L & H)]]; rewrite E in B; try discriminate B; injection B as <-; [exact IH|].
      eapply to_do_weaken; [|exact H]. lia.
    + rewrite (proj1 (step_other c e x t X N) p0 B0) in B. injection B as <-. exact IH.
  - assert (N : e <> XGo t) by (intros ->; cbn [whole_step] in B; unfold boot_goes in B; rewrite B0 in B; congruence).
    destruct (proj2 (step_other c e x t X N) B0 p B) as (a & ->). eapply to_do_new; [apply ping_fits|apply ping_ends|lia|lia].
Qed.

(** ** who can go on, can go on later *)
Lemma ext_of c es x : XInv c x -> ext (x_world x) (x_world (whole_run c es x)).
Proof. intro X. destruct (flat_exists c es x) as (fs & F). rewrite (flat_world _ _ _ _ F). apply ext_run, (I_world c x X). Qed.
Lemma may_go_later w w' p : ext w w' -> may_go w p -> may_go w' p.
Proof.
  intros X. unfold may_go.
  assert (K : forall u, (exists s, nth_error (w_apis w) (r_api p) = Some s /\ came_back s u <> None) -> exists s, nth_error (w_apis w') (r_api p) = Some s /\ came_back s u <> None).
  { intros u (s & A & C). destruct (X _ _ A) as (s' & A' & Y). exists s'. split; [exact A'|]. unfold came_back in *. destruct (get s u) as [k|] eqn:G; [|congruence].
    rewrite (done_xs s s' u k Y G); [exact C|]. destruct (t_phase k); try reflexivity; exfalso; apply C; reflexivity. }
  destruct (r_place p); auto.
Qed.
Lemma its_turn c r x t p m : XInv c x -> b_part (x_boots x t) = Some p -> to_do p m -> may_go (x_world x) p -> In (XGo t) r -> let x' := whole_run c r x in
  ended_in x x' t \/ exists p' m', b_part (x_boots x' t) = Some p' /\ (m' < m)%nat /\ to_do p' m'.
Proof.
  intros X B H M Hi. apply in_split in Hi as (r1 & r2 & ->). rewrite xrun_app. set (x1 := whole_run c r1 x).
  change (whole_run c (XGo t :: r2) x1) with (whole_run c r2 (boot_goes c t x1)). assert (X1 : XInv c x1) by apply xinv_run, X.
  pose proof (xinv_step c (XGo t) x1 X1) as X2. cbn [whole_step] in X2. cbv zeta.
  assert (Ea : forall y, ended_in x1 y t -> ended_in x y t) by (intros y; apply (ended_earlier c r1 x y t X)).
  assert (Eb : forall y, ended_in (boot_goes c t x1) y t -> ended_in x1 y t) by (intros y; apply (ended_earlier c [XGo t] x1 y t X1)).
  assert (Go : forall p1 m1, b_part (x_boots (boot_goes c t x1) t) = Some p1 -> (m1 < m)%nat -> to_do p1 m1 ->
    ended_in x (whole_run c r2 (boot_goes c t x1)) t \/ exists p' m', b_part (x_boots (whole_run c r2 (boot_goes c t x1)) t) = Some p' /\ (m' < m)%nat /\ to_do p' m').
  { intros p1 m1 B1 L1 H1. destruct (any_xrun c r2 t _ _ _ X2 B1 H1) as [E|[(p2 & m2 & B2 & L2 & H2)|B2]]; [left; auto|right..].
    - exists p2, m2. repeat split; [exact B2|lia|exact H2].
    - exists p1, m1. auto. }
  pose proof (any_xrun c r1 t x p m X B H) as D. cbv zeta in D. fold x1 in D. destruct D as [E|[(p1 & m1 & B1 & L1 & H1)|B1]].
  - left. apply ended_later; [exact X2|]. apply (ended_later c [XGo t] x x1 t X1 E).
  - destruct (any_xstep c (XGo t) x1 t p1 m1 X1 B1 H1) as [E|[(p2 & m2 & B2 & L2 & H2)|B2]]; cbn [whole_step] in *.
    + left. apply ended_later; [exact X2|]. apply Ea, E.
    + apply (Go p2 m2 B2); [lia|exact H2].
    + apply (Go p1 m1 B2); assumption.
  - destruct (go_moves c t x1 p m X1 B1 H) as [[E _]|[[_ N]|(p1 & m1 & B2 & L1 & H1)]].
    + left. apply ended_later; [exact X2|]. apply Ea, E.
    + exfalso. apply N. eapply may_go_later; [|exact M]. apply ext_of, X.
    + eapply Go; eassumption.
Qed.

(** ** when nobody is unfinished, every start-up can go on *)
Lemma far_part c auto w ds p : so_far c auto w ds p -> version_part p \/ exists v, p = part_form (version_of v) c.
Proof.
  unfold version_part. intros [|a1 ds1 D|a1 ds1 a2 ds2 z q D1 D2 K Q|]; auto. destruct auto; [right|auto]. destruct (known_firmware z K) as [v ->]. eauto.
Qed.
Lemma ended_done k : ended (t_phase k) = true -> exists r, t_phase k = PDone r.
Proof. destruct (t_phase k); try discriminate. eauto. Qed.
Lemma ends_may_go c x t p : valid_config c -> XInv c x -> b_part (x_boots x t) = Some p -> wends (x_world x) -> may_go (x_world x) p.
Proof.
  intros V X B [E _]. pose proof (I_boots c x X t) as Bo. unfold boot_ok in Bo. rewrite B in Bo. destruct Bo as (_ & pre & p0 & l & _ & F & L).
  pose proof (far_part _ _ _ _ _ F) as P0. pose proof (leg_acts _ _ _ _ _ _ c V L P0) as Se. destruct L as (s & A & G). specialize (E _ _ A). pose proof (G_path _ _ G) as Pa.
  unfold goes_path in Pa. cbn [h_place h_st] in Pa. unfold may_go. destruct (r_place p) as [q|u sub cmd d y k|u m k]; [exact I| |]; exists s; (split; [exact A|]); unfold came_back.
  - destruct Pa as [(kk & Gk & J) _]. rewrite Gk. destruct (ended_done kk (E u kk Gk)) as (r & Pk). rewrite Pk.
    pose proof (V_ended s (G_api _ _ G) u kk Gk) as En. unfold EndedW1 in En. rewrite Pk, J in En. destruct En as [(m & to & En)|[->|R]]; [discriminate En|discriminate|].
    destruct (reason_answers s u sub cmd d y r (V_received s (G_api _ _ G)) R) as [(r' & -> & _)|(_ & o & Fo & To & No)]; [destruct r'; discriminate|].
    exfalso. destruct (Se u (ARequest sub cmd d y None)) as [(o' & f' & F' & K' & _) _]; [apply in_or_app; right; left; reflexivity|].
    assert (o' = o) by congruence. subst o'. unfold answered_kind in K'. rewrite To in K'. apply No, is_reset, K'.
  - destruct Pa as (to & (kk & Gk & J) & _). rewrite Gk. destruct (ended_done kk (E u kk Gk)) as (r & Pk). rewrite Pk.
    pose proof (G_waits _ _ G u kk Gk) as H. cbn [h_st] in H. unfold Heard1 in H. rewrite Pk in H. destruct (H m to J) as [(e & -> & _)|(z & i & -> & _)]; discriminate.
Qed.

(** ** what there is to do *)
Lemma apis_sum (f : st -> Z) l : forall l', (forall a s, nth_error l a = Some s -> exists s', nth_error l' a = Some s' /\ f s' <= f s) ->
  (forall s, In s l' -> f s <= 0) -> zsum f l' <= zsum f l.
Proof.
  induction l as [|s l IH]; intros l' H N.
  - cbn [zsum]. clear H. induction l' as [|s l' IH]; cbn [zsum]; [lia|]. pose proof (N s (or_introl eq_refl)). specialize (IH (fun s' h => N s' (or_intror h))). lia.
  - destruct (H 0%nat s eq_refl) as (s' & A & L). destruct l' as [|s0 l']; [discriminate A|]. injection A as ->. cbn [zsum].
    specialize (IH l' (fun a => H (S a)) (fun s0 h => N s0 (or_intror h))). lia.
Qed.
Lemma exchanges_sum w : zsum (fun s => - calls (s_log s)) (w_apis w) = - exchanges w.
Proof. unfold exchanges. induction (w_apis w) as [|s l IH]; cbn [zsum fold_right]; lia. Qed.
Lemma waiting_sum w : zsum (fun s => Z.of_nat (length (pending (s_log s))) - calls (s_log s)) (w_apis w) = waiting_tasks w - exchanges w.
Proof. unfold waiting_tasks, exchanges. induction (w_apis w) as [|s l IH]; cbn [zsum fold_right]; lia. Qed.
Lemma pending_grown l m : Z.of_nat (length (pending (l ++ m))) - calls (l ++ m) <= Z.of_nat (length (pending l)) - calls l.
Proof.
  unfold pending. rewrite fold_left_app, calls_app. pose proof (pending_fold m (fold_left wait_step l [])) as H. change wait_step with
    (fun (q : list Z) (x : obs) => match x with OCalled t => q ++ [t] | OEnded t _ => without t q | _ => q end) in H. lia.
Qed.
Lemma exchanges_grow w w' : ext w w' -> exchanges w <= exchanges w' /\ waiting_tasks w' - exchanges w' <= waiting_tasks w - exchanges w.
Proof.
  intro X. split.
  - enough (- exchanges w' <= - exchanges w) by lia. rewrite <- !exchanges_sum. apply apis_sum.
    + intros a s A. destruct (X a s A) as (s' & A' & Y). exists s'. split; [exact A'|]. destruct (log_xs _ _ Y) as (l & ->). rewrite calls_app. pose proof (calls_nonneg l). lia.
    + intros s _. pose proof (calls_nonneg (s_log s)). lia.
  - rewrite <- !waiting_sum. apply apis_sum.
    + intros a s A. destruct (X a s A) as (s' & A' & Y). exists s'. split; [exact A'|]. destruct (log_xs _ _ Y) as (l & ->). apply pending_grown.
    + intros s _. apply (pending_grown [] (s_log s)).
Qed.
Lemma filter_le {A} (f g : A -> bool) l : (forall a, f a = true -> g a = true) -> (length (filter f l) <= length (filter g l))%nat.
Proof.
  intro H. induction l as [|a l IH]; [apply le_n|]. cbn [filter]. specialize (H a). destruct (f a); [rewrite H by reflexivity; cbn [length]; lia|]. destruct (g a); cbn [length]; lia.
Qed.
Lemma filter_all {A} (f : A -> bool) l : (length (filter f l) <= length l)%nat.
Proof. induction l as [|a l IH]; [apply le_n|]. cbn [filter]. destruct (f a); cbn [length]; lia. Qed.
Lemma ops_grow l m : (length (called_ops l) <= length (called_ops (l ++ m)) /\
  length (unfinished_ops (l ++ m)) + length (called_ops l) <= length (unfinished_ops l) + length (called_ops (l ++ m)) /\
  length (admitted_ops l) <= length (admitted_ops (l ++ m)))%nat.
Proof.
  unfold unfinished_ops, called_ops, ended_ops, admitted_ops. rewrite !flat_map_app. rewrite filter_app, !app_length. split; [lia|]. split; [|lia].
  match goal with |- (length (filter ?f ?a) + length (filter _ ?b) + _ <= length (filter ?g _) + _)%nat =>
    pose proof (filter_le f g a) as H; pose proof (filter_all f b) as H1 end.
  enough (H0 : forall a, negb (existsb (Nat.eqb a) (flat_map (fun o => match o with WEnded n _ => [n] | _ => [] end) l ++ flat_map (fun o => match o with WEnded n _ => [n] | _ => [] end) m)) = true ->
    negb (existsb (Nat.eqb a) (flat_map (fun o => match o with WEnded n _ => [n] | _ => [] end) l)) = true) by (specialize (H H0); lia).
  intros a. rewrite existsb_app, negb_orb, andb_true_iff. tauto.
Qed.
Lemma burden_less w f g : wreachable w -> let w1 := world_run f w in let e := world_run g w1 in
  burden w1 e <= burden w e /\ burden w w1 <= burden w e /\ 0 <= burden w e.
Proof.
  intros R w1 e. pose proof (wreach_run w f R) as R1. fold w1 in R1.
  destruct (exchanges_grow w w1 (ext_run w f R)) as [A1 A2]. destruct (exchanges_grow w1 e (ext_run w1 g R1)) as [B1 _].
  destruct (log_run w f R) as [l El]. fold w1 in El. destruct (log_run w1 g R1) as [m Em]. fold e in Em.
  destruct (ops_grow (w_log w) l) as (C1 & C2 & _). rewrite <- El in C1, C2. destruct (ops_grow (w_log w1) m) as (D1 & _ & _). rewrite <- Em in D1.
  assert (W : 0 <= waiting_tasks w) by (unfold waiting_tasks; induction (w_apis w) as [|s k IH]; cbn [fold_right]; lia).
  unfold burden, operations. lia.
Qed.
Lemma burden_wwork w f : wreachable w -> let e := world_run f w in
  wwork w + 9 * (Z.of_nat (length (w_ops e)) - Z.of_nat (length (w_ops w))) + 7 * (others_called e - others_called w) <= burden w e.
Proof.
  intros R e. pose proof (wreach_run w f R) as Re. fold e in Re. pose proof (work_waiting w R) as B1. pose proof (ops_unfinished w R) as B2.
  rewrite <- !called_ops_length, <- !other_calls_ntid by assumption. destruct (log_run w f R) as [l El]. fold e in El.
  destruct (ops_grow (w_log w) l) as (_ & _ & C). rewrite <- El in C. unfold wwork, burden, other_calls, operations. fold (exchanges w). fold (exchanges e). lia.
Qed.

(** ** enough rounds for one step *)
Lemma xrounds_app c T r1 r2 : forall x, xserving_rounds c T x (r1 ++ r2) -> xserving_rounds c T x r1 /\ xserving_rounds c T (whole_run c (concat r1) x) r2.
Proof.
  induction r1 as [|r r1 IH]; intros x H; [split; [exact I|exact H]|]. cbn [app xserving_rounds concat] in *. destruct H as [H1 H2]. rewrite xrun_app.
  destruct (IH _ H2). split; [split; assumption|assumption].
Qed.
Lemma xreach_run c es x : xreachable c x -> xreachable c (whole_run c es x).
Proof. intros (devs & es0 & ->). exists devs, (es0 ++ es). rewrite xrun_app. reflexivity. Qed.
Lemma part_asking c x t p : XInv c x -> b_part (x_boots x t) = Some p -> asking x t.
Proof.
  intros X B. pose proof (I_boots c x X t) as Bo. unfold boot_ok in Bo. rewrite B in Bo. destruct Bo as [S _]. unfold starting in S. unfold asking.
  destruct (nth_error _ t) as [k|]; [|discriminate S]. exists k. split; [reflexivity|]. destruct (k_stage k); try discriminate S. reflexivity.
Qed.
Lemma asking_part c x t : XInv c x -> asking x t -> exists p, b_part (x_boots x t) = Some p.
Proof.
  intros X (k & G & S). pose proof (I_boots c x X t) as Bo. unfold boot_ok in Bo. destruct (b_part (x_boots x t)) as [p|]; [eauto|]. destruct Bo as [_ Bo].
  unfold starting in Bo. rewrite G, S in Bo. discriminate Bo.
Qed.
Lemma xstage c x t p m T rs r : valid_config c -> xreachable c x -> b_part (x_boots x t) = Some p -> to_do p m -> 60000 <= T ->
  xserving_rounds c T x (rs ++ [r]) -> burden (x_world x) (x_world (whole_run c (concat rs) x)) <= Z.of_nat (length rs) ->
  let x' := whole_run c (concat (rs ++ [r])) x in
  ended_in x x' t \/ exists p' m', b_part (x_boots x' t) = Some p' /\ (m' < m)%nat /\ to_do p' m'.
Proof.
  intros V R B H HT HF Hlen x'. pose proof (xreach_inv c x R) as X. pose proof (I_world c x X) as Rw.
  apply xrounds_app in HF as [F1 [F2 _]]. destruct (rounds_flat c T rs x F1) as (fss & Lf & Fw & Ew).
  assert (Eall : x_world (whole_run c (concat rs) x) = world_run (concat fss) (x_world x)).
  { specialize (Ew (length rs)). rewrite firstn_all in Ew. rewrite <- Lf, firstn_all in Ew. exact Ew. }
  destruct (wrounds_reach_end T fss (x_world x) Rw ltac:(lia)) as (f1 & f2 & Ef & En).
  - rewrite <- Eall. intros a s A t' k mm to G J. pose proof (waits_short c _ (xreach_run c (concat rs) x R) a s A t' k mm to G J). lia.
  - exact Fw.
  - rewrite Lf. rewrite Eall in Hlen. pose proof (burden_wwork (x_world x) (concat fss) Rw) as Bw. cbv zeta in Bw. lia.
  - specialize (Ew (length f1)). rewrite Ef, firstn_app, Nat.sub_diag, firstn_all in Ew. cbn [firstn] in Ew. rewrite app_nil_r in Ew. rewrite <- Ew in En.
    set (n := length f1) in *. set (x1 := whole_run c (concat (firstn n rs)) x) in *.
    assert (X1 : XInv c x1) by apply xinv_run, X.
    set (x2 := whole_run c (concat rs) x) in *.
    assert (E2 : x2 = whole_run c (concat (skipn n rs)) x1) by (unfold x2, x1; rewrite <- xrun_app, <- concat_app, firstn_skipn; reflexivity).
    assert (X2 : XInv c x2) by apply xinv_run, X.
    assert (E' : x' = whole_run c r x2) by (unfold x', x2; rewrite concat_app, xrun_app; cbn [concat]; rewrite app_nil_r; reflexivity).
    assert (Ea : forall y, ended_in x1 y t -> ended_in x y t) by (intro y; apply (ended_earlier c (concat (firstn n rs)) x y t X)).
    assert (Eb : forall y, ended_in x2 y t -> ended_in x y t) by (intro y; apply (ended_earlier c (concat rs) x y t X)).
    pose proof (any_xrun c (concat (firstn n rs)) t x p m X B H) as D1. cbv zeta in D1. fold x1 in D1. rewrite E'.
    assert (Go : forall p1 m1, b_part (x_boots x2 t) = Some p1 -> (m1 < m)%nat -> to_do p1 m1 -> ended_in x (whole_run c r x2) t \/ exists p' m', b_part (x_boots (whole_run c r x2) t) = Some p' /\ (m' < m)%nat /\ to_do p' m').
    { intros p1 m1 B1 L1 H1. destruct (any_xrun c r t _ _ _ X2 B1 H1) as [E|[(p2 & m2 & B2 & L2 & H2)|B2]]; [left; auto|right..].
      - exists p2, m2. repeat split; [exact B2|lia|exact H2].
      - exists p1, m1. auto. }
    destruct D1 as [E|[(p1 & m1 & B1 & L1 & H1)|B1]].
    + left. rewrite E2. rewrite <- xrun_app. apply ended_later; assumption.
    + pose proof (any_xrun c (concat (skipn n rs)) t x1 p1 m1 X1 B1 H1) as D2. cbv zeta in D2. rewrite <- E2 in D2. destruct D2 as [E|[(p2 & m2 & B2 & L2 & H2)|B2]].
      * left. apply ended_later; [exact X2|apply Ea, E].
      * apply (Go p2 m2 B2); [lia|exact H2].
      * apply (Go p1 m1 B2); assumption.
    + pose proof (ends_may_go c x1 t p V X1 B1 En) as M.
      pose proof (any_xrun c (concat (skipn n rs)) t x1 p m X1 B1 H) as D2. cbv zeta in D2. rewrite <- E2 in D2. destruct D2 as [E|[(p2 & m2 & B2 & L2 & H2)|B2]].
      * left. apply ended_later; [exact X2|apply Ea, E].
      * apply (Go p2 m2 B2); assumption.
      * destruct (its_turn c r x2 t p m X2 B2 H) as [E|E]; [|apply F2, (part_asking c x2 t p X2 B2)|left; apply Eb, E|right; exact E].
        eapply may_go_later; [|exact M]. rewrite E2. apply ext_of, X1.
Qed.
(** ** and for the whole start-up *)
Lemma xends c T t B : valid_config c -> 60000 <= T -> forall m rs x p, xreachable c x -> b_part (x_boots x t) = Some p -> to_do p m ->
  xserving_rounds c T x rs -> burden (x_world x) (x_world (whole_run c (concat rs) x)) <= Z.of_nat B -> (m * S B <= length rs)%nat ->
  ended_in x (whole_run c (concat rs) x) t.
Proof.
  intros V HT. induction m as [m IH] using lt_wf_ind. intros rs x p R Bp H HF HB Hlen.
  destruct m as [|m]; [exfalso; destruct H as (ws & n & K & _ & HK & H); destruct (r_place p); destruct H as (_ & H); try destruct H as (_ & H); lia|].
  assert (S1 : exists r1 r r2, rs = r1 ++ [r] ++ r2 /\ length r1 = B).
  { pose proof (firstn_skipn B rs) as E. assert (L1 : length (firstn B rs) = B) by (rewrite firstn_length; lia).
    assert (L2 : length (skipn B rs) = (length rs - B)%nat) by apply skipn_length.
    destruct (skipn B rs) as [|r r2]; [cbn [length] in L2; lia|]. exists (firstn B rs), r, r2. split; [symmetry; exact E|exact L1]. }
  destruct S1 as (r1 & r & r2 & -> & L1). pose proof (xreach_inv c x R) as X. pose proof (I_world c x X) as Rw.
  assert (HB1 : burden (x_world x) (x_world (whole_run c (concat r1) x)) <= Z.of_nat B).
  { revert HB. rewrite concat_app, xrun_app. destruct (flat_exists c (concat r1) x) as (f & F). rewrite (flat_world _ _ _ _ F).
    destruct (flat_exists c (concat ([r] ++ r2)) (whole_run c (concat r1) x)) as (g & G). rewrite (flat_world _ _ _ _ G), (flat_world _ _ _ _ F).
    destruct (burden_less (x_world x) f g Rw) as (_ & K & _). lia. }
  rewrite app_assoc in *. apply xrounds_app in HF as [F1 F2]. rewrite concat_app, xrun_app in HB |- *. set (x1 := whole_run c (concat (r1 ++ [r])) x) in *.
  assert (R1 : xreachable c x1) by apply xreach_run, R.
  pose proof (xstage c x t p (S m) T r1 r V R Bp H HT F1 ltac:(lia)) as D. cbv zeta in D. fold x1 in D. destruct D as [D|(p' & m' & B' & L' & H')].
  - apply ended_later; [apply xreach_inv, R1|exact D].
  - apply (ended_earlier c (concat (r1 ++ [r])) x _ t X). fold x1. apply (IH m' L' r2 x1 p' R1 B' H' F2).
    + revert HB. destruct (flat_exists c (concat (r1 ++ [r])) x) as (f & F). destruct (flat_exists c (concat r2) x1) as (g & G). rewrite (flat_world _ _ _ _ G).
      unfold x1. rewrite (flat_world _ _ _ _ F). destruct (burden_less (x_world x) f g Rw) as (K & _). lia.
    + rewrite !app_length in Hlen. cbn [length] in Hlen. assert (m' * S B <= m * S B)%nat by (apply Nat.mul_le_mono_r; lia). cbn [Nat.mul] in Hlen. lia.
Qed.
Lemma start_ups_end c x T rs t : valid_config c -> xreachable c x -> asking x t -> 60000 <= T -> xserving_rounds c T x rs ->
  let e := whole_run c (concat rs) x in 108 * (1 + burden (x_world x) (x_world e)) <= Z.of_nat (length rs) ->
  exists l auto ds r at_, x_log e = x_log x ++ l /\ In (XOver t auto ds r at_) l.
Proof.
  intros V R Ha HT HF e Hlen. subst e. pose proof (xreach_inv c x R) as X. destruct (asking_part c x t X Ha) as (p & B).
  set (b := burden _ _) in *.
  assert (Hb : 0 <= b). { unfold b. destruct (flat_exists c (concat rs) x) as (f & F). rewrite (flat_world _ _ _ _ F). apply (burden_less (x_world x) f [] (I_world c x X)). }
  apply (xends c T t (Z.to_nat b) V HT 108 rs x p R B (all_to_do c x R t p B) HF).
  - fold b. lia.
  - apply Nat2Z.inj_le. rewrite Nat2Z.inj_mul. lia.
Qed.
