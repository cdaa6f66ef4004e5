(** * WholeFair: how long a start-up takes when others never stop (proofs for C140, C141) *)
From Coq Require Import ZifyBool ZifyNat.
From Verif Require Import Base Types Uart Buffalo CmdTable Zpi Api App Machine Life World SpecMachine SpecProgress SpecLife SpecWorld SpecWorldProgress
  MachineBase MachineInv MachineInv2 MachineInv5 MachineProofs4 MachineProgress LifeProofs2 LifeProofs3 WorldInv WorldBase WorldLife WorldProofs2 WorldProofs3 WorldProofs4 WorldProgress WorldProgress2
  Nv StartZnp AppStart SpecStart Host HostProofs SpecHost SpecEnds StartProofs StartProofs5 StartLink AppStartProofs StartSend HostEnds
  Whole WholeInv WholeHost WholeBlind WholeBase WorldOwn WholeProofs WholeProofs2 WholeProofs3 SpecWhole WholeProofs4 WholeTime WholeInd WholeOwn WholeParts SpecWholeEnds WholeEnds WholeEnds2 WholeAgain
  SpecFair WorldFair.

Lemma uncrowded_app c M r1 r2 : forall x, uncrowded c M x (r1 ++ r2) -> uncrowded c M x r1 /\ uncrowded c M (whole_run c (concat r1) x) r2.
Proof.
  induction r1 as [|r r1 IH]; intros x H; [split; [exact I|exact H]|]. cbn [app uncrowded concat] in *. destruct H as [H1 H2]. rewrite xrun_app. destruct (IH _ H2). auto.
Qed.
(** what a start-up waits for has ended: it can go on *)
Definition awaited_by (p : part) : option Z := match r_place p with Ready _ => None | Requesting u _ _ _ _ _ | Awaiting u _ _ => Some u end.
Lemma awaited_task c x t p u : XInv c x -> b_part (x_boots x t) = Some p -> awaited_by p = Some u -> exists s k, nth_error (w_apis (x_world x)) (r_api p) = Some s /\ get s u = Some k.
Proof.
  intros X B W. pose proof (I_boots c x X t) as Bo. unfold boot_ok in Bo. rewrite B in Bo. destruct Bo as (_ & pre & p0 & l & _ & F & (s & A & G)).
  pose proof (G_path _ _ G) as Pa. unfold goes_path in Pa. cbn [h_place h_st] in Pa. exists s. unfold awaited_by in W.
  destruct (r_place p) as [q|v sub cmd d y k|v m k]; [discriminate W| |]; injection W as <-.
  - destruct Pa as [(kk & Gk & J) _]. eauto.
  - destruct Pa as (to & (kk & Gk & J) & _). eauto.
Qed.
Lemma ended_may_go c x t p : valid_config c -> XInv c x -> b_part (x_boots x t) = Some p ->
  (forall u s k, awaited_by p = Some u -> nth_error (w_apis (x_world x)) (r_api p) = Some s -> get s u = Some k -> ended (t_phase k) = true) -> may_go (x_world x) p.
Proof.
  intros V X B E. pose proof (I_boots c x X t) as Bo. unfold boot_ok in Bo. rewrite B in Bo. destruct Bo as (_ & pre & p0 & l & _ & F & L).
  pose proof (far_part _ _ _ _ _ F) as P0. pose proof (leg_acts _ _ _ _ _ _ c V L P0) as Se. destruct L as (s & A & G). pose proof (fun u k W => E u s k W A) as E'. clear E. pose proof (G_path _ _ G) as Pa.
  unfold goes_path in Pa. cbn [h_place h_st] in Pa. unfold may_go, awaited_by in *. destruct (r_place p) as [q|u sub cmd d y k|u m k]; [exact I| |]; exists s; (split; [exact A|]); unfold came_back.
  - destruct Pa as [(kk & Gk & J) _]. rewrite Gk. destruct (ended_done kk (E' u kk eq_refl Gk)) as (r & Pk). rewrite Pk.
    pose proof (V_ended s (G_api _ _ G) u kk Gk) as En. unfold EndedW1 in En. rewrite Pk, J in En. destruct En as [(m & to & En)|[->|R]]; [discriminate En|discriminate|].
    destruct (reason_answers s u sub cmd d y r (V_received s (G_api _ _ G)) R) as [(r' & -> & _)|(_ & o & Fo & To & No)]; [destruct r'; discriminate|].
    exfalso. destruct (Se u (ARequest sub cmd d y None)) as [(o' & f' & F' & K' & _) _]; [apply in_or_app; right; left; reflexivity|].
    assert (o' = o) by congruence. subst o'. unfold answered_kind in K'. rewrite To in K'. apply No, is_reset, K'.
  - destruct Pa as (to & (kk & Gk & J) & _). rewrite Gk. destruct (ended_done kk (E' u kk eq_refl Gk)) as (r & Pk). rewrite Pk.
    pose proof (G_waits _ _ G u kk Gk) as H. cbn [h_st] in H. unfold Heard1 in H. rewrite Pk in H. destruct (H m to J) as [(e & -> & _)|(z & i & -> & _)]; discriminate.
Qed.

(** one step of a start-up: a round for what it waits for to begin, two for each one waiting and two more for it to end, and
    one for the start-up to go on *)
Lemma part_asking c x t p : XInv c x -> b_part (x_boots x t) = Some p -> asking x t.
Proof.
  intros X B. pose proof (I_boots c x X t) as Bo. unfold boot_ok in Bo. rewrite B in Bo. destruct Bo as (S & _). apply starting_stage in S. unfold stage_of in S.
  destruct (nth_error (y_tasks (w_life (x_world x))) t) as [k|] eqn:E; [|discriminate S]. exists k. split; [exact E|]. injection S as S. exact S.
Qed.
Lemma fair_stage c x t p m T M rs : valid_config c -> xreachable c x -> b_part (x_boots x t) = Some p -> to_do p m -> 60000 <= T ->
  xserving_rounds c T x rs -> uncrowded c (Z.of_nat M) x rs -> (4 + 2 * M <= length rs)%nat ->
  let x' := whole_run c (concat rs) x in ended_in x x' t \/ exists p' m', b_part (x_boots x' t) = Some p' /\ (m' < m)%nat /\ to_do p' m'.
Proof.
  intros V R B H HT HF HU Hlen x'. pose proof (xreach_inv c x R) as X. pose proof (I_world c x X) as Rw.
  (* the turn in the round [r] that follows [r1] *)
  assert (Turn : forall r1 r r2, rs = r1 ++ r :: r2 -> (b_part (x_boots (whole_run c (concat r1) x) t) = Some p -> may_go (x_world (whole_run c (concat r1) x)) p) ->
    ended_in x x' t \/ exists p' m', b_part (x_boots x' t) = Some p' /\ (m' < m)%nat /\ to_do p' m').
  { intros r1 r r2 E Go. subst x'. rewrite E in *. apply xrounds_app in HF as [F1 [[F2 _] _]]. rewrite concat_app, xrun_app. cbn [concat]. rewrite xrun_app.
    pose proof (any_xrun c (concat r1) t x p m X B H) as D. cbv zeta in D. set (x1 := whole_run c (concat r1) x) in *. assert (X1 : XInv c x1) by apply xinv_run, X.
    assert (X2 : XInv c (whole_run c r x1)) by apply xinv_run, X1.
    assert (Ea : forall y, ended_in x1 y t -> ended_in x y t) by (intros y; apply (ended_earlier c (concat r1) x y t X)).
    assert (Eb : forall y, ended_in (whole_run c r x1) y t -> ended_in x1 y t) by (intros y; apply (ended_earlier c r x1 y t X1)).
    assert (Rest : forall p1 m1, b_part (x_boots (whole_run c r x1) t) = Some p1 -> (m1 < m)%nat -> to_do p1 m1 ->
      ended_in x (whole_run c (concat r2) (whole_run c r x1)) t \/ exists p' m', b_part (x_boots (whole_run c (concat r2) (whole_run c r x1)) t) = Some p' /\ (m' < m)%nat /\ to_do p' m').
    { intros p1 m1 B1 L1 H1. destruct (any_xrun c (concat r2) t _ _ _ X2 B1 H1) as [D'|[(p2 & m2 & B2 & L2 & H2)|B2]]; [left; auto|right..].
      - exists p2, m2. split; [exact B2|]. split; [lia|exact H2].
      - exists p1, m1. auto. }
    destruct D as [D|[(p1 & m1 & B1 & L1 & H1)|B1]].
    - left. apply (ended_later c (concat r2) x (whole_run c r x1) t X2). apply ended_later; assumption.
    - destruct (any_xrun c r t x1 p1 m1 X1 B1 H1) as [D|[(p2 & m2 & B2 & L2 & H2)|B2]].
      + left. apply (ended_later c (concat r2) x (whole_run c r x1) t X2). apply Ea, D.
      + apply (Rest p2 m2 B2); [lia|exact H2].
      + apply (Rest p1 m1 B2); assumption.
    - destruct (its_turn c r x1 t p m X1 B1 H (Go B1)) as [D|(p2 & m2 & B2 & L2 & H2)].
      + apply F2. eapply part_asking; eassumption.
      + left. apply (ended_later c (concat r2) x (whole_run c r x1) t X2). apply Ea, D.
      + apply (Rest p2 m2 B2 L2 H2). }
  destruct (awaited_by p) as [u|] eqn:W.
  2:{ destruct rs as [|r rs]; [cbn [length] in Hlen; lia|]. apply (Turn [] r rs eq_refl). intros _. unfold may_go. unfold awaited_by in W. destruct (r_place p); try discriminate W. exact I. }
  destruct (split_at (3 + 2 * M) rs ltac:(lia)) as (r1 & r2 & E & L1). destruct r2 as [|r r2]; [rewrite E, app_length in Hlen; cbn [length] in Hlen; lia|].
  apply (Turn r1 r r2 E). intro B1. clear Turn. rewrite E in HF, HU. apply xrounds_app in HF as [F1 _]. apply uncrowded_app in HU as [U1 _].
  assert (R1 : xreachable c (whole_run c (concat r1) x)) by apply xreach_run, R.
  destruct (awaited_task c x t p u X B W) as (s & k & A & G).
  destruct r1 as [|r0 [|r0' r1]]; [cbn [length] in L1; lia..|]. set (rr := r0' :: r1) in *.
  destruct (rounds_flat c T (r0 :: rr) x F1) as (fss & Lf & Fw & Ew).
  destruct fss as [|f0 fss]; [discriminate Lf|].
  assert (Eall : x_world (whole_run c (concat (r0 :: rr)) x) = world_run (concat (f0 :: fss)) (x_world x)).
  { specialize (Ew (length (r0 :: rr))). rewrite firstn_all in Ew. rewrite <- Lf, firstn_all in Ew. exact Ew. }
  assert (E1 : x_world (whole_run c r0 x) = world_run f0 (x_world x)).
  { specialize (Ew 1%nat). cbn [firstn concat] in Ew. rewrite !app_nil_r in Ew. exact Ew. }
  destruct (ext_run (x_world x) f0 Rw _ s A) as (s1 & A1 & _).
  assert (Hs1 : Z.of_nat (length (waiting (s_log s1))) <= Z.of_nat M).
  { cbn [uncrowded] in U1. destruct U1 as [_ [U1 _]]. apply (U1 (r_api p)). rewrite E1. exact A1. }
  destruct (wtask_ends T f0 fss (x_world x) (r_api p) s s1 u k Rw A ltac:(lia) G) as (s' & k' & A' & G' & E').
  - intros mm to J. pose proof (waits_short c x R _ s A u k mm to G J). lia.
  - exact Fw.
  - exact A1.
  - subst rr. cbn [length] in Lf, L1. lia.
  - apply (ended_may_go c _ t p V (xreach_inv c _ R1) B1). intros u' s2 k2 W' A2 G2. assert (u' = u) by congruence. subst u'.
    rewrite Eall in A2. assert (s2 = s') by congruence. subst s2. congruence.
Qed.
Lemma fair_ends c T t M : valid_config c -> 60000 <= T -> forall m rs x p, xreachable c x -> b_part (x_boots x t) = Some p -> to_do p m ->
  xserving_rounds c T x rs -> uncrowded c (Z.of_nat M) x rs -> (m * (4 + 2 * M) <= length rs)%nat -> ended_in x (whole_run c (concat rs) x) t.
Proof.
  intros V HT. induction m as [m IH] using lt_wf_ind. intros rs x p R Bp H HF HU Hlen.
  destruct m as [|m]; [exfalso; destruct H as (ws & n & K & _ & HK & H); destruct (r_place p); destruct H as (_ & H); try destruct H as (_ & H); lia|].
  destruct (split_at (4 + 2 * M) rs ltac:(cbn [Nat.mul] in Hlen; lia)) as (r1 & r2 & -> & L1). pose proof (xreach_inv c x R) as X.
  apply xrounds_app in HF as [F1 F2]. apply uncrowded_app in HU as [U1 U2]. rewrite concat_app, xrun_app. set (x1 := whole_run c (concat r1) x) in *.
  assert (R1 : xreachable c x1) by apply xreach_run, R.
  pose proof (fair_stage c x t p (S m) T M r1 V R Bp H HT F1 U1 ltac:(lia)) as D. cbv zeta in D. fold x1 in D. destruct D as [D|(p' & m' & B' & L' & H')].
  - apply ended_later; [apply xreach_inv, R1|exact D].
  - apply (ended_earlier c (concat r1) x _ t X). fold x1. apply (IH m' L' r2 x1 p' R1 B' H' F2 U2).
    rewrite app_length in Hlen. assert (m' * (4 + 2 * M) <= m * (4 + 2 * M))%nat by (apply Nat.mul_le_mono_r; lia). cbn [Nat.mul] in Hlen. lia.
Qed.
Lemma start_ups_end_soon c x T M rs t : valid_config c -> xreachable c x -> asking x t -> 60000 <= T -> 0 <= M -> xserving_rounds c T x rs -> uncrowded c M x rs ->
  108 * (4 + 2 * M) <= Z.of_nat (length rs) -> ended_in x (whole_run c (concat rs) x) t.
Proof.
  intros V R Ha HT HM HF HU Hlen. pose proof (xreach_inv c x R) as X. destruct (asking_part c x t X Ha) as (p & B).
  apply (fair_ends c T t (Z.to_nat M) V HT 108 rs x p R B (all_to_do c x R t p B) HF); [rewrite Z2Nat.id by exact HM; exact HU|]. lia.
Qed.

(** ** reconnect loops *)
Definition price (N n : nat) : nat := match n with O => 0 | S O => 1 | S (S O) => N + 1 | _ => N + 2 end.
Lemma again_soon_n c T M t : valid_config c -> 60000 <= T -> 0 <= M -> let N := Z.to_nat (108 * (4 + 2 * M)) in forall n x k rs, (rank k <= n)%nat -> xreachable c x -> coroutine_of (x_world x) t = Some k -> k_loop k = true ->
  (forall r, k_stage k = KEnd r -> good_end r) -> xfair_rounds c T x rs -> uncrowded c M x rs -> (price N (rank k) <= length rs)%nat ->
  let e := whole_run c (concat rs) x in tried_in x e t \/ exists r, gave e t r /\ good_end r.
Proof.
  intros V HT HM N. induction n as [n IH] using lt_wf_ind. intros x k rs Hn R E L G F HU Hl e. subst e. pose proof (xreach_inv c x R) as X. pose proof (I_world c x X) as Rw.
  assert (Step : forall m, (m <= length rs)%nat -> (forall r1 r2, rs = r1 ++ r2 -> length r1 = m -> tried_in x (whole_run c (concat r1) x) t \/ lower t (rank k) (whole_run c (concat r1) x)) ->
    (forall j, (j < rank k)%nat -> (price N j + m <= price N (rank k))%nat) -> tried_in x (whole_run c (concat rs) x) t \/ exists r, gave (whole_run c (concat rs) x) t r /\ good_end r).
  { intros m Hm H Hc. destruct (split_at m rs Hm) as (r1 & r2 & -> & L1). destruct (fair_app c T r1 r2 x F) as [F1 F2]. apply uncrowded_app in HU as [U1 U2]. specialize (H r1 r2 eq_refl L1).
    rewrite concat_app, xrun_app in *. set (x1 := whole_run c (concat r1) x) in *. assert (R1 : xreachable c x1) by apply xreach_run, R.
    destruct H as [Tr|(k' & E' & L' & R' & G')]; [left; apply tried_later; [apply xreach_inv, R1|exact Tr]|].
    destruct (IH (rank k') ltac:(lia) x1 k' r2 (le_n _) R1 E' L' G' F2 U2) as [Tr|D].
    - specialize (Hc (rank k') R'). rewrite app_length in Hl. lia.
    - left. apply (tried_earlier c (concat r1) x _ t X Tr).
    - right. exact D. }
  assert (One : match k_stage k with KBegin | KSleep | KSettle _ _ => True | _ => False end -> forall r1 r2, rs = r1 ++ r2 -> length r1 = 1%nat ->
    tried_in x (whole_run c (concat r1) x) t \/ lower t (rank k) (whole_run c (concat r1) x)).
  { intros Rs r1 r2 -> L1. destruct r1 as [|r [|r' r1]]; try discriminate L1. cbn [concat]. rewrite app_nil_r. cbn [app xfair_rounds] in F. destruct F as (_ & F & _).
    apply (woken c x t k T r R E L Rs ltac:(lia) F). }
  unfold rank in *. destruct (k_stage k) as [| |a g| |r] eqn:S; cbn [price] in Hl.
  - apply (Step 1%nat); [lia|apply One, I|]. intros j Hj. destruct j as [|[|j]]; cbn [price]; lia.
  - apply (Step 1%nat); [lia|apply One, I|]. intros j Hj. destruct j as [|j]; cbn [price]; lia.
  - apply (Step 1%nat); [lia|apply One, I|]. intros j Hj. destruct j as [|[|[|j]]]; cbn [price]; lia.
  - apply (Step N); [lia| |intros j Hj; destruct j as [|[|j]]; cbn [price]; lia]. intros r1 r2 -> L1. destruct (fair_app c T r1 r2 x F) as [F1 F2]. apply uncrowded_app in HU as [U1 U2].
    destruct (loop_run c (concat r1) t x k X E L) as [Sm|[Tr|Lo]]; [exfalso|left; exact Tr|right; unfold rank in Lo; rewrite S in Lo; exact Lo]. revert Sm. apply not_same_over.
    apply (start_ups_end_soon c x T M r1 t V R); [exists k; auto|exact HT|exact HM|apply fair_serving, F1|exact U1|]. rewrite L1. unfold N. lia.
  - destruct (loop_run c (concat rs) t x k X E L) as [Sm|[Tr|(k' & _ & _ & H & _)]]; [right|left; exact Tr|unfold rank in H; rewrite S in H; lia].
    exists r. split; [|apply G; reflexivity]. exists k. destruct Sm as [Sm _]. unfold coroutine_of in *. rewrite Sm. auto.
Qed.
Lemma tries_again_soon c x T M rs t : valid_config c -> xreachable c x -> reconnecting x t -> 60000 <= T -> 0 <= M -> xfair_rounds c T x rs -> uncrowded c M x rs ->
  let e := whole_run c (concat rs) x in 108 * (4 + 2 * M) + 2 <= Z.of_nat (length rs) ->
  (exists l at_, x_log e = x_log x ++ l /\ In (XTries t at_) l) \/ gave e t (Ok tt) \/ gave e t (Err CancelledError).
Proof.
  intros V R (k & E & L & N) HT HM F HU e Hl.
  destruct (again_soon_n c T M t V HT HM (rank k) x k rs (le_n _) R E L) as [H|(r & H & G)].
  - intros r Hr. destruct (N r Hr).
  - exact F.
  - exact HU.
  - unfold rank. destruct (k_stage k); cbn [price]; lia.
  - left. exact H.
  - right. destruct r as [[]|e0]; [left; exact H|right]. destruct e0; try contradiction. exact H.
Qed.
