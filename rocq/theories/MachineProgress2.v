(** * MachineProgress2: nothing hangs while other things go on.  As MachineProgress, with new calls and receptions: the
    measure is lowered by every effective step and a new call costs a fixed amount. *)
From Coq Require Import ZifyBool ZifyNat.
From Verif Require Import Base Types Uart Buffalo CmdTable Zpi Api App Machine SpecMachine SpecTrace SpecProgress
  MachineBase MachineInv MachineInv2 MachineInv3 MachineInv4 MachineInv5 DispatchProofs MachineProofs MachineProofs2 MachineProofs4 MachineProofs11 MachineProofs12 MachineProgress.

Definition level (s : st) : Z := work s - 7 * s_ntid s.
Lemma level_prim s s' : prim s s' -> level s' <= level s.
Proof.
  intro H. unfold level, work.
  start_prim H; first [lia|rewrite (total_put _ _ _ k) by assumption; unfold wt at 2 3; phases; cbn [weight]; lia|
    rewrite total_snoc; unfold wt at 2; cbn [t_phase weight]; lia].
Qed.
Lemma level_prims s s' : prims s s' -> level s' <= level s.
Proof. induction 1 as [s|s1 s2 s3 H _ IH]; [lia|]. pose proof (level_prim _ _ H). lia. Qed.
Lemma calls_snoc l x : calls (l ++ [x]) = calls l + match x with OCalled _ => 1 | _ => 0 end.
Proof. unfold calls. rewrite filter_app, app_length. cbn [filter]. destruct x; cbn [length]; lia. Qed.
Lemma calls_prim s s' : prim s s' -> s_ntid s' - calls (s_log s') = s_ntid s - calls (s_log s).
Proof. intro H. start_prim H; repeat rewrite calls_snoc; lia. Qed.
Lemma calls_prims s s' : prims s s' -> s_ntid s' - calls (s_log s') = s_ntid s - calls (s_log s).
Proof. induction 1 as [s|s1 s2 s3 H _ IH]; [reflexivity|]. rewrite <- (calls_prim _ _ H). exact IH. Qed.
Lemma calls_run cap s es : 0 <= cap -> reachable cap s -> s_ntid (run es s) - s_ntid s = calls (s_log (run es s)) - calls (s_log s).
Proof.
  intros Hc Hr. pose proof (calls_prims _ _ (run_prims es s (I_core _ _ (reachable_inv cap s Hc Hr)))). lia.
Qed.

(** ** steps that change nothing for those who are there *)
Definition alike (s s' : st) : Prop :=
  (forall t k, get s t = Some k -> get s' t = Some k) /\ (forall i r, s_futs s i = FDone r -> s_futs s' i = FDone r) /\
  s_lock s' = s_lock s /\ s_queue s' = s_queue s /\ s_sem s' = s_sem s /\ s_now s <= s_now s'.
Lemma alike_refl s : alike s s.
Proof. repeat split; auto. lia. Qed.
Lemma alike_trans a b c : alike a b -> alike b c -> alike a c.
Proof. intros (A1 & A2 & A3 & A4 & A5 & A6) (B1 & B2 & B3 & B4 & B5 & B6). repeat split; auto; try congruence. lia. Qed.
Lemma any_step cap e s : 0 <= cap -> reachable cap s -> level (step e s) < level s \/ alike s (step e s).
Proof.
  intros Hcap Hr. pose proof (I_core _ _ (reachable_inv cap s Hcap Hr)) as Hc.
  assert (Hd : forall i r, s_futs s i = FDone r -> s_futs (step e s) i = FDone r) by (intros i r; apply (done_stays cap s i r [e] Hcap Hr)).
  assert (Q : quiet_event e -> level (step e s) < level s \/ alike s (step e s)).
  { intro Hq. destruct (quiet_step e s Hc Hq) as [W|(S1 & S2 & S3 & S4 & S5 & S6)].
    - left. unfold level. rewrite (quiet_ntid e s Hq). lia.
    - right. repeat split; auto. intros t k G. unfold get in *. rewrite S1. exact G. }
  destruct e; try (apply Q; exact I); right.
  - repeat split; auto; [|cbn [step]; unfold spawn, note; fld; lia]. intros t k G. destruct (proj1 Hc) as [_ HT]. cbn [step]. unfold spawn, note, get in *. fld.
    rewrite assoc_snoc, G. reflexivity.
  - destruct (receives_step s data) as [_ R2 R3 R4 _ R6 _ _ _ _ R11 _]. repeat split; auto. rewrite R6. lia.
Qed.
Lemma any_run cap es : forall s, 0 <= cap -> reachable cap s -> level (run es s) <= level s /\ (level (run es s) < level s \/ alike s (run es s)).
Proof.
  induction es as [|e es IH]; intros s Hcap Hr; [split; [cbn; lia|right; apply alike_refl]|]. change (run (e :: es) s) with (run es (step e s)).
  pose proof (I_core _ _ (reachable_inv cap s Hcap Hr)) as Hc. pose proof (level_prims _ _ (step_prims e s Hc)) as L.
  destruct (IH (step e s) Hcap (reachable_run cap s [e] Hr)) as [I1 I2]. split; [lia|].
  destruct (any_step cap e s Hcap Hr) as [W|S]; [left; lia|]. destruct I2 as [W|S']; [left; lia|right; eapply alike_trans; eassumption].
Qed.

(** ** who could go on still can *)
Lemma run_ready_alike s s' t : alike s s' -> run_ready s t = true -> run_ready s' t = true.
Proof.
  intros (E1 & E2 & E3 & E4 & E5 & E6). unfold run_ready. rewrite E3, E4, E5. destruct (get s t) as [k|] eqn:G; [|discriminate]. rewrite (E1 t k G).
  destruct (t_phase k); try exact (fun H => H); try (intro H; lia);
    (destruct (s_futs s i) as [|r|] eqn:F; try discriminate; rewrite (E2 i r F); reflexivity).
Qed.
Lemma timeout_ready_alike cap s s' t : 0 <= cap -> reachable cap s' -> alike s s' -> timeout_ready s t = true -> run_ready s' t = true \/ timeout_ready s' t = true.
Proof.
  intros Hcap Hr (E1 & E2 & E3 & E4 & E5 & E6). unfold timeout_ready. destruct (get s t) as [k|] eqn:G; [|discriminate]. pose proof (E1 t k G) as G'. rewrite G'.
  pose proof (I_waiters _ _ (reachable_inv cap s' Hcap Hr) t k G') as W. unfold Waits in W. unfold run_ready. rewrite G'.
  destruct (t_phase k); try discriminate.
  - destruct W as (o & m & to & a & f & bs & _ & _ & _ & _ & _ & _ & (la & lb & _ & _ & _ & _ & _ & W)).
    destruct (s_futs s i); try discriminate. intro H. destruct (s_futs s' i); [right; lia|left; reflexivity|contradiction].
  - destruct W as (m & to & a & _ & _ & (la & lb & _ & _ & _ & _ & _ & W)).
    destruct (s_futs s i); try discriminate. intro H. destruct (s_futs s' i); [right; lia|left; reflexivity|contradiction].
Qed.
Lemma lower_run s t : Core s -> run_ready s t = true -> level (step (ERun t) s) < level s.
Proof. intros Hc H. unfold level. cbn [step]. rewrite ntid_resume. pose proof (run_lowers s t Hc H). lia. Qed.
Lemma lower_timeout s t : timeout_ready s t = true -> level (step (ETimeout t) s) < level s.
Proof. intros H. unfold level. cbn [step]. rewrite ntid_timeout. pose proof (timeout_lowers s t H). lia. Qed.

Lemma turn_lowers cap s t b : 0 <= cap -> reachable cap s -> served t b -> run_ready s t = true \/ timeout_ready s t = true -> level (run b s) < level s.
Proof.
  intros Hcap Hr (b1 & b2 & b3 & ->) Hready. rewrite run_app. set (s1 := run b1 s). change (run (ETimeout t :: b2 ++ ERun t :: b3) s1) with (run (b2 ++ ERun t :: b3) (step (ETimeout t) s1)).
  rewrite run_app. set (s2 := step (ETimeout t) s1). set (s3 := run b2 s2). change (run (ERun t :: b3) s3) with (run b3 (step (ERun t) s3)). set (s4 := step (ERun t) s3).
  assert (R1 : reachable cap s1) by apply reachable_run, Hr.
  assert (R2 : reachable cap s2) by apply (reachable_run cap s1 [ETimeout t] R1).
  assert (R3 : reachable cap s3) by apply reachable_run, R2.
  assert (R4 : reachable cap s4) by apply (reachable_run cap s3 [ERun t] R3).
  destruct (any_run cap b1 s Hcap Hr) as [L1 A1]. fold s1 in L1, A1. destruct (any_run cap [ETimeout t] s1 Hcap R1) as [L2 A2]. change (run [ETimeout t] s1) with s2 in L2, A2.
  destruct (any_run cap b2 s2 Hcap R2) as [L3 A3]. fold s3 in L3, A3. destruct (any_run cap [ERun t] s3 Hcap R3) as [L4 _]. change (run [ERun t] s3) with s4 in L4.
  destruct (any_run cap b3 s4 Hcap R4) as [L5 _].
  destruct A1 as [A1|A1]; [lia|]. destruct A2 as [A2|A2]; [lia|]. destruct A3 as [A3|A3]; [lia|].
  assert (H1 : run_ready s1 t = true \/ timeout_ready s1 t = true).
  { destruct Hready as [H|H]; [left; eapply run_ready_alike; eassumption|eapply timeout_ready_alike; eassumption]. }
  destruct H1 as [H1|H1].
  - assert (H3 : run_ready s3 t = true) by (eapply run_ready_alike; [exact A3|]; eapply run_ready_alike; eassumption).
    pose proof (lower_run s3 t (I_core _ _ (reachable_inv cap s3 Hcap R3)) H3) as L. fold s4 in L. lia.
  - pose proof (lower_timeout s1 t H1) as L. fold s2 in L. lia.
Qed.

(** ** a round *)
Lemma serving_lowers cap s T es : 0 < cap -> reachable cap s -> 30000 <= T -> waits_at_most T s -> serving T (pending (s_log s)) es ->
  ends s \/ level (run es s) < level s.
Proof.
  intros Hcap Hr HT Hw (a & b & -> & Hel & Hb). assert (Hcap' : 0 <= cap) by lia. rewrite run_app.
  pose proof (reachable_run cap s a Hr) as Hra. pose proof (I_core _ _ (reachable_inv cap s Hcap' Hr)) as Hc.
  destruct (any_run cap a s Hcap' Hr) as [La Aa]. destruct (any_run cap b _ Hcap' Hra) as [Lb _].
  destruct Aa as [Aa|Aa]; [right; lia|].
  set (s1 := step (ETick T) s). pose proof (reachable_run cap s [ETick T] Hr) as Hr1. change (run [ETick T] s) with s1 in Hr1.
  assert (E1 : s1 = set_now (s_now s + T) s) by (unfold s1; cbn [step]; replace (0 <=? T) with true by lia; reflexivity).
  assert (P : past s1).
  { intros t k G. rewrite E1 in *. change (get s t = Some k) in G. fld. pose proof (reachable_due cap s Hr t k G) as D.
    destruct (t_phase k); try exact I; try lia. destruct D as (m & to & Hj & D). specialize (Hw t k m to G Hj). lia. }
  pose proof (elapsed_run a s Hc) as Hnow.
  assert (A1 : alike s1 (run a s)).
  { destruct Aa as (X1 & X2 & X3 & X4 & X5 & X6). rewrite E1. repeat split; auto. fld. lia. }
  destruct (never_stuck cap s1 Hcap Hr1 P) as [E|(t & k & G & M)].
  - left. intros t k G. apply (E t k). rewrite E1. exact G.
  - right. destruct (reachable_pend cap s Hr) as (_ & Hi & _).
    assert (Hin : In t (pending (s_log s))).
    { apply Hi. exists k. assert (G0 : get s t = Some k) by (rewrite E1 in G; exact G). split; [exact G0|].
      unfold run_ready, timeout_ready in M. rewrite G in M. destruct (t_phase k); try reflexivity. destruct M as [M|M]; discriminate M. }
    assert (M' : run_ready (run a s) t = true \/ timeout_ready (run a s) t = true).
    { destruct M as [M|M]; [left; eapply run_ready_alike; eassumption|eapply timeout_ready_alike; eassumption]. }
    pose proof (turn_lowers cap _ t b Hcap' Hra (Hb t Hin) M'). lia.
Qed.

(** ** several rounds: at the beginning of one of them, or at the end, nobody is unfinished *)
Lemma waits_before cap s es T : 0 <= cap -> reachable cap s -> waits_at_most T (run es s) -> waits_at_most T s.
Proof.
  intros Hcap Hr H t k m to G Hj. pose proof (same_job_prims _ _ (run_prims es s (I_core _ _ (reachable_inv cap s Hcap Hr)))) as J.
  destruct (J t k G) as (k' & G' & E). apply (H t k' m to G'). congruence.
Qed.
Lemma no_work s : work s <= 0 -> ends s.
Proof.
  intros Hw t k G. destruct (ended (t_phase k)) eqn:E; [reflexivity|]. exfalso.
  assert (0 < wt k) by (unfold wt; destruct (t_phase k); cbn in *; try discriminate; lia).
  assert (X : forall ts, In (t, k) ts -> 0 < total wt ts).
  { assert (N : forall ts, 0 <= total wt ts) by (induction ts as [|[? k1] ts IHt]; cbn [total]; [lia|pose proof (weight_nonneg (t_phase k1) : 0 <= wt k1); lia]).
    induction ts as [|[t1 k1] ts IHt]; [intros []|]. cbn [total]. pose proof (weight_nonneg (t_phase k1) : 0 <= wt k1). specialize (N ts).
    intros [[= -> ->]|Hi]; [lia|]. specialize (IHt Hi). lia. }
  specialize (X (s_tasks s) (in_assoc _ _ _ G)). fold (work s) in X. lia.
Qed.
Lemma rounds_reach_end cap T rs : forall s, 0 < cap -> reachable cap s -> 30000 <= T -> waits_at_most T (run (concat rs) s) -> serving_rounds T s rs ->
  work s + 7 * (s_ntid (run (concat rs) s) - s_ntid s) <= Z.of_nat (length rs) ->
  exists r1 r2, rs = r1 ++ r2 /\ ends (run (concat r1) s).
Proof.
  induction rs as [|r rs IH]; intros s Hcap Hr HT Hw HF Hlen.
  - exists [], []. split; [reflexivity|]. cbn [concat run fold_left length] in *. apply no_work. lia.
  - cbn [serving_rounds] in HF. destruct HF as [H1 H2]. cbn [concat] in *. rewrite run_app in Hw, Hlen.
    assert (Hcap' : 0 <= cap) by lia. pose proof (reachable_run cap s r Hr) as Hr1.
    pose proof (waits_before cap _ _ T Hcap' Hr1 Hw) as Hw1. pose proof (waits_before cap _ _ T Hcap' Hr Hw1) as Hw0.
    destruct (serving_lowers cap s T r Hcap Hr HT Hw0 H1) as [E|L].
    + exists [], (r :: rs). split; [reflexivity|exact E].
    + destruct (IH (run r s) Hcap Hr1 HT Hw H2) as (r1 & r2 & E & En).
      * unfold level in L. cbn [length] in Hlen. lia.
      * exists (r :: r1), r2. split; [rewrite E; reflexivity|]. cbn [concat]. rewrite run_app. exact En.
Qed.
Lemma all_come_to_an_end cap s T rs : 0 < cap -> reachable cap s -> 30000 <= T ->
  (forall t k m to, get (run (concat rs) s) t = Some k -> t_job k = JWaitFor m to -> to <= T) -> serving_rounds T s rs ->
  7 * (Z.of_nat (length (pending (s_log s))) + (calls (s_log (run (concat rs) s)) - calls (s_log s))) <= Z.of_nat (length rs) ->
  (exists r1 r2, rs = r1 ++ r2 /\ pending (s_log (run (concat r1) s)) = []) /\
  forall t, In t (pending (s_log s)) -> exists r, In (OEnded t r) (s_log (run (concat rs) s)).
Proof.
  intros Hcap Hr HT Hw HF Hlen. assert (Hcap' : 0 <= cap) by lia. pose proof (work_pending cap s Hr) as Hp. rewrite <- (calls_run cap s (concat rs) Hcap' Hr) in Hlen.
  destruct (rounds_reach_end cap T rs s Hcap Hr HT Hw HF ltac:(lia)) as (r1 & r2 & -> & E).
  destruct (reachable_pend cap _ (reachable_run cap s (concat r1) Hr)) as (_ & Hi1 & _).
  assert (P1 : pending (s_log (run (concat r1) s)) = []).
  { destruct (pending (s_log (run (concat r1) s))) as [|t l] eqn:Ep; [reflexivity|]. exfalso.
    destruct (proj1 (Hi1 t) (or_introl eq_refl)) as (k & G & He). specialize (E t k G). congruence. }
  split; [exists r1, r2; auto|]. intros t Ht. destruct (reachable_pend cap s Hr) as (_ & Hi & _). apply Hi in Ht as (k & G & _).
  pose proof (same_job_prims _ _ (run_prims (concat r1) s (I_core _ _ (reachable_inv cap s Hcap' Hr)))) as J. destruct (J t k G) as (k1 & G1 & _).
  pose proof (E t k1 G1) as Ed. destruct (t_phase k1) eqn:Hp1; try discriminate Ed. exists r.
  assert (Hin : In (OEnded t r) (s_log (run (concat r1) s))).
  { destruct (I_life _ _ (reachable_inv cap _ Hcap' (reachable_run cap s (concat r1) Hr))) as [L _]. specialize (L t k1 G1). rewrite Hp1 in L.
    assert (H : In (OEnded t r) (trace t (s_log (run (concat r1) s)))).
    { destruct L as [->|[->|[(l0 & _ & ->)|(l0 & at_ & bs & _ & ->)]]]; [right; left; reflexivity|right|..]; apply in_or_app; right; cbn [In]; tauto. }
    apply filter_In in H. apply H. }
  rewrite concat_app, run_app.
  pose proof (log_prims _ _ (run_prims (concat r2) _ (I_core _ _ (reachable_inv cap _ Hcap' (reachable_run cap s (concat r1) Hr))))) as Gr.
  eapply grows_in; [exact Gr|exact Hin].
Qed.
