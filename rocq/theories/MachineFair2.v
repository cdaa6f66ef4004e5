(** * MachineFair2: whoever waits for the link ends within a number of rounds given by those ahead (proofs for C138) *)
From Coq Require Import ZifyBool ZifyNat.
From Verif Require Import Base Types Uart Buffalo CmdTable Zpi Api App Machine SpecMachine SpecProgress MachineBase MachineInv MachineInv2 MachineInv3 MachineInv4
  MachineInv5 MachineProofs MachineProofs2 MachineProofs5 MachineProofs11 MachineProgress MachineProgress2 WorldInv WorldProgress MachineFair.

Lemma fit_reach cap s : 0 <= cap -> reachable cap s -> Fit s.
Proof.
  intros Hc Hr. pose proof (reachable_inv cap s Hc Hr) as HI. destruct (I_core _ _ HI) as (Ti & Ta & _ & _). constructor.
  - split; [exact Ti|]. split; [exact (I_lock _ _ HI)|exact (I_queue _ _ HI)].
  - eapply reachable_rests; eassumption.
  - eapply reachable_due; eassumption.
  - intros t k G. pose proof (Ta t k G) as O. unfold Task_ok in O. destruct (t_phase k); try exact I; destruct O as (o & O & _); exists o; exact O.
  - intros t k G. pose proof (I_waiters _ _ HI t k G) as W. unfold Waits in W. destruct (t_phase k); try exact I.
    + destruct W as (o & m & to & a & f & bs & _ & _ & _ & _ & _ & _ & (la & lb & _ & _ & _ & _ & _ & W)). destruct (s_futs s i); try discriminate. contradiction.
    + destruct W as (m & to & a & _ & _ & (la & lb & _ & _ & _ & _ & _ & W)). destruct (s_futs s i); try discriminate. contradiction.
  - eapply reachable_numbered; eassumption.
Qed.
Lemma fprims_run cap s es : 0 <= cap -> reachable cap s -> fprims s (run es s).
Proof. intros Hc Hr. apply fprims_prims, run_prims. exact (I_core _ _ (reachable_inv cap s Hc Hr)). Qed.
Lemma now_run_ cap s es : 0 <= cap -> reachable cap s -> s_now s <= s_now (run es s).
Proof. intros Hc Hr. eapply now_prims, run_prims. exact (I_core _ _ (reachable_inv cap s Hc Hr)). Qed.
Lemma job_run cap s es t k : 0 <= cap -> reachable cap s -> get s t = Some k -> exists k', get (run es s) t = Some k' /\ t_job k' = t_job k.
Proof. intros Hc Hr. apply same_job_prims, run_prims. exact (I_core _ _ (reachable_inv cap s Hc Hr)). Qed.
Lemma ended_run cap s es t k : 0 <= cap -> reachable cap s -> get s t = Some k -> ended (t_phase k) = true -> exists k', get (run es s) t = Some k' /\ ended (t_phase k') = true.
Proof.
  intros Hc Hr G E. destruct (nearer_fs s (run es s) t k) as (k' & G' & N); [eapply fprims_run; eassumption|exact (Fit_sound s (fit_reach cap s Hc Hr))|exact G|].
  exists k'. split; [exact G'|]. destruct N as [W| ->]; [|exact E]. destruct (t_phase k); try discriminate E. cbn [weight] in W. pose proof (weight_nonneg (t_phase k')). lia.
Qed.

(** a round brings everybody past the semaphore nearer to the end *)
Lemma round_nearer cap s T r t k : 0 <= cap -> reachable cap s -> 30000 <= T -> get s t = Some k -> late (t_phase k) -> ended (t_phase k) = false ->
  (forall m to, t_job k = JWaitFor m to -> to <= T) -> serving T (pending (s_log s)) r ->
  exists k', get (run r s) t = Some k' /\ late (t_phase k') /\ rounds (run r s) t k' < rounds s t k.
Proof.
  intros Hc Hr HT G L E J (a & b & -> & Hel & Hb). destruct (keyed_exists s t k (fit_reach cap s Hc Hr) G L E) as (u & ku & Ku & Gu & Eu).
  assert (Hu : In u (pending (s_log s))) by (apply (proj1 (proj2 (reachable_pend cap s Hr))); exists ku; auto).
  destruct (Hb u Hu) as (b1 & b2 & b3 & ->). rewrite run_app.
  replace (run (b1 ++ ETimeout u :: b2 ++ ERun u :: b3) (run a s)) with (run b3 (resume u (run b2 (wait_timeout u (run b1 (run a s)))))).
  2:{ rewrite run_app. change (run (ETimeout u :: b2 ++ ERun u :: b3) (run b1 (run a s))) with (run (b2 ++ ERun u :: b3) (wait_timeout u (run b1 (run a s)))).
      rewrite run_app. reflexivity. }
  set (sa := run a s). set (s1 := run b1 sa). set (s1' := wait_timeout u s1). set (s2 := run b2 s1'). set (s2' := resume u s2).
  assert (Ra : reachable cap sa) by apply reachable_run, Hr. assert (R1 : reachable cap s1) by apply reachable_run, Ra.
  assert (R1' : reachable cap s1') by apply (reachable_run cap s1 [ETimeout u] R1). assert (R2 : reachable cap s2) by apply reachable_run, R1'.
  assert (R2' : reachable cap s2') by apply (reachable_run cap s2 [ERun u] R2). assert (R3 : reachable cap (run b3 s2')) by apply reachable_run, R2'.
  pose proof (elapsed_run a s (I_core _ _ (reachable_inv cap s Hc Hr))) as Na. pose proof (now_run_ cap sa b1 Hc Ra) as N1.
  pose proof (now_run_ cap s1 [ETimeout u] Hc R1) as N1'. change (run [ETimeout u] s1) with s1' in N1'. pose proof (now_run_ cap s1' b2 Hc R1') as N2.
  apply (fit_round s t k u T (fit_reach cap s Hc Hr) G L Ku HT J s1 s2 (run b3 s2')); try (eapply fit_reach; eassumption); try (eapply fprims_run; eassumption).
  - eapply fprims_app; eapply fprims_run; eassumption.
  - subst sa s1. lia.
  - apply (fprims_run cap s1 [ETimeout u] Hc R1).
  - intros i r Hi. unfold s2. eapply done_stays; try eassumption. apply (done_stays cap s1 i r [ETimeout u] Hc R1 Hi).
  - subst s2. lia.
  - apply (fprims_run cap s2 [ERun u] Hc R2).
Qed.
Lemma rounds_nonneg s t k : 0 <= rounds s t k.
Proof. unfold rounds. pose proof (line_nonneg s t). destruct (t_phase k); cbn [weight]; lia. Qed.
Lemma rounds_end cap T rs : forall s t k, 0 <= cap -> reachable cap s -> 30000 <= T -> get s t = Some k -> late (t_phase k) ->
  (forall m to, t_job k = JWaitFor m to -> to <= T) -> serving_rounds T s rs -> rounds s t k <= Z.of_nat (length rs) ->
  exists k', get (run (concat rs) s) t = Some k' /\ ended (t_phase k') = true.
Proof.
  induction rs as [|r rs IH]; intros s t k Hc Hr HT G L J HF Hlen.
  - exists k. split; [exact G|]. cbn [length] in Hlen. unfold rounds in Hlen. pose proof (line_nonneg s t). destruct (t_phase k); cbn [weight] in Hlen; try reflexivity; try contradiction; lia.
  - destruct (ended (t_phase k)) eqn:E; [eapply ended_run; eassumption|]. destruct HF as [H1 H2]. cbn [concat]. rewrite run_app.
    destruct (round_nearer cap s T r t k Hc Hr HT G L E J H1) as (k1 & G1 & L1 & R1). destruct (job_run cap s r t k Hc Hr G) as (k1' & G1' & J1).
    assert (k1' = k1) by congruence. subst k1'.
    apply (IH (run r s) t k1 Hc (reachable_run cap s r Hr) HT G1 L1); [rewrite J1; exact J|exact H2|]. cbn [length] in Hlen. lia.
Qed.
(** what has ended is in the history *)
Lemma ended_log cap s t k : 0 <= cap -> reachable cap s -> get s t = Some k -> ended (t_phase k) = true -> exists r, In (OEnded t r) (s_log s).
Proof.
  intros Hc Hr G E. destruct (t_phase k) eqn:P; try discriminate E. exists r. destruct (I_life _ _ (reachable_inv cap s Hc Hr)) as [L _]. specialize (L t k G). rewrite P in L.
  assert (H : In (OEnded t r) (trace t (s_log s))).
  { destruct L as [->|[->|[(l0 & _ & ->)|(l0 & at_ & bs & _ & ->)]]]; [right; left; reflexivity|right|..]; apply in_or_app; right; cbn [In]; tauto. }
  apply filter_In in H. apply H.
Qed.
Lemma rounds_over cap T rs s t k : 0 <= cap -> reachable cap s -> 30000 <= T -> get s t = Some k -> late (t_phase k) ->
  (forall m to, t_job k = JWaitFor m to -> to <= T) -> serving_rounds T s rs -> rounds s t k <= Z.of_nat (length rs) ->
  exists r, In (OEnded t r) (s_log (run (concat rs) s)).
Proof.
  intros Hc Hr HT G L J HF Hlen. destruct (rounds_end cap T rs s t k Hc Hr HT G L J HF Hlen) as (k' & G' & E'). eapply ended_log; [exact Hc|apply reachable_run, Hr|exact G'|exact E'].
Qed.
Lemma no_wait_for s t k : Tasks_ok s -> get s t = Some k -> match t_phase k with PSem | PAdm | PLock | PHold | PWait _ _ | PSleep _ => True | _ => False end -> forall m to, t_job k = JWaitFor m to -> False.
Proof. intros Ta G P m to J. pose proof (Ta t k G) as O. unfold Task_ok in O. rewrite J in O. destruct (t_phase k); try contradiction; destruct O as (o & _ & B & _); discriminate B. Qed.

Lemma queue_ahead s t : Queue s -> In t (s_queue s) -> line s t <= 2 * Z.of_nat (length (s_queue s)) - 1.
Proof.
  intros Q H. unfold line, held. apply in_split in H as (q1 & q2 & E). destruct Q as (Nd & _). rewrite E in *. rewrite (ahead_app t q1 q2).
  - rewrite app_length. cbn [length]. destruct (s_lock s); lia.
  - intro C. apply NoDup_remove_2 in Nd. apply Nd. apply in_or_app. left. exact C.
Qed.
Lemma rounds_late s t k : Fit s -> get s t = Some k -> late (t_phase k) -> rounds s t k <= 2 + 2 * Z.of_nat (length (s_queue s)).
Proof.
  intros F G L. pose proof (Fit_rest s F t k G) as R. unfold rounds. destruct (t_phase k) eqn:P; cbn [weight]; try discriminate R; try contradiction; try lia.
  destruct (Fit_sound s F) as (_ & _ & Q). pose proof (queue_ahead s t Q) as H. destruct Q as (_ & _ & Q). specialize (H (Q t k G ltac:(rewrite P; reflexivity))). lia.
Qed.

(** ** the turn comes *)
Lemma waiting_ends cap s T rs t q1 q2 : 0 <= cap -> reachable cap s -> 30000 <= T -> waiting (s_log s) = q1 ++ t :: q2 -> serving_rounds T s rs ->
  4 + 2 * Z.of_nat (length q1) <= Z.of_nat (length rs) -> exists r, In (OEnded t r) (s_log (run (concat rs) s)).
Proof.
  intros Hc Hr HT W HF Hlen. pose proof (reachable_inv cap s Hc Hr) as HI. rewrite (proj1 (I_waiting _ _ HI)) in W.
  destruct (I_queue _ _ HI) as (Nd & Q1 & _). destruct (Q1 t) as (k & G & Hq); [rewrite W; apply in_or_app; right; left; reflexivity|].
  assert (P : t_phase k = PLock) by (destruct (t_phase k); try discriminate Hq; reflexivity).
  apply (rounds_over cap T rs s t k Hc Hr HT G); [rewrite P; exact I| |exact HF|].
  - intros m to J. exfalso. eapply no_wait_for; [exact (proj1 (proj2 (I_core _ _ HI)))|exact G|rewrite P; exact I|exact J].
  - unfold rounds. rewrite P. unfold line, held. rewrite W. rewrite (ahead_app t q1 q2); [destruct (s_lock s); lia|]. rewrite W in Nd. intro C. apply NoDup_remove_2 in Nd. apply Nd, in_or_app. left. exact C.
Qed.
Lemma holding_ends cap s T rs t : 0 <= cap -> reachable cap s -> 30000 <= T -> holder (s_log s) = Some t -> serving_rounds T s rs ->
  (2 <= length rs)%nat -> exists r, In (OEnded t r) (s_log (run (concat rs) s)).
Proof.
  intros Hc Hr HT W HF Hlen. pose proof (reachable_inv cap s Hc Hr) as HI. rewrite (proj1 (I_link _ _ HI)) in W.
  destruct (rest_holder s t (fit_reach cap s Hc Hr) W) as (k & i & d & G & P).
  apply (rounds_over cap T rs s t k Hc Hr HT G); [rewrite P; exact I| |exact HF|unfold rounds; rewrite P; cbn [weight]; lia].
  intros m to J. exfalso. eapply no_wait_for; [exact (proj1 (proj2 (I_core _ _ HI)))|exact G|rewrite P; exact I|exact J].
Qed.
Lemma admitted_ends cap s T rs t : 0 <= cap -> reachable cap s -> 30000 <= T -> In (OAdmitted t) (s_log s) -> serving_rounds T s rs ->
  2 + 2 * Z.of_nat (length (waiting (s_log s))) <= Z.of_nat (length rs) -> exists r, In (OEnded t r) (s_log (run (concat rs) s)).
Proof.
  intros Hc Hr HT Ad HF Hlen. pose proof (reachable_inv cap s Hc Hr) as HI. rewrite (proj1 (I_waiting _ _ HI)) in Hlen. destruct (I_life _ _ HI) as [L1 L2].
  assert (Ht : In (OAdmitted t) (trace t (s_log s))) by (apply filter_In; split; [exact Ad|cbn [about]; apply Z.eqb_refl]).
  destruct (get s t) as [k|] eqn:G; [|rewrite (L2 t G) in Ht; destruct Ht]. specialize (L1 t k G). pose proof (reachable_rests cap s Hc Hr t k G) as Re.
  assert (L : late (t_phase k) /\ match t_phase k with PReg _ _ | PAwait _ _ => False | _ => True end).
  { destruct (t_phase k); cbn [life] in L1; try discriminate Re; try exact (conj I I); rewrite L1 in Ht; destruct Ht as [Ht|[]]; discriminate Ht. }
  destruct L as [L L']. apply (rounds_over cap T rs s t k Hc Hr HT G L); [|exact HF|].
  - intros m to J. exfalso. pose proof (proj1 (proj2 (I_core _ _ HI)) t k G) as O. unfold Task_ok in O. rewrite J in O.
    destruct (t_phase k) eqn:P; try contradiction; try discriminate Re; try (destruct O as (o & _ & B & _); discriminate B).
    cbn [life] in L1. unfold came, adm in L1. rewrite J in L1. cbn [uses_sem app] in L1.
    destruct L1 as [E|[E|[(l0 & (q & [->| ->] & ->) & E)|(l0 & at_ & bs & (q & [->| ->] & ->) & E)]]]; rewrite E in Ht; cbn [app In] in Ht;
      repeat (destruct Ht as [Ht|Ht]; [discriminate Ht|]); exact Ht.
  - pose proof (rounds_late s t k (fit_reach cap s Hc Hr) G L). lia.
Qed.
Lemma unslotted_ends cap s T r rs t k : 0 <= cap -> reachable cap s -> 30000 <= T -> get s t = Some k -> In t (pending (s_log s)) -> uses_sem (t_job k) = false ->
  (forall m to, t_job k = JWaitFor m to -> to <= T) -> serving_rounds T s (r :: rs) ->
  2 + 2 * Z.of_nat (length (waiting (s_log (run r s)))) <= Z.of_nat (length rs) -> exists x, In (OEnded t x) (s_log (run (concat (r :: rs)) s)).
Proof.
  intros Hc Hr HT G Pe U J [(a & b & E & _ & Hb) H2] Hlen. pose proof (reachable_run cap s r Hr) as Hr1. cbn [concat]. rewrite run_app.
  assert (X : exists k1, get (run r s) t = Some k1 /\ late (t_phase k1) /\ t_job k1 = t_job k).
  { destruct (Hb t Pe) as (b1 & b2 & b3 & E').
    assert (Er : run r s = run b3 (resume t (run (a ++ b1 ++ ETimeout t :: b2) s))).
    { rewrite E, E'. change (ETimeout t :: b2 ++ ERun t :: b3) with ((ETimeout t :: b2) ++ ERun t :: b3). rewrite !run_app. reflexivity. }
    set (s2 := run (a ++ b1 ++ ETimeout t :: b2) s) in *. assert (R2 : reachable cap s2) by apply reachable_run, Hr.
    assert (R3 : reachable cap (resume t s2)) by apply (reachable_run cap s2 [ERun t] R2).
    destruct (job_run cap s (a ++ b1 ++ ETimeout t :: b2) t k Hc Hr G) as (k2 & G2 & J2). fold s2 in G2.
    destruct (resume_late s2 t k2) as (k3 & G3 & L3); [apply (fit_reach cap s2 Hc R2)|exact G2|rewrite J2; exact U|eapply reachable_rests; eassumption|].
    assert (Hn : t_phase k2 <> PAdm) by (intro C; pose proof (reachable_rests cap s2 Hc R2 t k2 G2) as C'; rewrite C in C'; discriminate C').
    destruct (nearer_fs (resume t s2) (run r s) t k3) as (k4 & G4 & N4); [rewrite Er; eapply fprims_run; eassumption|apply (fit_reach cap _ Hc R3)|exact G3|].
    exists k4. split; [exact G4|]. split; [eapply late_nearer; [exact (L3 Hn)|exact N4]|].
    destruct (job_run cap s r t k Hc Hr G) as (k5 & G5 & J5). congruence. }
  destruct X as (k1 & G1 & L1 & J1). apply (rounds_over cap T rs (run r s) t k1 Hc Hr1 HT G1 L1); [rewrite J1; exact J|exact H2|].
  rewrite (proj1 (I_waiting _ _ (reachable_inv cap _ Hc Hr1))) in Hlen. pose proof (rounds_late (run r s) t k1 (fit_reach cap _ Hc Hr1) G1 L1). lia.
Qed.
