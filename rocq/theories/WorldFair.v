(** * WorldFair: the bound of C138 across lost connections (proofs for C139) *)
From Coq Require Import ZifyBool ZifyNat.
From Verif Require Import Base Types Uart Buffalo CmdTable Zpi Api App Machine Life World SpecMachine SpecProgress SpecWorld SpecWorldProgress
  MachineBase MachineInv MachineInv2 MachineInv3 MachineInv4 MachineInv5 MachineProofs MachineProofs2 MachineProgress
  LifeProofs2 WorldInv WorldBase WorldLife WorldOps WorldProofs WorldProofs2 WorldFresh WorldProofs4 WorldProgress WorldProgress2 MachineFair MachineFair2 WholeHost WholeBase WholeProofs2.

Lemma fit_winv s : Winv s -> At_rest s -> Fit s.
Proof.
  intros V R. constructor; [| exact R|exact (V_due s V)| | |exact (V_num s V)].
  - split; [exact (V_tids s V)|]. split; [exact (V_lock s V)|exact (V_queue s V)].
  - intros t k G. destruct (V_tasks s V t k G) as [_ O]. destruct (t_phase k); try exact I; destruct O as (o & O & _); exists o; exact O.
  - intros t k G. pose proof (V_waiters s V t k G) as W. unfold WaitsW, Waits in W. destruct (t_phase k); try exact I; [|exact W].
    destruct W as (o & m & to & a & f & bs & _ & _ & _ & _ & _ & _ & (la & lb & _ & _ & _ & _ & _ & W)). destruct (s_futs s i); try discriminate. contradiction.
Qed.
Lemma fit_world w a s : wreachable w -> nth_error (w_apis w) a = Some s -> Fit s.
Proof. intros R A. apply fit_winv; [eapply wreach_winv; eassumption|]. destruct (wreach_fresh w R) as (_ & _ & Re). eapply Re, A. Qed.
Lemma done_fut_x s s' i r : xprim s s' -> Ids s -> s_futs s i = FDone r -> s_futs s' i = FDone r.
Proof.
  intros H D E. assert (S : settled (s_futs s i)) by (rewrite E; discriminate).
  assert (Hi : i <> s_next s) by (intros ->; apply S; destruct D as (_ & _ & _ & Hf); apply Hf; lia).
  revert D E S Hi. start_x H; intros D E S Hi; try exact E.
  - rewrite (settled_prim _ _ i H D S). exact E.
  - unfold wait_for. opn. rewrite upd_other by exact Hi. exact E.
Qed.
Lemma done_fut_xs s s' i r : xprims s s' -> Winv s -> s_futs s i = FDone r -> s_futs s' i = FDone r.
Proof. induction 1 as [|s1 s2 s3 H Hs IH]; intros V E; [exact E|]. apply IH; [eapply winv_x; eassumption|]. eapply done_fut_x; [exact H|apply V|exact E]. Qed.

(** one turn of a coroutine of an API object *)
Lemma step_task w a s u : nth_error (w_apis w) a = Some s -> nth_error (w_apis (world_step (VTask a u) w)) a = Some (resume u s).
Proof. intro A. cbn [world_step]. rewrite apis_afters. apply nth_on_api, A. Qed.
Lemma step_timeout w a s u : nth_error (w_apis w) a = Some s -> nth_error (w_apis (world_step (VTimeout a u) w)) a = Some (wait_timeout u s).
Proof. intro A. cbn [world_step]. rewrite apis_afters. apply nth_on_api, A. Qed.

Lemma wround_nearer w T fs a s t k : wreachable w -> nth_error (w_apis w) a = Some s -> 30000 <= T -> get s t = Some k -> late (t_phase k) -> ended (t_phase k) = false ->
  (forall m to, t_job k = JWaitFor m to -> to <= T) -> wserving T w fs ->
  exists s' k', nth_error (w_apis (world_run fs w)) a = Some s' /\ get s' t = Some k' /\ late (t_phase k') /\ rounds s' t k' < rounds s t k.
Proof.
  intros R A HT G L E J (fa & fb & -> & Hel & _ & Hb). destruct (keyed_exists s t k (fit_world w a s R A) G L E) as (u & ku & Ku & Gu & Eu).
  assert (Hu : In u (pending (s_log s))) by (apply (proj1 (proj2 (wreach_pend w a s R A))); exists ku; auto).
  destruct (Hb a s u A Hu) as (b1 & b2 & b3 & ->). rewrite !wrun_app. set (wa := world_run fa w). set (w1 := world_run b1 wa).
  change (world_run (VTimeout a u :: b2 ++ VTask a u :: b3) w1) with (world_run (b2 ++ VTask a u :: b3) (world_step (VTimeout a u) w1)). set (w1' := world_step (VTimeout a u) w1).
  rewrite wrun_app. set (w2 := world_run b2 w1'). change (world_run (VTask a u :: b3) w2) with (world_run b3 (world_step (VTask a u) w2)). set (w2' := world_step (VTask a u) w2).
  assert (Ra : wreachable wa) by apply wreach_run, R. assert (R1 : wreachable w1) by apply wreach_run, Ra. assert (R1' : wreachable w1') by apply (wreach_run w1 [VTimeout a u] R1).
  assert (R2 : wreachable w2) by apply wreach_run, R1'. assert (R2' : wreachable w2') by apply (wreach_run w2 [VTask a u] R2). assert (R3 : wreachable (world_run b3 w2')) by apply wreach_run, R2'.
  destruct (ext_run w fa R a s A) as (sa & Aa & Xa). fold wa in Aa. destruct (ext_run wa b1 Ra a sa Aa) as (s1 & A1 & X1). fold w1 in A1.
  pose proof (step_timeout w1 a s1 u A1) as A1'. fold w1' in A1'. destruct (ext_run w1' b2 R1' a _ A1') as (s2 & A2 & X2). fold w2 in A2.
  pose proof (step_task w2 a s2 u A2) as A2'. fold w2' in A2'. destruct (ext_run w2' b3 R2' a _ A2') as (s3 & A3 & X3).
  pose proof (now_run w fa R) as Na. fold wa in Na. rewrite <- (api_now w a s R A), <- (api_now wa a sa Ra Aa) in Na.
  destruct (fit_round s t k u T (fit_world w a s R A) G L Ku HT J s1 s2 s3) as (k3 & G3 & L3 & W3);
    try exact (fit_world _ a _ R1 A1); try exact (fit_world _ a _ R1' A1'); try exact (fit_world _ a _ R2 A2); try exact (fit_world _ a _ R2' A2'); try exact (fit_world _ a _ R3 A3); try (apply fprims_xprims; assumption).
  - apply fprims_xprims. eapply xprims_app; eassumption.
  - pose proof (now_xs _ _ X1). lia.
  - apply fprims_xprims, timeout_x.
  - intros i r Hi. eapply done_fut_xs; [|eapply (wreach_winv w1 a s1); eassumption|exact Hi]. eapply xprims_app; [apply timeout_x|exact X2].
  - pose proof (now_xs _ _ X2). pose proof (now_xs _ _ (timeout_x s1 u)). lia.
  - apply fprims_xprims, resume_x.
  - exists s3, k3. auto.
Qed.
Lemma wrounds_end T rss : forall w a s t k, wreachable w -> nth_error (w_apis w) a = Some s -> 30000 <= T -> get s t = Some k -> late (t_phase k) ->
  (forall m to, t_job k = JWaitFor m to -> to <= T) -> wserving_rounds T w rss -> rounds s t k <= Z.of_nat (length rss) ->
  exists s' k', nth_error (w_apis (world_run (concat rss) w)) a = Some s' /\ get s' t = Some k' /\ ended (t_phase k') = true.
Proof.
  induction rss as [|r rs IH]; intros w a s t k R A HT G L J HF Hlen.
  - exists s, k. split; [exact A|]. split; [exact G|]. cbn [length] in Hlen. unfold rounds in Hlen. pose proof (line_nonneg s t). destruct (t_phase k); cbn [weight] in Hlen; try reflexivity; try contradiction; lia.
  - destruct (ended (t_phase k)) eqn:E.
    + destruct (ext_run w (concat (r :: rs)) R a s A) as (s' & A' & X). exists s', k. split; [exact A'|]. split; [eapply done_xs; eassumption|exact E].
    + destruct HF as [H1 H2]. cbn [concat]. rewrite wrun_app. destruct (wround_nearer w T r a s t k R A HT G L E J H1) as (s1 & k1 & A1 & G1 & L1 & R1).
      assert (J1 : t_job k1 = t_job k).
      { destruct (ext_run w r R a s A) as (s1' & A1' & X). assert (s1' = s1) by congruence. subst s1'. destruct (job_xs s s1 X t k G) as (k1' & G1' & J1). congruence. }
      apply (IH (world_run r w) a s1 t k1 (wreach_run w r R) A1 HT G1 L1); [rewrite J1; exact J|exact H2|]. cbn [length] in Hlen. lia.
Qed.
(** what is unfinished is past its beginning after its first turn *)
Lemma wfirst_round w T r a s t k : wreachable w -> nth_error (w_apis w) a = Some s -> get s t = Some k -> wserving T w r ->
  exists s' k', nth_error (w_apis (world_run r w)) a = Some s' /\ get s' t = Some k' /\ late (t_phase k') /\ t_job k' = t_job k.
Proof.
  intros R A G (fa & fb & -> & _ & _ & Hb).
  assert (Rest : forall w1 s1 k1 fs, wreachable w1 -> nth_error (w_apis w1) a = Some s1 -> get s1 t = Some k1 -> late (t_phase k1) -> t_job k1 = t_job k ->
    exists s' k', nth_error (w_apis (world_run fs w1)) a = Some s' /\ get s' t = Some k' /\ late (t_phase k') /\ t_job k' = t_job k).
  { intros w1 s1 k1 fs R1 A1 G1 L1 J1. destruct (ext_run w1 fs R1 a s1 A1) as (s2 & A2 & X). pose proof (fit_world w1 a s1 R1 A1) as F.
    destruct (nearer_fs s1 s2 t k1 (fprims_xprims _ _ X) (Fit_sound _ F) G1) as (k2 & G2 & N). destruct (job_xs _ _ X t k1 G1) as (k2' & G2' & J2).
    exists s2, k2. split; [exact A2|]. split; [exact G2|]. split; [eapply late_nearer; eassumption|congruence]. }
  destruct (ended (t_phase k)) eqn:E.
  { apply (Rest w s k); auto. destruct (t_phase k); try discriminate E. exact I. }
  assert (Hu : In t (pending (s_log s))) by (apply (proj1 (proj2 (wreach_pend w a s R A))); exists k; auto).
  destruct (Hb a s t A Hu) as (b1 & b2 & b3 & ->). rewrite app_assoc. change (VTimeout a t :: b2 ++ VTask a t :: b3) with ((VTimeout a t :: b2) ++ VTask a t :: b3). rewrite app_assoc, wrun_app.
  set (f := (fa ++ b1) ++ VTimeout a t :: b2). set (w2 := world_run f w). change (world_run (VTask a t :: b3) w2) with (world_run b3 (world_step (VTask a t) w2)).
  assert (R2 : wreachable w2) by apply wreach_run, R. destruct (ext_run w f R a s A) as (s2 & A2 & X2). fold w2 in A2.
  destruct (job_xs _ _ X2 t k G) as (k2 & G2 & J2). pose proof (step_task w2 a s2 t A2) as A3. pose proof (wreach_run w2 [VTask a t] R2) as R3. change (world_run [VTask a t] w2) with (world_step (VTask a t) w2) in R3.
  pose proof (fit_world _ a _ R3 A3) as F3. pose proof (fit_world _ a _ R2 A2) as F2.
  destruct (resume_late s2 t k2 (Fit_sound _ F2) G2) as (k3 & G3 & L3); [apply (V_tasks _ (wreach_winv w2 a s2 R2 A2) t k2 G2)|apply F3|].
  assert (Hn : t_phase k2 <> PAdm) by (intro C; pose proof (Fit_rest s2 F2 t k2 G2) as C'; rewrite C in C'; discriminate C').
  apply (Rest _ _ k3 b3 R3 A3 G3 (L3 Hn)). destruct (job_xs _ _ (resume_x s2 t) t k2 G2) as (k3' & G3' & J3). congruence.
Qed.

(** ** operations that have a slot *)
Definition stays (p p' : op_place) : Prop :=
  match p with
  | OInside q _ _ => p' = p \/ (exists u, p' = OSettling q u) \/ exists r, p' = OOver r
  | OSettling _ _ => p' = p \/ exists r, p' = OOver r
  | OOver _ => p' = p
  | _ => True
  end.
Lemma stays_refl p : stays p p.
Proof. destruct p; cbn; auto. Qed.
Lemma stays_trans p p' p'' : stays p p' -> stays p' p'' -> stays p p''.
Proof.
  destruct p as [|q|q a t|q u|r]; cbn [stays]; auto.
  - intros [->|[(u & ->)|(r & ->)]]; cbn [stays]; [auto|intros [->|(r & ->)]; eauto|intros ->; eauto].
  - intros [->|(r & ->)]; cbn [stays]; [auto|intros ->; eauto].
  - intros ->. cbn [stays]. auto.
Qed.
Lemma stays_p w w' n o : wprim w w' -> the_op w n = Some o -> exists o', the_op w' n = Some o' /\ stays (op_at o) (op_at o').
Proof.
  intros H G.
  assert (Same : the_op w' n = the_op w n -> exists o', the_op w' n = Some o' /\ stays (op_at o) (op_at o')) by (intros ->; exists o; split; [exact G|apply stays_refl]).
  assert (Put : forall m p v o', the_op w m = Some p -> w_ops v = w_ops w -> the_op w' n = the_op (put_op m o' v) n -> stays (op_at p) (op_at o') ->
    exists o'', the_op w' n = Some o'' /\ stays (op_at o) (op_at o'')).
  { intros m p v o' Gm Ev E S. rewrite E, the_op_put. rewrite (the_op_eq w) by exact Ev. rewrite (the_op_eq w v n) by exact Ev. rewrite Gm.
    destruct (Nat.eqb_spec m n) as [->|N]; [exists o'; split; [reflexivity|]|exists o; split; [exact G|apply stays_refl]]. congruence. }
  destruct H as [w a s s' A X F S|w ms H|w e|w x Hx|w d|w p|w j Hj|w m p obj Gm P B W|w m p obj a s mm q sq Gm P B W C A Cr|w m p obj q v Gm P O Q V Hv
    |w m p obj q v a s Gm O P V Hv C A|w m p e Gm P|w m p q a t k x Gm P T D Se|w m p q v r Gm P V]; try (apply Same; reflexivity).
  - apply Same. unfold the_op. wfld. rewrite nth_error_app1; [reflexivity|]. unfold the_op in G. apply nth_lt in G. exact G.
  - eapply (Put m p w); [exact Gm|reflexivity|reflexivity|]. rewrite P. exact I.
  - eapply (Put m p); [exact Gm|reflexivity|reflexivity|]. rewrite P. exact I.
  - eapply (Put m p w); [exact Gm|reflexivity|reflexivity|]. rewrite P. exact I.
  - eapply (Put m p); [exact Gm| |reflexivity|]; [reflexivity|]. destruct P as [[-> _]| ->]; exact I.
  - eapply (Put m p w); [exact Gm|reflexivity|reflexivity|]. cbn [moved op_at]. destruct P as [[P _]|[[P _]|[[P _]|[[(q & P) _]|[[P|(q & P)] _]]]]]; rewrite P; exact I.
  - eapply (Put m p w); [exact Gm|reflexivity|reflexivity|]. cbn [moved op_at]. rewrite P. cbn [stays]. eauto.
  - eapply (Put m p); [exact Gm| |reflexivity|]; [reflexivity|]. cbn [moved op_at].
    destruct P as [(a & t & k & x & P & _)|[(a & t & k & e & P & _)|[(a & t & k & c & P & _)|[(u & P & _)|(u & P & _)]]]]; rewrite P; cbn [stays]; eauto.
Qed.
Lemma stays_run w es n o : wreachable w -> the_op w n = Some o -> exists o', the_op (world_run es w) n = Some o' /\ stays (op_at o) (op_at o').
Proof.
  revert w o. induction es as [|e es IH]; intros w o R G; [exists o; split; [exact G|apply stays_refl]|]. change (world_run (e :: es) w) with (world_run es (world_step e w)).
  assert (X : forall w w', wprims w w' -> forall o, the_op w n = Some o -> exists o', the_op w' n = Some o' /\ stays (op_at o) (op_at o')).
  { induction 1 as [v|v1 v2 v3 H Hs IHs]; intros p Gp; [exists p; split; [exact Gp|apply stays_refl]|]. destruct (stays_p v1 v2 n p H Gp) as (p1 & G1 & S1).
    destruct (IHs p1 G1) as (p2 & G2 & S2). exists p2. split; [exact G2|eapply stays_trans; eassumption]. }
  destruct (X _ _ (world_step_p e w (wreach_good w R)) o G) as (o1 & G1 & S1). destruct (IH _ o1 (wreach_run w [e] R) G1) as (o2 & G2 & S2).
  exists o2. split; [exact G2|eapply stays_trans; eassumption].
Qed.
Lemma over_log w n o r : wreachable w -> the_op w n = Some o -> op_at o = OOver r -> In (WEnded n r) (w_log w).
Proof. intros R G P. destruct (wreach_all w R) as [_ AH _ _ _]. destruct (proj1 AH n o G) as [_ Hr]. rewrite P in Hr. apply Hr. Qed.
Lemma passed_app a b : passing (a ++ b) = passing a + passing b.
Proof. induction a as [|e a IH]; cbn [app passing fold_right]; [reflexivity|]. fold (passing (a ++ b)). fold (passing a). destruct e; lia. Qed.
Lemma passed_nonneg a : 0 <= passing a.
Proof. induction a as [|e a IH]; cbn [passing fold_right]; [lia|]. fold (passing a). destruct e; lia. Qed.
(** one round ends the settling *)
Lemma settling_round w T r n o q u : wreachable w -> 30000 <= T -> wserving T w r -> the_op w n = Some o -> op_at o = OSettling q u ->
  exists x, In (WEnded n x) (w_log (world_run r w)).
Proof.
  intros R HT (fa & fb & -> & Hel & Ho & _) G P.
  assert (Hn : In n (unfinished_ops (w_log w))) by (apply is_unfinished; [exact R|]; exists o; split; [exact G|unfold over; rewrite P; reflexivity]).
  specialize (Ho n Hn). apply in_split in Ho as (b1 & b2 & ->). rewrite app_assoc, wrun_app. set (w1 := world_run (fa ++ b1) w).
  change (world_run (VRun n :: b2) w1) with (world_run b2 (op_run n w1)). assert (R1 : wreachable w1) by apply wreach_run, R.
  assert (R2 : wreachable (op_run n w1)) by apply (wreach_run w1 [VRun n] R1).
  destruct (stays_run w (fa ++ b1) n o R G) as (o1 & G1 & S1). fold w1 in G1. rewrite P in S1.
  assert (K : exists o2 x, the_op (op_run n w1) n = Some o2 /\ op_at o2 = OOver x).
  { unfold op_run. rewrite G1. destruct S1 as [E|(x & E)]; rewrite E.
    - assert (U : u <= w_now w1).
      { destruct (wreach_all w R) as [_ AH _ _ _]. destruct (proj1 AH n o G) as [_ Hu]. rewrite P in Hu. pose proof (now_run w (fa ++ b1) R) as N. fold w1 in N.
        assert (passing fa <= passing (fa ++ b1)).
        { rewrite passed_app. pose proof (passed_nonneg b1). lia. }
        lia. }
      replace (u <=? w_now w1) with true by lia. destruct (leave_ops n q (outcome_of_result (op_job o1) None) w1) as (_ & _ & _ & X). rewrite (X o1 G1). do 2 eexists. split; reflexivity.
    - exists o1, x. auto. }
  destruct K as (o2 & x & G2 & P2). exists x. pose proof (over_log _ n o2 x R2 G2 P2) as H. destruct (log_run (op_run n w1) b2 R2) as [l ->]. apply in_or_app. left. exact H.
Qed.
Lemma wserving_app T r1 : forall w r2, wserving_rounds T w (r1 ++ r2) -> wserving_rounds T w r1 /\ wserving_rounds T (world_run (concat r1) w) r2.
Proof.
  induction r1 as [|r r1 IH]; intros w r2 H; [split; [exact I|exact H]|]. cbn [app wserving_rounds concat] in *. destruct H as [H1 H2]. rewrite wrun_app.
  destruct (IH _ _ H2). auto.
Qed.

(** ** what ends when *)
Lemma task_ended_log w a s t k : wreachable w -> nth_error (w_apis w) a = Some s -> get s t = Some k -> ended (t_phase k) = true -> exists r, In (OEnded t r) (s_log s).
Proof.
  intros R A G E. destruct (t_phase k) eqn:P; try discriminate E. exists r. destruct (V_life _ (wreach_winv w a s R A)) as [L _]. specialize (L t k G). rewrite P in L.
  assert (H : In (OEnded t r) (trace t (s_log s))).
  { destruct L as [->|[->|[(l0 & _ & ->)|(l0 & at_ & bs & _ & ->)]]]; [right; left; reflexivity|right|..]; apply in_or_app; right; cbn [In]; tauto. }
  apply filter_In in H. apply H.
Qed.
Lemma wrounds_over T rs w a s t k : wreachable w -> nth_error (w_apis w) a = Some s -> 30000 <= T -> get s t = Some k -> late (t_phase k) ->
  (forall m to, t_job k = JWaitFor m to -> to <= T) -> wserving_rounds T w rs -> rounds s t k <= Z.of_nat (length rs) ->
  exists s' x, nth_error (w_apis (world_run (concat rs) w)) a = Some s' /\ In (OEnded t x) (s_log s').
Proof.
  intros R A HT G L J HF Hlen. destruct (wrounds_end T rs w a s t k R A HT G L J HF Hlen) as (s' & k' & A' & G' & E').
  destruct (task_ended_log _ a s' t k' (wreach_run w (concat rs) R) A' G' E') as (x & H). eauto.
Qed.
Lemma wno_wait_for s t k : TasksW s -> get s t = Some k -> match t_phase k with PLock | PWait _ _ => True | _ => False end -> forall m to, t_job k = JWaitFor m to -> False.
Proof. intros Ta G P m to J. destruct (Ta t k G) as [_ O]. rewrite J in O. destruct (t_phase k); try contradiction; destruct O as (o & _ & B); discriminate B. Qed.
Lemma wwaiting_ends w T rs a s t q1 q2 : wreachable w -> nth_error (w_apis w) a = Some s -> 30000 <= T -> wserving_rounds T w rs -> waiting (s_log s) = q1 ++ t :: q2 ->
  4 + 2 * Z.of_nat (length q1) <= Z.of_nat (length rs) -> exists s' x, nth_error (w_apis (world_run (concat rs) w)) a = Some s' /\ In (OEnded t x) (s_log s').
Proof.
  intros R A HT HF W Hlen. pose proof (wreach_winv w a s R A) as V. rewrite (proj1 (V_waiting _ V)) in W.
  destruct (V_queue _ V) as (Nd & Q1 & _). destruct (Q1 t) as (k & G & Hq); [rewrite W; apply in_or_app; right; left; reflexivity|].
  assert (P : t_phase k = PLock) by (destruct (t_phase k); try discriminate Hq; reflexivity).
  apply (wrounds_over T rs w a s t k R A HT G); [rewrite P; exact I| |exact HF|].
  - intros m to J. exfalso. eapply wno_wait_for; [exact (V_tasks _ V)|exact G|rewrite P; exact I|exact J].
  - unfold rounds. rewrite P. unfold line, held. rewrite W. rewrite (ahead_app t q1 q2); [destruct (s_lock s); lia|]. rewrite W in Nd. intro C. apply NoDup_remove_2 in Nd. apply Nd, in_or_app. left. exact C.
Qed.
Lemma wholding_ends w T rs a s t : wreachable w -> nth_error (w_apis w) a = Some s -> 30000 <= T -> wserving_rounds T w rs -> holder (s_log s) = Some t ->
  2 <= Z.of_nat (length rs) -> exists s' x, nth_error (w_apis (world_run (concat rs) w)) a = Some s' /\ In (OEnded t x) (s_log s').
Proof.
  intros R A HT HF W Hlen. pose proof (wreach_winv w a s R A) as V. rewrite (proj1 (V_link _ V)) in W.
  destruct (rest_holder s t (fit_world w a s R A) W) as (k & i & d & G & P).
  apply (wrounds_over T rs w a s t k R A HT G); [rewrite P; exact I| |exact HF|unfold rounds; rewrite P; cbn [weight]; lia].
  intros m to J. exfalso. eapply wno_wait_for; [exact (V_tasks _ V)|exact G|rewrite P; exact I|exact J].
Qed.
(** the first round, and then as many as there are waiting *)
Lemma wtask_ends T r rs w a s s1 t k : wreachable w -> nth_error (w_apis w) a = Some s -> 30000 <= T -> get s t = Some k -> (forall m to, t_job k = JWaitFor m to -> to <= T) ->
  wserving_rounds T w (r :: rs) -> nth_error (w_apis (world_run r w)) a = Some s1 -> 2 + 2 * Z.of_nat (length (waiting (s_log s1))) <= Z.of_nat (length rs) ->
  exists s' k', nth_error (w_apis (world_run (concat (r :: rs)) w)) a = Some s' /\ get s' t = Some k' /\ ended (t_phase k') = true.
Proof.
  intros R A HT G J [H1 H2] A1 Hlen. pose proof (wreach_run w r R) as R1. cbn [concat]. rewrite wrun_app.
  destruct (wfirst_round w T r a s t k R A G H1) as (s1' & k1 & A1' & G1 & L1 & J1). assert (s1' = s1) by congruence. subst s1'.
  apply (wrounds_end T rs (world_run r w) a s1 t k1 R1 A1 HT G1 L1); [rewrite J1; exact J|exact H2|].
  rewrite (proj1 (V_waiting _ (wreach_winv _ a s1 R1 A1))) in Hlen. pose proof (rounds_late s1 t k1 (fit_world _ a s1 R1 A1) G1 L1). lia.
Qed.
Lemma wworking_ends T r rs w n q a s1 : wreachable w -> 30000 <= T -> wserving_rounds T w (r :: rs) -> In (n, q, a) (working (w_log w)) ->
  nth_error (w_apis (world_run r w)) a = Some s1 -> 3 + 2 * Z.of_nat (length (waiting (s_log s1))) <= Z.of_nat (length rs) ->
  exists x, In (WEnded n x) (w_log (world_run (concat (r :: rs)) w)).
Proof.
  intros R HT HF Hw A1 Hlen. destruct (wreach_all w R) as [AL AH AW AC AG]. destruct (proj1 (proj2 AW) n q a Hw) as (o & G & P).
  assert (Rest : forall r1 r2 o1, r :: rs = r1 ++ r2 -> r2 <> [] -> the_op (world_run (concat r1) w) n = Some o1 -> (exists u, op_at o1 = OSettling q u) \/ (exists x, op_at o1 = OOver x) ->
    exists x, In (WEnded n x) (w_log (world_run (concat (r :: rs)) w))).
  { intros r1 r2 o1 E Ne G1 P1. rewrite E in *. rewrite concat_app, wrun_app. destruct (wserving_app T r1 w r2 HF) as [_ F2]. set (w1 := world_run (concat r1) w) in *.
    assert (R1 : wreachable w1) by apply wreach_run, R. destruct P1 as [(u & P1)|(x & P1)].
    - destruct r2 as [|r' r2]; [congruence|]. destruct F2 as [F2 _]. destruct (settling_round w1 T r' n o1 q u R1 HT F2 G1 P1) as (x & Hx). exists x.
      cbn [concat]. rewrite wrun_app. destruct (log_run (world_run r' w1) (concat r2) (wreach_run w1 r' R1)) as [l ->]. apply in_or_app. left. exact Hx.
    - exists x. pose proof (over_log w1 n o1 x R1 G1 P1) as Hx. destruct (log_run w1 (concat r2) R1) as [l ->]. apply in_or_app. left. exact Hx. }
  destruct P as [(t & P)|(u & P)]; [|apply (Rest [] (r :: rs) o); [reflexivity|discriminate|exact G|eauto]].
  destruct (proj1 AH n o G) as [_ Hm]. rewrite P in Hm. destruct Hm as (k & (s & A & Gk) & _ & _ & _ & obj & _ & Jk & _).
  destruct rs as [|r0 rs0] using rev_ind; [cbn [length] in Hlen; lia|clear IHrs0].
  destruct (wtask_ends T r rs0 w a s s1 t k R A HT Gk) as (s' & k' & A' & G' & E').
  - intros m to J. congruence.
  - change (r :: rs0 ++ [r0]) with ((r :: rs0) ++ [r0]) in HF. apply (wserving_app T (r :: rs0) w [r0] HF).
  - exact A1.
  - rewrite app_length in Hlen. cbn [length] in Hlen. lia.
  - destruct (stays_run w (concat (r :: rs0)) n o R G) as (o1 & G1 & S1). apply (Rest (r :: rs0) [r0] o1); [reflexivity|discriminate|exact G1|]. rewrite P in S1.
    destruct S1 as [S1|[S1|S1]]; [exfalso|auto..]. destruct (wreach_fresh _ (wreach_run w (concat (r :: rs0)) R)) as (_ & F & _).
    rewrite (F n o1 G1 q a t k' S1 (ex_intro _ s' (conj A' G'))) in E'. discriminate E'.
Qed.
