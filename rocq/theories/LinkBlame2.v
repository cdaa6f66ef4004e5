(** * LinkBlame2: time, the port and the ways in which the tasks of one API object end *)
From Coq Require Import ZifyBool ZifyNat.
From Verif Require Import Base Types Uart Buffalo CmdTable Zpi Api App Machine Life World SpecWire SpecCodec SpecApi SpecMachine SpecFirst SpecBlame SpecWorld SpecWorldBlame
  UartProofs CodecProofs CodecProofs2 ApiProofs AppProofs MachineBase MachineInv MachineInv2 MachineInv3 MachineInv4 MachineInv5 DispatchProofs MachineProofs MachineProofs2
  MachineProofs3 MachineProofs4 MachineProofs6 MachineProofs11 MachineProofs12 MachineFair MachineFirst MachineBlame MachineProgress WorldInv WorldFace WorldBase LinkBlame.

(** ** time passes *)
Definition late_here (Sq : Z -> Prop) (s : st) (t : Z) : Prop := exists k, get s t = Some k /\
  match t_job k with
  | JWaitFor m to => exists la lb i at_ x, s_log s = la ++ ORegistered i at_ to :: lb /\ (t_phase k = PReg i x \/ t_phase k = PAwait i x) /\ at_ + to <= s_now s /\
      forall r, In (OReceived r) lb -> answers m r -> exists i', Sq i' /\ In (OCompleted i' r) lb
  | j => exists o, build j = Ok o /\ silence t o s
  end.
Lemma late_wait Sq s t k i d ms : Winv s -> Heeds Sq s -> 0 <= ms -> get s t = Some k -> t_phase k = PWait i d -> s_futs s i = FPending -> s_now s < d -> d <= s_now s + ms ->
  late_here Sq (set_now (s_now s + ms) s) t.
Proof.
  intros V Hd Hms G Hp Hf H1 H2. exists k. split; [exact G|]. pose proof (Hd t k G) as F1. unfold Heed in F1. rewrite Hp in F1.
  pose proof (V_waiters s V t k G) as W. unfold WaitsW, Waits in W. rewrite Hp in W.
  destruct W as (o & m & to & a & f & bs & Ho & Hb & Ha & Hu & Hbu & Hd1 & (la & lb & E & Hno & _ & _ & _ & Hw)). rewrite Hf in Hw.
  assert (S0 : silence t o (set_now (s_now s + ms) s)).
  { exists la, lb, a, bs. cbn [set_now s_log s_now]. split; [exact E|]. split; [exact Hno|]. split; [exists f; auto|]. split; [rewrite (awaited_patience _ _ _ Ha); lia|].
    intros r Hr Hrt. destruct Hw as [Hw|Hw]; [|lia]. exact (F1 o m to Ho Ha Hf Hw la lb a bs E r Hr (reply_is_for _ _ _ _ Ha Hrt)). }
  destruct (t_job k); try (exists o; split; [exact Hb|exact S0]). discriminate Hb.
Qed.
Lemma late_await Sq s t k i x ms a to m : Winv s -> Heeds Sq s -> 0 <= ms -> get s t = Some k -> (t_phase k = PReg i x \/ t_phase k = PAwait i x) -> s_futs s i = FPending ->
  t_job k = JWaitFor m to -> In (ORegistered i a to) (s_log s) -> s_now s < a + to -> a + to <= s_now s + ms -> late_here Sq (set_now (s_now s + ms) s) t.
Proof.
  intros V Hd Hms G Hp Hf Hj Hr H1 H2. exists k. split; [exact G|]. rewrite Hj. pose proof (Hd t k G) as F1. unfold Heed in F1.
  assert (F2 : exists m to at_ la lb, t_job k = JWaitFor m to /\ s_log s = la ++ ORegistered i at_ to :: lb /\ at_ <= s_now s /\
      (s_futs s i = FPending -> (exists w, In w (s_waiters s) /\ w_id w = i /\ w_matcher w = m) /\
         (forall r, In (OReceived r) lb -> is_for m r -> exists i', Sq i' /\ In (OCompleted i' r) lb) \/ at_ + to + 100 <= s_now s)).
  { destruct Hp as [Hp|Hp]; rewrite Hp in F1; destruct F1 as (m1 & to1 & a1 & la & lb & X1 & X2 & X3 & _ & X5); exists m1, to1, a1, la, lb; auto. }
  clear F1. destruct F2 as (m1 & to1 & a1 & la & lb & X1 & X2 & X3 & X5). assert (m1 = m) as -> by congruence. assert (to1 = to) as -> by congruence.
  destruct (registered_once s (V_regs s V) i a1 to a to) as [-> _]; [rewrite X2; apply in_or_app; right; left; reflexivity|exact Hr|].
  exists la, lb, i, a, x. cbn [set_now s_log s_now]. split; [exact X2|]. split; [exact Hp|]. split; [lia|]. intros r Hin Hm.
  destruct (X5 Hf) as [[_ X6]|X6]; [|lia]. apply X6; [exact Hin|]. unfold is_for. apply match_answers, Hm.
Qed.
Lemma link_tick Sq (L L' S : Z -> Prop) s ms : 0 <= ms -> (forall t, L t -> L' t) -> (forall t, late_here Sq (set_now (s_now s + ms) s) t -> L' t) ->
  Link_ok Sq L S s -> Link_ok Sq L' S (set_now (s_now s + ms) s).
Proof.
  intros Hms HL Hl [K1 K2 K3 K4 K5 K6]. constructor.
  - eapply winv_xs; [apply tick_x, Hms|exact K1].
  - exact K2.
  - exact K3.
  - exact K4.
  - intros t k G. eapply (heed_keep Sq s); [exact K1|exact G| |apply grows_refl|cbn [set_now s_now]; lia|auto|auto|auto|apply K5, G].
    intros l E r C. assert (l = []) as -> by (apply (app_inv_head (s_log s)); rewrite <- E; symmetry; apply app_nil_r). exact C.
  - apply (nowW_weaken L L' S S s HL (fun t x => x)) in K6. intros t k G. change (get s t = Some k) in G. specialize (K6 t k G). specialize (Hl t). unfold NowW1 in *. cbn [set_now s_futs s_now s_log] in *.
    destruct (t_phase k) eqn:Hp; try exact I; try exact K6.
    + intro Hf. destruct (K6 Hf) as [H1|H1]; [|right; exact H1]. destruct (Z_lt_le_dec (s_now s + ms) deadline) as [H2|H2]; [left; exact H2|].
      right. apply Hl. eapply late_wait; eassumption.
    + intro Hf. destruct (K6 Hf) as [(a & to & m & Hj & Hr & H1)|H1]; [|right; exact H1]. destruct (Z_lt_le_dec (s_now s + ms) (a + to)) as [H2|H2]; [left; exists a, to, m; auto|].
      right. left. apply Hl. eapply late_await; try eassumption. left. exact Hp.
    + intro Hf. destruct (K6 Hf) as [(a & to & m & Hj & Hr & H1)|H1]; [|right; exact H1]. destruct (Z_lt_le_dec (s_now s + ms) (a + to)) as [H2|H2]; [left; exists a, to, m; auto|].
      right. left. apply Hl. eapply late_await; try eassumption. right. exact Hp.
Qed.
Lemma link_flags Sq L S x s : Link_ok Sq L S s -> Link_ok Sq L S (flags x s).
Proof. intros [K1 K2 K3 K4 K5 K6]. constructor; try assumption. apply winv_flags, K1. Qed.
Lemma link_new Sq L S now : Link_ok Sq L S (new_api now).
Proof.
  constructor; try (intros ? ? C; discriminate C).
  - apply winv_new.
  - intros w [].
  - intros w q [].
  - apply good_nil.
Qed.

(** ** how tasks end *)
Lemma ends_gentle Sq C s s' : gentle Sq C s s' -> EndsW C s -> EndsW C s'.
Proof.
  intros [x x' _ _ _ _ _ H6|x j Hj|x o wid|x m q sq _ _|x b _|x f r Hf _] E t k e G Hp.
  - destruct (H6 t k e G Hp) as [G0|H]; [eapply E; eassumption|exact H].
  - opn_in G. look G; [eapply E; eassumption|discriminate Hp].
  - unfold called in G. opn_in G. look G; [eapply E; eassumption|discriminate Hp].
  - eapply E; [exact G|exact Hp].
  - eapply E; [exact G|exact Hp].
  - eapply E; [|exact Hp]. unfold received_here in G.
    destruct (dispatch_spec r (s_waiters (note (OReceived r) x)) (note (OReceived r) x)) as (pre & post & o' & y & _ & D & _). rewrite D in G. cbn [fst] in G.
    rewrite completes_nf in G. exact G.
Qed.
Lemma ends_weaken (P Q : Z -> Prop) s : (forall t, P t -> Q t) -> EndsW P s -> EndsW Q s.
Proof. intros H E t k x G Hp. destruct (E t k x G Hp) as [E1 E2]. split; [|exact E2]. intro X. destruct (E1 X); auto. Qed.
Lemma tasksW_objects s : TasksW s -> objects s.
Proof. intros Hc t k G. destruct (Hc t k G) as [_ Hk]. destruct (t_phase k); try exact I; destruct Hk as (o & Ho & _); eauto. Qed.
Lemma calmW_resume s t k : TasksW s -> get s t = Some k -> ended (t_phase k) = false -> calm t (unsendable (t_job k) CancelledError) (resume t s).
Proof.
  intros Hc G He. set (U := unsendable (t_job k) CancelledError). destruct (Hc t k G) as [_ Hk].
  assert (C0 : calm t U s). { intros k' G' E. assert (k' = k) as -> by congruence. rewrite E in He. discriminate He. }
  unfold resume. rewrite G. destruct (t_phase k) eqn:Hp; try exact C0.
  - apply calm_start. auto.
  - destruct Hk as (o & Ho & Hb). eapply calm_sem; try eassumption. auto.
  - destruct Hk as (o & Ho & Hb). destruct (s_lock s); [exact C0|]. destruct (s_queue s) as [|h q]; [exact C0|]. destruct (h =? t); [|exact C0].
    eapply calm_granted; try eassumption. auto.
  - destruct (s_futs s i) as [|r|]; try exact C0. destruct (t_obj k) as [o|]; [|exact C0]. 
    unfold request_raw_resume. destruct (z_type o); try apply calm_return.
    destruct (unexpected_status r (expected_of (t_job k))) as [c|]; [|apply calm_return].
    destruct (t_wid k) as [j|]; [|apply calm_raise; discriminate]. destruct (registered s j); [|apply calm_raise; discriminate].
    rewrite complete_nf. apply calm_raise. discriminate.
  - destruct Hk.
  - apply calm_goto. discriminate.
  - destruct (s_futs s i); try exact C0. apply calm_finish. discriminate.
Qed.
Lemma ends_resume C t0 s : TasksW s -> ends_ok C s (resume t0 s).
Proof.
  intros Hc t k x G Hp. destruct (Z.eq_dec t t0) as [->|D]; [|left; rewrite <- (resume_others_k s t0 (tasksW_objects s Hc) t D); exact G].
  pose proof (resume_prims s t0) as P.
  destruct (get s t0) as [k0|] eqn:G0; [|unfold resume in G; rewrite G0 in G; congruence].
  destruct (ended (t_phase k0)) eqn:E0; [left; pose proof (done_prims _ _ _ _ P G0 E0); congruence|]. right.
  destruct (same_job_prims _ _ P t0 k0 G0) as (k1 & G1 & Hj). assert (k1 = k) as -> by congruence. split.
  - intros ->. right. rewrite Hj. eapply calmW_resume; eassumption.
  - intros m to Hj2. rewrite Hj in Hj2. exfalso. unfold resume in G. rewrite G0 in G. destruct (Hc t0 k0 G0) as [_ Hk].
    destruct (t_phase k0) eqn:Hp0; try (destruct Hk as (o & _ & Hb); rewrite Hj2 in Hb; discriminate Hb); try (destruct Hk; fail); try discriminate E0.
    + unfold start in G. rewrite Hj2 in G. destruct (goto_phase _ _ _ _ G) as [X|X]; [congruence|]. rewrite get_wait_for in X. congruence.
    + destruct (goto_phase _ _ _ _ G) as [X|X]; congruence.
    + destruct (s_futs s i); try congruence. destruct (goto_phase _ _ _ _ G) as [X|X]; congruence.
Qed.
Lemma ends_timeout C t0 s : ends_ok C s (wait_timeout t0 s).
Proof.
  intros t k x G Hp. destruct (Z.eq_dec t t0) as [->|D]; [|left; rewrite <- (MachineBlame.timeout_others s t0 t D); exact G].
  unfold wait_timeout in G. destruct (get s t0) as [k0|] eqn:G0; [|congruence].
  assert (Ex : forall s1 r, get (finish t0 r s1) t0 = Some k -> r = OExn TimeoutError -> x = TimeoutError).
  { intros s1 r X ->. unfold finish in X. change (get (goto t0 (PDone (OExn TimeoutError)) s1) t0 = Some k) in X. destruct (goto_phase _ _ _ _ X) as [Y|Y]; [congruence|].
    unfold goto in X. rewrite Y in X. congruence. }
  assert (Same : get s t0 = Some k -> Some k0 = Some k) by (rewrite G0; auto).
  assert (Dec : x = TimeoutError \/ Some k0 = Some k).
  { destruct (t_phase k0); try (right; apply Same; exact G); destruct (s_futs s i); try (right; apply Same; exact G);
      (destruct (deadline <=? s_now s); [|right; apply Same; exact G]); left; [unfold raw_raise in G|]; (eapply Ex; [exact G|reflexivity]). }
  destruct Dec as [->|X]; [right; split; [discriminate|auto]|left; exact X].
Qed.
Lemma ends_cancel (C : Z -> Prop) t0 s : C t0 -> ends_ok C s (Machine.cancel t0 s).
Proof.
  intros HC t k x G Hp. destruct (Z.eq_dec t t0) as [->|D]; [|left; rewrite <- (MachineBlame.cancel_others s t0 t D); exact G].
  unfold Machine.cancel in G. destruct (get s t0) as [k0|] eqn:G0; [|congruence].
  assert (Ex : forall s1 r, get (finish t0 r s1) t0 = Some k -> r = OExn CancelledError -> x = CancelledError).
  { intros s1 r X ->. unfold finish in X. change (get (goto t0 (PDone (OExn CancelledError)) s1) t0 = Some k) in X. destruct (goto_phase _ _ _ _ X) as [Y|Y]; [congruence|].
    unfold goto in X. rewrite Y in X. congruence. }
  assert (Same : get s t0 = Some k -> Some k0 = Some k) by (rewrite G0; auto).
  assert (Dec : x = CancelledError \/ Some k0 = Some k).
  { destruct (t_phase k0); try (right; apply Same; exact G); left; try unfold raw_raise in G; (eapply Ex; [exact G|reflexivity]). }
  destruct Dec as [->|X]; [right; split; [auto|auto]|left; exact X].
Qed.
Lemma ends_same C s s' : s_tasks s' = s_tasks s -> ends_ok C s s'.
Proof. intros H t k x G _. left. unfold get in *. rewrite <- H. exact G. Qed.
Lemma ends_acquire C o wid s : Tids s -> ends_ok C (called o wid s) (call_raw o wid s).
Proof.
  intros T t k x G Hp. rewrite call_raw_split in G. set (k0 := mk_task (JRaw o [0]) PAdm (Some o) wid) in *. destruct (Z.eq_dec t (s_ntid s)) as [->|D].
  2:{ left. rewrite <- (proj1 (rests_acquire_lock (s_ntid s) k0 o (called o wid s) eq_refl) t D). exact G. }
  right. assert (P : prims (called o wid s) (acquire_lock (s_ntid s) k0 (called o wid s))) by (eapply acquire_lock_prims; [apply get_called, T|reflexivity..]).
  destruct (same_job_prims _ _ P (s_ntid s) k0 (get_called o wid s T)) as (k1 & G1 & Hj). assert (k1 = k) as -> by congruence. split.
  - intros ->. right. rewrite Hj. refine (calm_acquire (s_ntid s) (unsendable (t_job k0) CancelledError) k0 o _ eq_refl eq_refl (fun x => x) k G Hp).
  - intros m to Hj2. rewrite Hj in Hj2. discriminate Hj2.
Qed.

(** ** the steps of API objects are gentle *)
Lemma quiet_buf s s' : MachineProofs11.quiet s s' -> s_buf s' = s_buf s.
Proof. intros []. assumption. Qed.
Lemma gentle_resume Sq C t s : TasksW s -> gentle Sq C s (resume t s).
Proof. intro H. apply G_prims; [apply resume_prims|apply ntid_resume|apply face_resume|exact (rc_step (ERun t) s I)|apply quiet_buf, quiet_resume|apply ends_resume, H]. Qed.
Lemma gentle_timeout Sq C t s : gentle Sq C s (wait_timeout t s).
Proof. apply G_prims; [apply wait_timeout_prims|apply ntid_timeout|apply face_timeout|exact (rc_step (ETimeout t) s I)|apply quiet_buf, quiet_timeout|apply ends_timeout]. Qed.
Lemma gentle_cancel Sq (C : Z -> Prop) t s : C t -> gentle Sq C s (Machine.cancel t s).
Proof. intro H. apply G_prims; [apply cancel_prims|apply ntid_cancel|apply face_cancel|exact (rc_step (ECancel t) s I)|apply quiet_buf, quiet_cancel|apply ends_cancel, H]. Qed.
Lemma gentle_cleanup Sq C i s : gentle Sq C s (cleanup i s).
Proof.
  apply G_prims; [apply prims_one, P_cleanup|destruct (cleanup_nf i s) as [-> |[_ ->]]; reflexivity|apply face_cleanup|exact (rc_step (ECleanup i) s I)|apply quiet_buf, quiet_cleanup|].
  apply ends_same. destruct (cleanup_nf i s) as [-> |[_ ->]]; reflexivity.
Qed.
Lemma gentle_acquire Sq C o wid s : Tids s -> gentle Sq C (called o wid s) (call_raw o wid s).
Proof.
  intro T. pose proof (ends_acquire C o wid s T) as E. rewrite call_raw_split in *.
  apply G_prims; [eapply acquire_lock_prims; [apply get_called, T|reflexivity..]|apply ntid_acquire_lock|apply face_acquire_lock|apply rc_acquire_lock|apply quiet_buf, quiet_acquire_lock|exact E].
Qed.
