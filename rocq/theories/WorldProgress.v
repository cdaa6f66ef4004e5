(** * WorldProgress: nothing hangs across lost connections.  As MachineProgress2, for the application with all its API
    objects: a measure that every small transition lowers or leaves alike. *)
From Coq Require Import ZifyBool ZifyNat.
From Verif Require Import Base Types Uart Buffalo CmdTable Zpi Api App Machine Life World SpecMachine SpecProgress SpecWorld
  MachineBase MachineInv MachineInv2 MachineInv3 MachineInv4 MachineInv5 DispatchProofs MachineProofs MachineProofs2 MachineProofs4
  MachineProgress MachineProgress2 LifeProofs2 WorldInv WorldFace WorldBase WorldLife WorldOps WorldProofs WorldProofs2 WorldFresh.

(** ** one API object *)
Lemma prim_alike s s' : prim s s' -> Ids s -> s_ntid s' = s_ntid s -> level s' < level s \/ alike s s'.
Proof.
  intros H Hid E.
  assert (Hd : forall i r, s_futs s i = FDone r -> s_futs s' i = FDone r).
  { intros i r F. rewrite (settled_prim _ _ i H Hid); [exact F|rewrite F; discriminate]. }
  revert E Hd. unfold level, work, alike.
  start_prim H; intros E Hd;
    first [exfalso; lia
          |left; rewrite (total_put _ _ _ k) by assumption; unfold wt at 2 3; phases; cbn [weight]; lia
          |right; split; [unfold get; fld; auto|]; split; [exact Hd|]; repeat split; try reflexivity; lia].
Qed.
Lemma level_called o wid s : level (called o wid s) = level s - 2.
Proof. unfold level, work, called. opn. rewrite total_snoc. unfold wt at 2. cbn [t_phase weight]. lia. Qed.
Lemma level_spawn j s : level (spawn j s) = level s.
Proof. unfold level, work. opn. rewrite total_snoc. unfold wt at 2. cbn [t_phase weight]. lia. Qed.
Lemma xprim_alike s s' : xprim s s' -> Ids s -> level s' < level s \/ level s' = level s /\ alike s s'.
Proof.
  intros H Hid. start_x H.
  - pose proof (level_prim _ _ H) as L. destruct (prim_alike _ _ H Hid Hnt) as [W|A]; [left; exact W|].
    destruct (Z.eq_dec (level s') (level s)); [right; auto|left; lia].
  - right. rewrite level_spawn. split; [reflexivity|]. split; [intros t k G; apply spawn_still, G|]. repeat split; auto. opn. lia.
  - left. rewrite level_called. lia.
  - right. split; [reflexivity|]. split; [auto|]. split; [|repeat split; unfold wait_for, note; fld; lia].
    intros i r F. unfold wait_for, note. fld. destruct Hid as (_ & _ & _ & Hf).
    unfold upd. destruct (Z.eqb_spec i (s_next s)) as [->|]; [|exact F]. rewrite Hf in F by lia. discriminate.
  - right. split; [reflexivity|]. repeat split; auto. opn. lia.
  - right. split; [reflexivity|]. repeat split; auto. opn. lia.
Qed.
Lemma xprims_alike s s' : xprims s s' -> Winv s -> level s' < level s \/ level s' = level s /\ alike s s'.
Proof.
  induction 1 as [s|s1 s2 s3 H Hs IH]; intro V; [right; split; [reflexivity|apply alike_refl]|].
  destruct (IH (winv_x _ _ H V)) as [L|[L A]]; destruct (xprim_alike _ _ H (V_ids _ V)) as [L1|[L1 A1]]; try (left; lia).
  right. split; [lia|eapply alike_trans; eassumption].
Qed.
Lemma xrun_lowers s t : Winv s -> run_ready s t = true -> level (resume t s) < level s.
Proof.
  intros V H. unfold level. rewrite ntid_resume. enough (work (resume t s) < work s) by lia. apply run_lowers_k; [|exact H].
  intros k G. destruct (V_tasks _ V t k G) as [_ Hk]. destruct (t_phase k); try exact I; destruct Hk as (o & Ho & _); eauto.
Qed.
Lemma xtimeout_lowers s t : timeout_ready s t = true -> level (wait_timeout t s) < level s.
Proof. apply lower_timeout. Qed.
Lemma timeout_ready_x s s' t : WaitersW s' -> alike s s' -> timeout_ready s t = true -> run_ready s' t = true \/ timeout_ready s' t = true.
Proof.
  intros V (E1 & E2 & E3 & E4 & E5 & E6). unfold timeout_ready. destruct (get s t) as [k|] eqn:G; [|discriminate]. pose proof (E1 t k G) as G'. rewrite G'.
  pose proof (V t k G') as W. unfold WaitsW in W. unfold run_ready. rewrite G'.
  destruct (t_phase k) eqn:Hp; try discriminate.
  - unfold Waits in W. rewrite Hp in W. destruct W as (o & m & to & a & f & bs & _ & _ & _ & _ & _ & _ & (la & lb & _ & _ & _ & _ & _ & W)).
    destruct (s_futs s i); try discriminate. intro H. destruct (s_futs s' i); [right; lia|left; reflexivity|contradiction].
  - destruct (s_futs s i); try discriminate. intro H. destruct (s_futs s' i); [right; lia|left; reflexivity|contradiction].
Qed.
Definition xready (s : st) (t : Z) : Prop := run_ready s t = true \/ timeout_ready s t = true.
Lemma xready_alike s s' t : WaitersW s' -> alike s s' -> xready s t -> xready s' t.
Proof. intros V A [H|H]; [left; eapply run_ready_alike; eassumption|eapply timeout_ready_x; eassumption]. Qed.

(** not stuck *)
Lemma waitsW_ready s t k i d : WaitersW s -> MachineProgress.past s -> get s t = Some k -> (t_phase k = PWait i d \/ t_phase k = PAwait i d) -> xready s t.
Proof.
  intros V P G Hp. pose proof (V t k G) as W. specialize (P t k G). unfold WaitsW in W. unfold xready, run_ready, timeout_ready. rewrite G.
  destruct Hp as [Hp|Hp]; rewrite Hp in *.
  - unfold Waits in W. rewrite Hp in W. destruct W as (o & m & to & a & f & bs & _ & _ & _ & _ & _ & _ & (la & lb & _ & _ & _ & _ & _ & W)).
    destruct (s_futs s i); [right; apply Z.leb_le, P|left; reflexivity|contradiction].
  - destruct (s_futs s i); [right; apply Z.leb_le, P|left; reflexivity|contradiction].
Qed.
Lemma xnever_stuck s t k : Winv s -> At_rest s -> MachineProgress.past s -> get s t = Some k -> ended (t_phase k) = false ->
  exists t' k', get s t' = Some k' /\ ended (t_phase k') = false /\ xready s t'.
Proof.
  intros V R P G E. pose proof (R t k G) as Ha. destruct (V_tasks _ V t k G) as [Hu Hk].
  assert (Q : forall u ku, get s u = Some ku -> xready s u -> exists t' k', get s t' = Some k' /\ ended (t_phase k') = false /\ xready s t').
  { intros u ku Gu Hr. exists u, ku. split; [exact Gu|]. split; [|exact Hr]. unfold xready, run_ready, timeout_ready in Hr. rewrite Gu in Hr.
    destruct (t_phase ku); try reflexivity. destruct Hr; discriminate. }
  destruct (t_phase k) eqn:Hp; try discriminate; try contradiction.
  - apply (Q t k G). left. unfold run_ready. rewrite G, Hp. reflexivity.
  - apply (Q t k G). left. unfold run_ready. rewrite G, Hp, Hu. reflexivity.
  - destruct (s_lock s) as [h|] eqn:El.
    + destruct (proj1 (V_lock _ V) h El) as (kh & Gh & Hh). fold (get s h) in Gh. pose proof (R h kh Gh) as Rh.
      destruct (t_phase kh) eqn:Hph; try discriminate. apply (Q h kh Gh). eapply waitsW_ready; [apply V|exact P|exact Gh|left; exact Hph].
    + destruct (V_queue _ V) as (_ & Q1 & Q2). assert (Hin : In t (s_queue s)) by (eapply Q2; [exact G|rewrite Hp; reflexivity]).
      destruct (s_queue s) as [|h q] eqn:Eq; [destruct Hin|]. destruct (Q1 h ltac:(left; reflexivity)) as (kh & Gh & Hh). fold (get s h) in Gh.
      apply (Q h kh Gh). left. unfold run_ready. rewrite Gh. destruct (t_phase kh); try discriminate.
      rewrite El, Eq. apply Z.eqb_refl.
  - apply (Q t k G). eapply waitsW_ready; [apply V|exact P|exact G|left; exact Hp].
  - apply (Q t k G). left. unfold run_ready. rewrite G, Hp. reflexivity.
  - apply (Q t k G). eapply waitsW_ready; [apply V|exact P|exact G|right; exact Hp].
Qed.
Lemma pend_x s s' : xprim s s' -> Tids s -> Pend s -> Pend s'.
Proof.
  intros H Hc P.
  assert (Hnew : assoc (s_ntid s) (s_tasks s) = None) by apply new_task, Hc.
  assert (N : forall k, ended (t_phase k) = false -> PendP (pending (s_log s) ++ [s_ntid s]) (s_tasks s ++ [(s_ntid s, k)])).
  { intros k Ek. destruct P as (Nd & Hi & Hl). split; [apply nodup_snoc; [exact Nd|rewrite Hi; intros (x & G & _); congruence]|]. split.
    - intro t. rewrite in_app_iff, Hi. split.
      + intros [(x & G & Hx)|[<-|[]]].
        * exists x. rewrite assoc_snoc, G. auto.
        * eexists. rewrite assoc_snoc, Hnew, Z.eqb_refl. split; [reflexivity|exact Ek].
      + intros (x & G & Hx). rewrite assoc_snoc in G. destruct (assoc t (s_tasks s)); [left; eauto|].
        destruct (Z.eqb_spec (s_ntid s) t); [|discriminate]. right. left. assumption.
    - rewrite total_snoc, app_length. unfold open_ at 2. rewrite Ek. cbn [length]. lia. }
  start_x H.
  - clear N. unfold Pend in *. revert Hnt. start_prim H; intro Hnt; repeat rewrite pending_snoc; try exact P;
    try (eapply pend_same; [exact P|eassumption|phases; reflexivity]);
    try (eapply pend_out; [exact P|eassumption|phases; reflexivity|reflexivity]). lia.
  - unfold Pend. opn. rewrite pending_snoc. apply N. reflexivity.
  - unfold Pend, called. opn. rewrite pending_snoc. apply N. reflexivity.
  - unfold Pend, wait_for, note. fld. rewrite pending_snoc. exact P.
  - exact P.
  - exact P.
Qed.
Lemma pend_xs s s' : xprims s s' -> Winv s -> Pend s -> Pend s'.
Proof. induction 1 as [|s1 s2 s3 H Hs IH]; intros V P; [exact P|]. apply IH; [eapply winv_x; eassumption|eapply pend_x; [exact H|apply V|exact P]]. Qed.
Lemma calls_x s s' : xprim s s' -> s_ntid s' - calls (s_log s') = s_ntid s - calls (s_log s).
Proof.
  intro H. start_x H; [apply calls_prim, H|..]; unfold called, wait_for, note; opn; repeat rewrite calls_snoc; lia.
Qed.
Lemma calls_xs s s' : xprims s s' -> s_ntid s' - calls (s_log s') = s_ntid s - calls (s_log s).
Proof. induction 1 as [s|s1 s2 s3 H _ IH]; [reflexivity|]. rewrite <- (calls_x _ _ H). exact IH. Qed.

(** ** sums over API objects and over operations *)
Fixpoint zsum {A} (f : A -> Z) (l : list A) : Z := match l with [] => 0 | x :: r => f x + zsum f r end.
Lemma zsum_set {A} (f : A -> Z) l n x y : nth_error l n = Some x -> zsum f (set_nth n y l) = zsum f l - f x + f y.
Proof. revert n. induction l as [|z l IH]; intros [|n] H; cbn [nth_error set_nth zsum] in *; try discriminate; [injection H as <-; lia|]. rewrite (IH n H). lia. Qed.
Lemma zsum_app {A} (f : A -> Z) l k : zsum f (l ++ k) = zsum f l + zsum f k.
Proof. induction l as [|x l IH]; cbn [app zsum]; lia. Qed.
Lemma zsum_map {A B} (f : A -> Z) (g : B -> A) l : zsum f (map g l) = zsum (fun x => f (g x)) l.
Proof. induction l as [|x l IH]; cbn [map zsum]; lia. Qed.
Lemma zsum_ext {A} (f g : A -> Z) l : (forall x, f x = g x) -> zsum f l = zsum g l.
Proof. intro H. induction l as [|x l IH]; cbn [zsum]; [reflexivity|]. rewrite H. lia. Qed.
Lemma zsum_sync (f : st -> Z) now : (forall x s, f (flags x s) = f s) -> f (new_api now) = 0 ->
  forall l ms, (length ms <= length l)%nat -> zsum f (sync now l ms) = zsum f ms.
Proof.
  intros H0 H1. induction l as [|x l IH]; intros [|s ms] Hl; cbn [sync length zsum] in *; try lia.
  - rewrite H0, H1, IH by (cbn [length]; lia). reflexivity.
  - rewrite H0, IH by lia. reflexivity.
Qed.

Definition op_weight (p : op_place) : Z := match p with OBegin => 9 | OSlot _ => 8 | OInside _ _ _ => 2 | OSettling _ _ => 1 | OOver _ => 0 end.
Definition oweight (o : op) : Z := op_weight (op_at o).
Definition wlevel (w : world) : Z :=
  zsum level (w_apis w) + zsum oweight (w_ops w) - 9 * Z.of_nat (length (w_ops w)) + 7 * Z.of_nat (length (admitted_ops (w_log w))).
Definition walike (w w' : world) : Prop :=
  (forall a s, nth_error (w_apis w) a = Some s -> exists s', nth_error (w_apis w') a = Some s' /\ alike s s') /\
  (forall n o, the_op w n = Some o -> exists o', the_op w' n = Some o' /\ op_at o' = op_at o) /\
  (forall q v, nth_error (w_sems w) q = Some v -> nth_error (w_sems w') q = Some v) /\ w_now w <= w_now w'.
Lemma walike_refl w : walike w w.
Proof. split; [intros a s G; exists s; split; [exact G|apply alike_refl]|]. split; [eauto|]. split; [auto|lia]. Qed.
Lemma walike_trans u v w : walike u v -> walike v w -> walike u w.
Proof.
  intros (A1 & A2 & A3 & A4) (B1 & B2 & B3 & B4). split; [|split; [|split; [auto|lia]]].
  - intros a s G. destruct (A1 a s G) as (s1 & G1 & L1). destruct (B1 a s1 G1) as (s2 & G2 & L2). exists s2. split; [exact G2|eapply alike_trans; eassumption].
  - intros n o G. destruct (A2 n o G) as (o1 & G1 & L1). destruct (B2 n o1 G1) as (o2 & G2 & L2). exists o2. split; [exact G2|congruence].
Qed.
Lemma walike_apis (l : list st) a s s' : nth_error l a = Some s -> alike s s' ->
  forall b x, nth_error l b = Some x -> exists y, nth_error (set_nth a s' l) b = Some y /\ alike x y.
Proof.
  intros G A b x X. rewrite nth_set. destruct (Nat.eqb_spec b a) as [->|]; [|exists x; split; [exact X|apply alike_refl]].
  rewrite G in *. injection X as <-. eauto.
Qed.
Lemma same_apis (l : list st) : forall b x, nth_error l b = Some x -> exists y, nth_error l b = Some y /\ alike x y.
Proof. intros b x X. exists x. split; [exact X|apply alike_refl]. Qed.
Lemma same_ops w w' : w_ops w' = w_ops w -> forall n o, the_op w n = Some o -> exists o', the_op w' n = Some o' /\ op_at o' = op_at o.
Proof. intros E n o G. unfold the_op in *. rewrite E. eauto. Qed.
Lemma put_ops w w' m x p : the_op w m = Some x -> w_ops w' = set_nth m p (w_ops w) -> op_at p = op_at x ->
  forall n o, the_op w n = Some o -> exists o', the_op w' n = Some o' /\ op_at o' = op_at o.
Proof.
  intros G E A n o X. unfold the_op in *. rewrite E, nth_set. destruct (Nat.eqb_spec n m) as [->|]; [|eauto].
  rewrite G in *. injection X as <-. eauto.
Qed.
Lemma admitted_length l o : Z.of_nat (length (admitted_ops (l ++ [o]))) = Z.of_nat (length (admitted_ops l)) + match o with WAdmitted _ _ _ => 1 | _ => 0 end.
Proof. rewrite admitted_snoc, app_length. destruct o; cbn [length]; lia. Qed.
Lemma level_flags x s : level (flags x s) = level s.
Proof. reflexivity. Qed.
Lemma wprim_alike w w' : Good w -> Linked w -> wprim w w' -> wlevel w' < wlevel w \/ wlevel w' = wlevel w /\ walike w w'.
Proof.
  intros Gd L H. destruct H; unfold wlevel, walike.
  - (* api *)
    wfld. rewrite (zsum_set _ _ _ _ _ H).
    destruct (xprims_alike _ _ H0 (proj2 (proj2 Gd) a s H)) as [W|[W A]]; [left; lia|]. right. split; [lia|].
    split; [eapply walike_apis; [exact H|exact A]|]. split; [apply same_ops; reflexivity|]. split; [auto|lia].
  - right. wfld. rewrite zsum_map. split; [f_equal; f_equal|].
    split; [|split; [apply same_ops; reflexivity|split; [auto|lia]]].
    intros a s G. rewrite nth_map, G. eexists. split; [reflexivity|]. repeat split; auto. fld. lia.
  - right. unfold life_event_happens. wfld. split.
    + rewrite zsum_sync; [reflexivity|apply level_flags|reflexivity|].
      destruct L as ((es & E) & L2 & _). rewrite L2. 
      assert (B : book (w_life w)) by (rewrite E; apply book_run).
      destruct (Nat.le_gt_cases (length (y_apis (w_life w))) (length (y_apis (life_step e (w_life w))))) as [K|K]; [exact K|].
      exfalso. destruct (nth_error (y_apis (w_life w)) (length (y_apis (life_step e (w_life w))))) as [x|] eqn:X; [|apply nth_error_None in X; lia].
      destruct (moves_step e (w_life w) B _ x X) as (y & Y & _). apply nth_lt in Y. lia.
    + split; [|split; [apply same_ops; reflexivity|split; [auto|lia]]].
      intros a s A. rewrite sync_nth.
      destruct (nth_error (y_apis (w_life w)) a) as [x|] eqn:X; [|apply nth_lt in A; apply nth_error_None in X; destruct L as (_ & L & _); lia].
      destruct (moves_step e (w_life w) (linked_book w L) a x X) as (y & Y & _). rewrite Y, A. eexists. split; [reflexivity|].
      repeat split; auto. unfold flags. fld. lia.
  - right. wfld. rewrite admitted_length. split; [destruct o; try discriminate; lia|].
    split; [apply same_apis|]. split; [apply same_ops; reflexivity|]. split; [auto|lia].
  - right. split; [reflexivity|]. split; [apply same_apis|]. split; [apply same_ops; reflexivity|]. split; [auto|wfld; lia].
  - right. unfold got_version. wfld. rewrite admitted_length. split; [lia|].
    split; [apply same_apis|]. split; [apply same_ops; reflexivity|]. split; [|lia].
    intros q v G. rewrite nth_error_app1; [exact G|apply nth_lt in G; exact G].
  - right. wfld. rewrite admitted_length, zsum_app, app_length. cbn [zsum length]. split; [change (oweight (mk_op j None None OBegin)) with 9; lia|].
    split; [apply same_apis|]. split; [|split; [auto|lia]].
    intros n o G. exists o. split; [|reflexivity]. unfold the_op in *. wfld. rewrite nth_error_app1; [exact G|apply nth_lt in G; exact G].
  - right. wfld. rewrite (zsum_set _ _ _ _ _ H), len_set. split; [unfold oweight at 2 3; cbn [op_at with_obj]; rewrite H0; lia|].
    split; [apply same_apis|]. split; [|split; [auto|lia]].
    eapply put_ops; [exact H|reflexivity|rewrite H0; reflexivity].
  - right. wfld. rewrite (zsum_set _ _ _ _ _ H), (zsum_set _ _ _ _ _ H4), len_set, admitted_length.
    destruct (xprim_alike _ _ (X_wait s m Timeouts_default q) (V_ids _ (proj2 (proj2 Gd) a s H4))) as [C|[C A]]; [exfalso; revert C; unfold level; opn; unfold work; fld; lia|].
    split; [unfold oweight at 2 3; cbn [op_at with_obj]; rewrite H0; lia|].
    split; [eapply walike_apis; [exact H4|exact A]|]. split; [|split; [auto|lia]].
    eapply put_ops; [exact H|reflexivity|rewrite H0; reflexivity].
  - left. wfld. rewrite (zsum_set _ _ _ _ _ H), len_set. unfold oweight at 2 3. cbn [op_at moved]. rewrite H0. cbn [op_weight]. lia.
  - left. wfld. rewrite (zsum_set _ _ _ _ _ H), (zsum_set _ _ _ _ _ H5), len_set, admitted_length.
    assert (C : level (call_raw obj (option_map snd (op_waiter o)) s) <= level s - 2).
    { rewrite call_raw_split, <- (level_called obj (option_map snd (op_waiter o)) s). apply level_prims.
      eapply acquire_lock_prims; [apply get_called, (proj2 (proj2 Gd) a s H5)|reflexivity..]. }
    unfold oweight at 2 3. cbn [op_at moved op_weight]. destruct H1 as [[-> _]| ->]; cbn [op_weight]; lia.
  - left. wfld. rewrite (zsum_set _ _ _ _ _ H), len_set, admitted_length. unfold oweight at 2 3. cbn [op_at moved op_weight].
    assert (X : 0 < op_weight (op_at o)).
    { destruct H0 as [[-> _]|[[-> _]|[[-> _]|[[[q ->] _]|[[->|[q ->]] _]]]]]; reflexivity. }
    lia.
  - left. wfld. rewrite (zsum_set _ _ _ _ _ H), len_set. unfold oweight at 2 3. cbn [op_at moved op_weight]. rewrite H0. cbn [op_weight]. lia.
  - left. wfld. rewrite (zsum_set _ _ _ _ _ H), len_set, admitted_length. unfold oweight at 2 3. cbn [op_at moved op_weight].
    assert (X : 0 < op_weight (op_at o)).
    { destruct H0 as [(a & t & k & x & -> & _)|[(a & t & k & x & -> & _)|[(a & t & k & x & -> & _)|[(u & -> & _)|(u & -> & _)]]]]; reflexivity. }
    lia.
Qed.
Lemma wprims_alike w w' : wprims w w' -> Good w -> Linked w -> wlevel w' < wlevel w \/ wlevel w' = wlevel w /\ walike w w'.
Proof.
  induction 1 as [w|w1 w2 w3 H Hs IH]; intros G L; [right; split; [reflexivity|apply walike_refl]|].
  destruct (IH (good_p _ _ H G) (linked_p _ _ H L)) as [W|[W A]]; destruct (wprim_alike _ _ G L H) as [W1|[W1 A1]]; try (left; lia).
  right. split; [lia|eapply walike_trans; eassumption].
Qed.
