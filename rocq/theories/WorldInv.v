(** * WorldInv: what holds of every API object of the world.
    As MachineInv*, but a request may carry the number of a waiter that belongs to another API object, so
    nothing is assumed about the waiter that a refused request completes. *)
From Coq Require Import ZifyBool ZifyNat.
From Verif Require Import Base Types Uart Buffalo CmdTable Zpi Api App Machine Life World SpecMachine
  MachineBase MachineInv MachineInv2 MachineInv3 MachineInv4 MachineInv5 DispatchProofs MachineProofs MachineProofs4 MachineProgress.

(** ** transitions of an API object *)
Definition called (o : zpi) (wid : option Z) (s : st) : st :=
  note (OCalled (s_ntid s)) (set_ntid (s_ntid s + 1) (set_tasks (s_tasks s ++ [(s_ntid s, mk_task (JRaw o [0]) PAdm (Some o) wid)]) s)).
Inductive xprim : st -> st -> Prop :=
| X_prim s s' : prim s s' -> s_ntid s' = s_ntid s -> xprim s s'
| X_spawn s j : uses_sem j = false -> xprim s (spawn j s)
| X_call s o wid : xprim s (called o wid s)
| X_wait s m to q : xprim s (wait_for m to q s)
| X_open s b : xprim s (Machine.set_open b s)
| X_app s b : xprim s (set_app b s).
Inductive xprims : st -> st -> Prop :=
| xprims_nil s : xprims s s
| xprims_cons s1 s2 s3 : xprim s1 s2 -> xprims s2 s3 -> xprims s1 s3.
Lemma xprims_one s s' : xprim s s' -> xprims s s'.
Proof. intro H. econstructor; [exact H|constructor]. Qed.
Lemma xprims_app a b c : xprims a b -> xprims b c -> xprims a c.
Proof. induction 1; [auto|]. intro. econstructor; eauto. Qed.
Lemma xprims_inv (P : st -> Prop) : (forall s s', xprim s s' -> P s -> P s') -> forall s s', xprims s s' -> P s -> P s'.
Proof. intros H s s'. induction 1; eauto. Qed.
Lemma prims_x s s' : prims s s' -> s_ntid s' = s_ntid s -> xprims s s'.
Proof.
  induction 1 as [s|s1 s2 s3 H Hs IH]; intro E; [constructor|].
  pose proof (proj1 (prims_work _ _ Hs)) as L. pose proof (proj1 (prims_work _ _ (prims_one _ _ H))) as L0.
  eapply xprims_cons; [apply X_prim; [exact H|lia]|]. apply IH. lia.
Qed.
Lemma resume_x s t : xprims s (resume t s).
Proof. apply prims_x; [apply resume_prims|apply ntid_resume]. Qed.
Lemma timeout_x s t : xprims s (wait_timeout t s).
Proof. apply prims_x; [apply wait_timeout_prims|apply ntid_timeout]. Qed.
Lemma cancel_x s t : xprims s (Machine.cancel t s).
Proof. apply prims_x; [apply cancel_prims|apply ntid_cancel]. Qed.
Lemma cleanup_x s i : xprims s (cleanup i s).
Proof. apply prims_x; [apply prims_one, P_cleanup|]. destruct (cleanup_nf i s) as [->|[_ ->]]; reflexivity. Qed.

(** what is not open writes nothing *)
Definition shut (s s' : st) : Prop := s_open s = true \/ s_open s' = false /\ s_wire s' = s_wire s.
Lemma shut_trans a b c : shut a b -> shut b c -> shut a c.
Proof. intros [H|[H1 H2]] [K|[K1 K2]]; unfold shut; auto; [congruence|]. right. split; congruence. Qed.
Lemma shut_same s s' : s_open s' = s_open s -> s_wire s' = s_wire s -> shut s s'.
Proof. intros E1 E2. unfold shut. rewrite E1, E2. destruct (s_open s); auto. Qed.
Lemma shut_prim s s' : prim s s' -> shut s s'.
Proof. intro H. unfold shut. destruct H; prim_nf; opn; try (destruct (s_open s); auto; fail); auto. Qed.
Lemma shut_prims s s' : prims s s' -> shut s s'.
Proof. induction 1; [apply shut_same; reflexivity|]. eapply shut_trans; [eapply shut_prim; eassumption|assumption]. Qed.

Ltac start_x H := destruct H as [s s' H Hnt|s j Hj|s o wid|s m to q|s b|s b].

(** ** task ids *)
Lemma tids_x s s' : xprim s s' -> Tids s -> Tids s'.
Proof.
  intros H T. start_x H; [eapply tids_prim; eassumption|..]; destruct T as [Hn Ht]; unfold Tids, called; opn; (split; [lia|]); try exact Ht;
    intros t' k' G; look G; try lia; match goal with E : assoc _ _ = Some _ |- _ => specialize (Ht _ _ E); lia end.
Qed.
Lemma numbered_x s s' : xprim s s' -> Numbered s -> Numbered s'.
Proof.
  intros H N. start_x H; [eapply numbered_prim; eassumption|..]; destruct N as [N0 N]; unfold Numbered, called; opn; try (split; assumption);
    (split; [lia|]); rewrite map_app, N, upto_snoc by exact N0; reflexivity.
Qed.
Lemma new_task s : Tids s -> assoc (s_ntid s) (s_tasks s) = None.
Proof. intros [_ T]. destruct (assoc (s_ntid s) (s_tasks s)) eqn:E; [|reflexivity]. specialize (T _ _ E). lia. Qed.

(** ** tasks: the object, and no slots *)
Definition TaskW (k : task) : Prop :=
  uses_sem (t_job k) = false /\
  match t_phase k with
  | PStart => t_obj k = None /\ t_wid k = None
  | PReg _ _ | PAwait _ _ => exists m to, t_job k = JWaitFor m to
  | PSem | PAdm | PLock | PHold | PWait _ _ => exists o, t_obj k = Some o /\ build (t_job k) = Ok o
  | PSleep _ | PRel => False
  | PDone _ => True
  end.
Definition TasksW (s : st) : Prop := forall t k, get s t = Some k -> TaskW k.
Lemma not_settles j : uses_sem j = false -> settles j = true -> False.
Proof. destruct j; cbn; congruence. Qed.
Lemma tasksW_x s s' : xprim s s' -> TasksW s -> TasksW s'.
Proof.
  intros H Ht. start_x H.
  - unfold TasksW. revert Hnt. start_prim H; intros Hnt t' k' G; try lia; look G; try (eapply Ht; eassumption);
      try (match goal with Hg : assoc _ _ = Some ?k |- _ => pose proof (Ht _ _ Hg) as [Hu Hk] end;
         split; [exact Hu|]; flda;
         match goal with Hp : t_phase ?k = _ |- _ => rewrite Hp in * end; try exact I; try tauto; try assumption; eauto; fail);
      pose proof (Ht _ _ H) as [Hu _]; exfalso; eapply not_settles; eassumption.
  - intros t' k' G. opn_in G. look G; [eapply Ht; eassumption|]. split; [exact Hj|]. split; reflexivity.
  - intros t' k' G. unfold called in G. opn_in G. look G; [eapply Ht; eassumption|]. split; [reflexivity|]. fld. eauto.
  - exact Ht.
  - exact Ht.
  - exact Ht.
Qed.

(** ** waiter ids *)
Definition OwnW (s : st) : Prop :=
  (forall t k i, get s t = Some k -> In i (phase_id (t_phase k)) -> 0 <= i < s_next s) /\
  (forall t1 t2 k1 k2 i, get s t1 = Some k1 -> get s t2 = Some k2 -> In i (phase_id (t_phase k1)) -> In i (phase_id (t_phase k2)) -> t1 = t2).
Lemma ownW_change s s' : OwnW s -> 0 <= s_next s <= s_next s' ->
  (forall t k', get s' t = Some k' ->
     phase_id (t_phase k') = [] \/
     (exists k, get s t = Some k /\ phase_id (t_phase k') = phase_id (t_phase k)) \/
     (s_next s < s_next s' /\ phase_id (t_phase k') = [s_next s] /\
        (forall t2 k2, get s' t2 = Some k2 -> In (s_next s) (phase_id (t_phase k2)) -> t2 = t))) -> OwnW s'.
Proof.
  intros (H1 & H2) Hn Hc.
  assert (Hold : forall t k' i, get s' t = Some k' -> In i (phase_id (t_phase k')) ->
    (exists k, get s t = Some k /\ In i (phase_id (t_phase k))) \/ i = s_next s /\ s_next s < s_next s' /\
      (forall t2 k2, get s' t2 = Some k2 -> In (s_next s) (phase_id (t_phase k2)) -> t2 = t)).
  { intros t k' i G Hi. destruct (Hc t k' G) as [E|[(k & Gk & E)|(Hlt & E & Hu)]]; rewrite E in Hi.
    - destruct Hi.
    - left. eauto.
    - destruct Hi as [<-|[]]. right. auto. }
  split.
  - intros t k i G Hi. destruct (Hold t k i G Hi) as [(k0 & G0 & Hi0)|[-> [Hlt _]]]; [specialize (H1 _ _ _ G0 Hi0); lia|lia].
  - intros t1 t2 k1 k2 i G1 G2 Hi1 Hi2.
    destruct (Hold t1 k1 i G1 Hi1) as [(k & G & Hi)|[-> [Hlt Hu]]].
    + destruct (Hold t2 k2 i G2 Hi2) as [(k' & G' & Hi')|[-> _]]; [eapply H2; eassumption|].
      specialize (H1 _ _ _ G Hi). lia.
    + symmetry. eapply Hu; eassumption.
Qed.
Lemma ownW_x s s' : xprim s s' -> 0 <= s_next s -> OwnW s -> OwnW s'.
Proof.
  intros H Hn Ho. pose proof (proj1 Ho) as H1. unfold get in H1. start_x H.
  - start_prim H; apply (ownW_change s); try exact Ho; opn; try lia;
      intros t' k' G; look G; try (right; left; eexists; split; [eassumption|reflexivity]; fail); try (left; reflexivity);
      try (right; right; split; [lia|]; split; [reflexivity|]; intros t2 k2 G2 Hi; look G2; [reflexivity|]; specialize (H1 _ _ _ G2 Hi); lia).
    right. left. exists k. split; [exact H|]. rewrite H0. reflexivity.
  - apply (ownW_change s); try exact Ho; opn; try lia. intros t' k' G. look G; [right; left; eexists; split; [reflexivity|reflexivity]|left; reflexivity].
  - unfold called. apply (ownW_change s); try exact Ho; opn; try lia. intros t' k' G. look G; [right; left; eexists; split; [reflexivity|reflexivity]|left; reflexivity].
  - apply (ownW_change s); try exact Ho; opn; try lia. intros t' k' G. right. left. eauto.
  - exact Ho.
  - exact Ho.
Qed.
Lemma registered_in s j : registered s j = true -> exists w, In w (s_waiters s) /\ w_id w = j.
Proof. unfold registered. intro H. apply existsb_exists in H as (w & Hw & E). exists w. split; [exact Hw|]. apply Z.eqb_eq, E. Qed.
Lemma idsW_x s s' : xprim s s' -> OwnW s -> Ids s -> Ids s'.
Proof.
  intros H Ho (Hn & Hi & Hw & Hf). pose proof (proj1 Ho) as H1. unfold get in H1.
  assert (Hnew : forall w, w_id w = s_next s -> increasing (map w_id (s_waiters s ++ [w])) /\
     forall x, In x (s_waiters s ++ [w]) -> 0 <= w_id x < s_next s + 1).
  { intros w E. split.
    - rewrite map_app. apply increasing_app_one; [exact Hi|]. intros y Hy. apply in_map_iff in Hy as (x & <- & Hx).
      rewrite E. apply Hw, Hx.
    - intros x Hx. apply in_app_or in Hx as [Hx|[<-|[]]]; [specialize (Hw x Hx)|]; lia. }
  assert (Hfil : forall i, increasing (map w_id (filter (fun w => negb (w_id w =? i)) (s_waiters s))) /\
     forall x, In x (filter (fun w => negb (w_id w =? i)) (s_waiters s)) -> 0 <= w_id x < s_next s).
  { intro i. split; [apply increasing_filter, Hi|]. intros x Hx. apply filter_In in Hx as [Hx _]. apply Hw, Hx. }
  assert (Hown : forall t k i, assoc t (s_tasks s) = Some k -> In i (phase_id (t_phase k)) -> i < s_next s) by (intros t k i G Hin; specialize (H1 _ _ _ G Hin); lia).
  assert (Hca : forall i, i < s_next s -> forall j, s_next s <= j -> cancelled (s_futs s) i j = FPending).
  { intros i Hlt j Hj. rewrite cancelled_other by lia. apply Hf, Hj. }
  assert (Hre : forall i o, i < s_next s -> forall j, s_next s <= j -> resulted (s_futs s) i o j = FPending).
  { intros i o Hlt j Hj. rewrite resulted_other by lia. apply Hf, Hj. }
  start_x H.
  - start_prim H; unfold Ids; opn; try exact (conj Hn (conj Hi (conj Hw Hf)));
    try (split; [lia|]; split; [apply Hnew; reflexivity|]; split; [apply Hnew; reflexivity|];
         intros j Hj; rewrite upd_other by lia; apply Hf; lia);
    try (split; [exact Hn|]; split; [exact Hi|]; split; [exact Hw|]; apply Hca; eapply Hown; [eassumption|];
         rewrite H0; left; reflexivity).
    + split; [exact Hn|]. split; [apply Hfil|]. split; [apply Hfil|]. apply Hre.
      match goal with Hr : registered _ _ = true |- _ => destruct (registered_in _ _ Hr) as (w & Hin & <-) end. apply Hw, Hin.
    + split; [exact Hn|]. destruct (s_futs s i); (split; [first [apply Hfil|exact Hi]|]; split; [first [apply Hfil|exact Hw]|exact Hf]).
    + split; [exact Hn|]. split; [apply Hfil|]. split; [apply Hfil|]. apply Hre, Hw, H.
  - exact (conj Hn (conj Hi (conj Hw Hf))).
  - exact (conj Hn (conj Hi (conj Hw Hf))).
  - unfold Ids; opn. split; [lia|]. split; [apply Hnew; reflexivity|]. split; [apply Hnew; reflexivity|].
    intros j Hj; rewrite upd_other by lia; apply Hf; lia.
  - exact (conj Hn (conj Hi (conj Hw Hf))).
  - exact (conj Hn (conj Hi (conj Hw Hf))).
Qed.

(** ** lock, queue, history *)
Lemma lock_x s s' : xprim s s' -> Lock s -> Lock s'.
Proof. intros H L. start_x H; [eapply lock_prim; eassumption|..]; try exact L; unfold called, Lock; opn; apply LockP_snoc; [exact L|reflexivity| exact L|reflexivity]. Qed.
Lemma queue_x s s' : xprim s s' -> Queue s -> Queue s'.
Proof. intros H L. start_x H; [eapply queue_prim; eassumption|..]; try exact L; unfold called, Queue; opn; apply QueueP_snoc; [exact L|reflexivity| exact L|reflexivity]. Qed.
Lemma log_x s s' : xprim s s' -> grows (s_log s) (s_log s').
Proof. intro H. start_x H; [eapply log_prim; eassumption|..]; unfold called; opn; try apply grows_refl; apply grows_app. Qed.
Lemma now_x s s' : xprim s s' -> s_now s <= s_now s'.
Proof. intro H. start_x H; [eapply now_prim; eassumption|..]; unfold called; opn; lia. Qed.
Lemma job_x s s' : xprim s s' -> same_job s s'.
Proof.
  intro H. start_x H; [eapply job_prim; eassumption|..]; intros t k G; try (exists k; split; [exact G|reflexivity]);
    exists k; unfold called; opn; unfold get in G; rewrite assoc_snoc, G; auto.
Qed.
Lemma regs_x s s' : xprim s s' -> Regs s -> Regs s'.
Proof.
  intros H R. start_x H; [eapply regs_prim; eassumption|..]; destruct R as [Hn Hr]; unfold Regs, called; opn; (split; [lia|]);
    repeat rewrite regs_app; cbn [regs flat_map app]; repeat rewrite app_nil_r; try exact Hr.
  rewrite upto_snoc by lia; rewrite Hr; reflexivity.
Qed.
Lemma timed_x s s' : xprim s s' -> Ids s -> Timed s -> Timed s'.
Proof.
  intros H Hid T. start_x H; [eapply timed_prim_ids; eassumption|..]; try exact T.
  - unfold Timed. opn. apply timed_keep; [exact T|lia|apply grows_app|]. intros w Hw. split; [exact Hw|apply (proj2 T), Hw].
  - unfold Timed, called. opn. apply timed_keep; [exact T|lia|apply grows_app|]. intros w Hw. split; [exact Hw|apply (proj2 T), Hw].
  - unfold Timed. opn. apply timed_new; [exact T|exact Hid|apply grows_refl].
Qed.
Lemma link_x s s' : xprim s s' -> Tids s -> Lock s -> Link s -> Link s'.
Proof.
  intros H T L K. start_x H; [eapply link_prim_tids; eassumption|..]; try exact K; destruct K as [E A];
    assert (Hnew : s_lock s <> Some (s_ntid s)) by (destruct L as [L1 _]; intro C; destruct (L1 _ C) as (k & G & _); pose proof (proj2 T _ _ G); lia);
    unfold Link, called; opn; rewrite holder_snoc; (split; [exact E|]); apply always_snoc; try exact A; cbn [link_ok]; try exact I; rewrite E; exact Hnew.
Qed.
Lemma waiting_x s s' : xprim s s' -> Queue s -> Waiting s -> Waiting s'.
Proof.
  intros H Q K. start_x H; [eapply waiting_prim; eassumption|..]; try exact K; destruct K as [E A];
    unfold Waiting, called; opn; rewrite waiting_snoc; (split; [exact E|]); apply always_snoc; try exact A; exact I.
Qed.
Lemma life_x s s' : xprim s s' -> Tids s -> Life s -> Life s'.
Proof.
  intros H T K. pose proof (new_task s T) as Hnew. revert Hnew. start_x H; intro Hnew; [eapply life_prim_tids; eassumption|..]; try exact K; destruct K as [L1 L2]; unfold Life, called in *; opn; unfold get in *.
  1,2: split; intros t' ?; [intro G|]; [|match goal with G : assoc _ _ = None |- _ => rename G into G1 end]; rewrite trace_snoc; cbn [about].
  1,3: rewrite assoc_snoc in G; destruct (assoc t' (s_tasks s)) as [k0|] eqn:E;
       [injection G as <-; destruct (Z.eqb_spec (s_ntid s) t') as [<-|]; [congruence|]; rewrite app_nil_r; apply L1, E|];
       destruct (Z.eqb_spec (s_ntid s) t') as [<-|]; [|discriminate G]; injection G as <-; rewrite (L2 _ Hnew); reflexivity.
  1,2: rewrite assoc_snoc in G1; destruct (assoc t' (s_tasks s)) as [k0|] eqn:E; [discriminate G1|];
       destruct (Z.eqb_spec (s_ntid s) t') as [<-|]; [discriminate G1|]; rewrite app_nil_r; apply L2, E.
  split; [intros t' k' G|intros t' G]; rewrite trace_snoc; cbn [about]; rewrite app_nil_r; [apply L1|apply L2]; exact G.
Qed.
Lemma due_x s s' : xprim s s' -> Due s -> Due s'.
Proof.
  intros H D. start_x H; [eapply due_prim; eassumption|..]; try exact D; intros t k G; unfold called in G; opn_in G; look G; try exact I; exact (D _ _ E).
Qed.
Lemma done_x s s' t k : xprim s s' -> get s t = Some k -> ended (t_phase k) = true -> get s' t = Some k.
Proof.
  intros H G E. start_x H; [eapply done_prim; eassumption|..]; try exact G; unfold called; opn; unfold get in G; rewrite assoc_snoc, G; reflexivity.
Qed.
Lemma received_x s s' : xprim s s' -> Received s -> Received s'.
Proof.
  intros H R. start_x H; [eapply received_prim; eassumption|..]; try exact R; intros r Hr; apply R; unfold called in Hr; opn_in Hr;
    apply in_app_or in Hr as [Hr|[Hr|[]]]; try exact Hr; discriminate Hr.
Qed.

(** ** what a waiting request knows *)
Definition WaitsW (s : st) (t : Z) (k : task) : Prop :=
  match t_phase k with
  | PWait _ _ => Waits s t k
  | PReg i _ | PAwait i _ => s_futs s i <> FCancelled
  | _ => True
  end.
Definition WaitersW (s : st) : Prop := forall t k, get s t = Some k -> WaitsW s t k.
Definition quietW (s s' : st) (j : option Z) (c : option Z) : Prop :=
  (exists l, s_log s' = s_log s ++ l /\ forall t, In (OFreed t) l -> Some t = j) /\ s_now s <= s_now s' /\
  (forall i, 0 <= i < s_next s -> (forall t k, j = Some t -> get s t = Some k -> ~ In i (phase_id (t_phase k))) ->
    (c = Some i -> s_futs s' i <> FCancelled \/ s_futs s i = FCancelled) /\
    (c <> Some i ->
    (forall w, In w (s_waiters s') -> w_id w = i -> In w (s_waiters s)) /\
    (s_futs s' i = s_futs s i \/ exists r w, s_futs s i = FPending /\ In w (s_waiters s) /\ w_id w = i /\
        waiter_match (w_matcher w) r = Ok true /\ recent r (s_log s) /\ s_futs s' i = FDone r) /\
    (s_futs s' i = FPending -> forall w, In w (s_waiters s) -> w_id w = i -> In w (s_waiters s') \/
       forall at_ to, In (ORegistered i at_ to) (s_log s) -> at_ + to + 100 <= s_now s'))).
Lemma waitsW_quiet s s' j c t k : OwnW s -> quietW s s' j c -> get s t = Some k -> j <> Some t ->
  (forall i, c = Some i -> holds (t_phase k) = false) -> WaitsW s t k -> WaitsW s' t k.
Proof.
  intros (O1 & O2) ((l & El & Hfr) & Hn & Hq) G Hj Hcl W.
  assert (Hi : forall i, In i (phase_id (t_phase k)) -> 0 <= i < s_next s /\ (forall t2 k2, j = Some t2 -> get s t2 = Some k2 -> ~ In i (phase_id (t_phase k2)))).
  { intros i Hi. split; [eapply O1; eassumption|]. intros t2 k2 E G2 Hi2. apply Hj. rewrite E. f_equal. eapply O2; eassumption. }
  assert (Hlive : forall i, In i (phase_id (t_phase k)) -> s_futs s i <> FCancelled -> s_futs s' i <> FCancelled).
  { intros i H Hf. destruct (Hi i H) as [I1 I2]. destruct (Hq i I1 I2) as [Q1 Q2].
    destruct c as [c|]; [destruct (Z.eq_dec c i) as [->|Hne]|].
    - destruct (Q1 eq_refl) as [Q|Q]; [exact Q|contradiction].
    - destruct Q2 as (_ & [->|(r & w & _ & _ & _ & _ & _ & ->)] & _); [congruence|exact Hf|discriminate].
    - destruct Q2 as (_ & [->|(r & w & _ & _ & _ & _ & _ & ->)] & _); [discriminate|exact Hf|discriminate]. }
  unfold WaitsW in *. destruct (t_phase k) eqn:Hp; try exact I; try (apply Hlive; [left; reflexivity|exact W]).
  apply (waits_mono s); [exact W| |exact Hn|].
  - exists l. split; [exact El|]. intro C. apply Hj. symmetry. apply Hfr, C.
  - rewrite Hp. intros i' Hi'. destruct (Hi i' Hi') as [I1 I2]. apply (Hq i' I1 I2). intro E. specialize (Hcl i' E). cbn [holds] in Hcl. discriminate.
Qed.
Lemma waitsW_none s t k : phase_id (t_phase k) = [] -> WaitsW s t k.
Proof. unfold WaitsW. destruct (t_phase k); try exact (fun _ => I); discriminate. Qed.

Lemma prim_quietW s s' : prim s s' -> s_ntid s' = s_ntid s -> Ids s -> Timed s -> Regs s -> TasksW s -> Lock s -> WaitersW s ->
  exists j c, quietW s s' j c /\ (forall i t k, c = Some i -> get s t = Some k -> j <> Some t -> holds (t_phase k) = false) /\
    (forall t k', get s' t = Some k' -> get s t = Some k' /\ j <> Some t \/ WaitsW s' t k').
Proof.
  intros H Hnt Hid T R Hok HL Hw. revert Hnt.
  destruct H; prim_nf; intro Hnt;
    match goal with
    | H : get ?s ?t = Some ?k, Hj : t_wid ?k = Some ?j, Hr : registered _ ?j = true |- _ => exists (Some t), (Some j)
    | H : get ?s ?t = Some ?k |- _ => exists (Some t), (@None Z)
    | |- _ => exists (@None Z), (@None Z)
    end; (split; [|split]).
  all: match goal with
    | |- quietW _ _ _ _ => unfold quietW; opn_all; split; [quiet_log|]; split; [lia|];
         intros i' Hi' Hno; (split; [intro Hcc; try discriminate Hcc|intro Hcn]); try (split; [auto|]; split; [left; reflexivity|]; auto; fail)
    | |- forall i t k, None = Some i -> _ => discriminate
    | |- forall i t k, Some _ = Some i -> _ => idtac
    | |- _ => intros t' k' G; try (left; split; [exact G|discriminate]; fail);
       try (opn_in G; unfold get in H; look G; [|left; split; [exact G|congruence]]; right; try (apply waitsW_none; reflexivity; fail))
    end.
  all: try (split; [intros w0 Hw0 Ei; apply in_app_or in Hw0 as [Hw0|[<-|[]]]; [exact Hw0|fldin Ei; lia]|];
            split; [left; apply upd_other; lia|]; intros _ w0 Hw0 _; left; apply in_or_app; left; exact Hw0).
  all: try (split; [auto|]; split; [|auto]; left; apply cancelled_other; intros ->; 
            eapply Hno; [reflexivity|eassumption|]; match goal with Hp : t_phase _ = _ |- _ => rewrite Hp end; left; reflexivity).
  all: try (opn_all; lia).
  - unfold WaitsW. opn. rewrite upd_same. discriminate.
  - unfold get in *. change (assoc t' (s_tasks s) = Some k') in G. destruct (Z.eq_dec t t') as [<-|Hne].
    + right. rewrite G in H. injection H as ->. apply waitsW_none. rewrite H0. reflexivity.
    + left. split; [exact G|congruence].
  - unfold WaitsW, Waits, written. fld. pose proof (Hok _ _ H) as [_ Hk]. rewrite H0 in Hk.
    destruct Hk as (o' & Ho & Hb). exists o, m, to, (s_now s), f, bs.
    split; [assumption|]. split; [congruence|]. repeat (split; [assumption|]). split; [reflexivity|].
    apply waits_new; [exact Hid|apply grows_app| |reflexivity].
    exists (s_log s ++ [ORegistered (s_next s) (s_now s) to]), []. split; [reflexivity|intros []].
  - injection Hcc as <-. unfold resulted. rewrite upd_same. destruct (s_futs s j) eqn:Ef; [left; discriminate|left; discriminate|right; reflexivity].
  - assert (Hne : i' <> j) by congruence.
    split; [intros w0 Hw0 _; apply filter_In in Hw0; apply Hw0|]. split; [left; apply resulted_other; exact Hne|].
    intros _ w0 Hw0 Ei. left. apply filter_In. split; [exact Hw0|]. apply negb_true_iff, Z.eqb_neq. congruence.
  - intros i0 t0 k0 _ G0 Hne. destruct (holds (t_phase k0)) eqn:E; [|reflexivity].
    pose proof (proj2 HL t0 k0 G0 E) as E1. assert (E2 : s_lock s = Some t) by (eapply (proj2 HL); [exact H|rewrite H0; reflexivity]). congruence.
  - pose proof (Hw _ _ H) as W. unfold WaitsW in *. rewrite H0 in W. fld. exact W.
  - split; [intros w0 Hw0 _; destruct (s_futs s i); try exact Hw0; apply filter_In in Hw0; apply Hw0|].
    split; [left; reflexivity|]. intros Hp w0 Hw0 Ei. destruct (Z.eq_dec i' i) as [->|Hne].
    + right. destruct Hdue as (d & Hd & Hle). eapply due_registered; eassumption.
    + left. assert (Hf : In w0 (filter (fun w0 => negb (w_id w0 =? i)) (s_waiters s))).
      { apply filter_In. split; [exact Hw0|]. apply negb_true_iff, Z.eqb_neq. congruence. }
      destruct (s_futs s i); assumption.
  - split; [intros w0 Hw0 _; apply filter_In in Hw0; apply Hw0|]. destruct (Z.eq_dec i' (w_id w)) as [->|Hne].
    + unfold resulted. destruct (s_futs s (w_id w)) eqn:Ef.
      * split; [right; exists o, w; repeat (split; [first [assumption|reflexivity]|]); apply upd_same|].
        rewrite upd_same. discriminate.
      * rewrite upd_same. split; [left; reflexivity|]. discriminate.
      * rewrite upd_same. split; [left; reflexivity|]. discriminate.
    + split; [left; apply resulted_other, Hne|]. intros _ w0 Hw0 Ei. left. apply filter_In. split; [exact Hw0|].
      apply negb_true_iff, Z.eqb_neq. congruence.
Qed.
Lemma waitersW_x s s' : xprim s s' -> Ids s -> OwnW s -> Timed s -> Regs s -> TasksW s -> Lock s -> WaitersW s -> WaitersW s'.
Proof.
  intros H Hid Ho T R Hok HL W. destruct H as [s s' H Hnt|s j Hj|s o wid|s m to q|s b|s b].
  - intros t k G. destruct (prim_quietW s s' H Hnt Hid T R Hok HL W) as (j & c & Q & Hc & Hch).
    destruct (Hch t k G) as [[G0 Hj]|Hw]; [|exact Hw]. eapply waitsW_quiet; try eassumption; [|apply W, G0].
    intros i E. eapply Hc; eassumption.
  - assert (Q : quietW s (spawn j s) None None).
    { unfold quietW. opn. split; [quiet_log|]. split; [lia|]. intros i Hi Hno. split; [discriminate|]. intros _. auto. }
    intros t k G. opn_in G. look G; [|apply waitsW_none; reflexivity]. eapply waitsW_quiet; try eassumption; try discriminate. apply W. assumption.
  - assert (Q : quietW s (called o wid s) None None).
    { unfold quietW, called. opn. split; [quiet_log|]. split; [lia|]. intros i Hi Hno. split; [discriminate|]. intros _. auto. }
    intros t k G. unfold called in G. opn_in G. look G; [|apply waitsW_none; reflexivity]. eapply waitsW_quiet; try eassumption; try discriminate. apply W. assumption.
  - assert (Q : quietW s (wait_for m to q s) None None).
    { unfold quietW. opn. split; [quiet_log|]. split; [lia|]. intros i Hi Hno. split; [discriminate|]. intros _.
      split; [intros w0 Hw0 Ei; apply in_app_or in Hw0 as [Hw0|[<-|[]]]; [exact Hw0|fldin Ei; lia]|].
      split; [left; apply upd_other; lia|]. intros _ w0 Hw0 _; left; apply in_or_app; left; exact Hw0. }
    intros t k G. eapply waitsW_quiet; try eassumption; try discriminate. apply W. exact G.
  - exact W.
  - exact W.
Qed.

(** ** why a request ended *)
Definition EndedW1 (t : Z) (k : task) (l : list obs) : Prop :=
  match t_phase k with
  | PDone r => (exists m to, t_job k = JWaitFor m to) \/ r = OExn KeyError \/ Reason (t_job k) t l r
  | _ => True
  end.
Definition EndedW (s : st) : Prop := forall t k, get s t = Some k -> EndedW1 t k (s_log s).
Lemma endedW_mono t k l l' : grows l l' -> EndedW1 t k l -> EndedW1 t k l'.
Proof.
  intros G. unfold EndedW1. destruct (t_phase k); auto. intros [H|[H|H]]; [auto|auto|]. right. right. eapply reason_mono; eassumption.
Qed.
Lemma leavesW s t k i d pre l : WaitersW s -> get s t = Some k -> t_phase k = PWait i d -> ~ In (OFreed t) pre ->
  exists o m to at_ bs lb, t_obj k = Some o /\ build (t_job k) = Ok o /\ awaited o = Some (m, to) /\ frame_bytes o bs /\
    d = at_ + to /\ outstanding t at_ bs lb (s_log s ++ pre ++ OFreed t :: l) /\
    (forall r, s_futs s i = FDone r -> In (OReceived r) lb /\ waiter_match m r = Ok true).
Proof.
  intros W G Hp Hpre. pose proof (W t k G) as Hw. unfold WaitsW, Waits in Hw. rewrite Hp in Hw.
  destruct Hw as (o & m & to & a & f & bs & H1 & H2 & H3 & H4 & H5 & H6 & (la & lb & El & Hfr & _ & _ & _ & Hf)).
  exists o, m, to, a, bs, (lb ++ pre). repeat (split; [assumption|]). split; [exists f; auto|]. split; [exact H6|]. split.
  - exists la, l. split; [|intro C; apply in_app_or in C; tauto]. rewrite El. repeat (rewrite <- ?app_assoc; cbn [app]). reflexivity.
  - intros r E. rewrite E in Hf. split; [apply in_or_app; left|]; tauto.
Qed.
Lemma endedW_x s s' : xprim s s' -> TasksW s -> WaitersW s -> EndedW s -> EndedW s'.
Proof.
  intros H Hok W E. pose proof (log_x s s' H) as Hg. revert Hg. destruct H as [s s' H Hnt|s j Hj|s o wid|s m to q|s b|s b]; intro Hg.
  2,3: (intros t' k' G; unfold called in G; opn_in G; look G; [eapply endedW_mono; [exact Hg|]; apply E; assumption|exact I]).
  2,3,4: (intros t' k' G; eapply endedW_mono; [exact Hg|]; apply E; exact G).
  revert Hg Hnt.
  destruct H; prim_nf; intros Hg Hnt t' k' G;
    try (eapply endedW_mono; [exact Hg|]; apply E; exact G).
  all: try (assert (G0 := G); opn_in G0; unfold get in H; look G0; try (eapply endedW_mono; [exact Hg|]; apply E; exact G0); try exact I).
  all: try (opn_in Hnt; lia).
  all: try (pose proof (Hok _ _ H) as [Hu _]; exfalso; eapply not_settles; eassumption).
  all: try (right; right; apply R_cancel).
  all: try (pose proof (Hok _ _ H) as [_ Hk]; rewrite H0 in Hk; contradiction).
  all: try (pose proof (Hok _ _ H) as [_ Hk]; rewrite H0 in Hk; left; exact Hk).
  - right. right. fld. destruct H1 as [->|[Hb|(o & Hb & Hr)]]; [apply R_cancel|apply R_build, Hb|eapply R_waiter; eassumption].
  - right. right. fld. apply R_accepted. pose proof (Hok _ _ H) as [_ Hk]. rewrite H0 in Hk.
    destruct Hk as (o' & Ho & Hb). eapply (A_sent _ _ _ o (s_now s) bs); try assumption; [congruence|exists f; auto|].
    eexists (s_log s), _. split; [opn; repeat (rewrite <- ?app_assoc; cbn [app]); reflexivity|intros []].
  - right. right. fld. pose proof (Hok _ _ H) as [_ Hk]. rewrite H0 in Hk. destruct Hk as (o' & Ho & Hb).
    apply (R_hold _ _ _ o); [congruence|]. destruct H2 as [H2|[[Ht [[He _]|He]]|H2]]; auto.
  - destruct (leavesW s t k i d [] [OEnded t (outcome_of_result (t_job k) (Some r))] W H H0 (fun x => x)) as (o' & m & to & a & bs & lb & Ho & Hb & Ha & Hf & Hd & Hout & Hr).
    right. right. fld. apply R_accepted. destruct (Hr r H2) as [Hr1 Hr2].
    eapply A_ok; [exact Hb|exact Ha|exact Hf| |exact Hr1|exact Hr2|intro Hs; apply H3; congruence].
    opn; repeat (rewrite <- ?app_assoc; cbn [app]). exact Hout.
  - destruct (leavesW s t k i d [] [OEnded t (outcome_of_exn (t_job k) (CommandError c))] W H H0 (fun x => x)) as (o' & m & to & a & bs & lb & Ho & Hb & Ha & Hf & Hd & Hout & Hr).
    right. right. fld. destruct (Hr r H2) as [Hr1 Hr2].
    eapply (R_refused _ _ _ o m to a bs lb r c); try assumption; try congruence.
    opn; repeat (rewrite <- ?app_assoc; cbn [app]). exact Hout.
  - destruct (leavesW s t k i d [OCompleted j r] [OEnded t (outcome_of_exn (t_job k) (CommandError c))] W H H0) as (o' & m & to & a & bs & lb & Ho & Hb & Ha & Hf & Hd & Hout & Hr).
    { intros [C|[]]; discriminate. }
    right. right. fld. destruct (Hr r H2) as [Hr1 Hr2].
    eapply (R_refused _ _ _ o m to a bs lb r c); try assumption; try congruence.
    opn; repeat (rewrite <- ?app_assoc; cbn [app]). exact Hout.
  - right. left. reflexivity.
  - destruct (leavesW s t k i d [] [OEnded t (outcome_of_exn (t_job k) TimeoutError)] W H H0 (fun x => x)) as (o' & m & to & a & bs & lb & Ho & Hb & Ha & Hf & Hd & Hout & Hr).
    right. right. fld. eapply R_timeout; try eassumption. opn; repeat (rewrite <- ?app_assoc; cbn [app]). exact Hout.
Qed.

(** ** what was written *)
Lemma wroteW_x s s' : xprim s s' -> TasksW s -> Wrote s -> Wrote s'.
Proof.
  intros H Hok [W1 W2].
  assert (Hold : forall t at_ bs, In (OWritten t at_ bs) (s_log s) -> at_ <= s_now s' /\
    exists k o, get s' t = Some k /\ build (t_job k) = Ok o /\ (z_type o = SREQ \/ z_type o = AREQ) /\ frame_bytes o bs).
  { intros t a bs Hin. destruct (W2 t a bs Hin) as (Ha & k & o & G & Hb & Hr). apply now_x in H as Hn. split; [lia|].
    destruct (job_x s s' H t k G) as (k' & G' & Hj). exists k', o. split; [exact G'|]. rewrite Hj. auto. }
  pose proof (job_x s s' H) as Hjob. revert Hold Hjob.
  destruct H as [s s' H Hnt|s j Hj|s o wid|s m to q|s b|s b]; intros Hold Hjob.
  2,3,4: (split; [unfold called; opn; rewrite written_bytes_snoc, app_nil_r; exact W1|]; intros t' a' bs' Hin; apply Hold; unfold called in Hin; opn_in Hin;
    apply in_app_or in Hin as [Hin|[Hin|[]]]; [exact Hin|discriminate Hin]).
  2,3: (split; [exact W1|exact Hold]).
  revert Hold Hjob. destruct H; prim_nf; intros Hold Hjob; split;
    try (opn; repeat rewrite written_bytes_snoc; repeat rewrite app_nil_r; try rewrite W1; reflexivity);
    intros t' a' bs' Hin; opn_in Hin; repeat rewrite in_app_iff in Hin; cbn [In] in Hin;
    repeat (destruct Hin as [Hin|Hin]); try contradiction; try discriminate Hin; try (apply Hold; exact Hin).
  all: injection Hin as <- <- <-; (split; [opn; lia|]); destruct (Hjob _ _ H) as (k' & G' & Hj);
    pose proof (Hok _ _ H) as [_ Hk]; rewrite H0 in Hk; destruct Hk as (o' & Ho & Hb);
    exists k', o; (split; [exact G'|]); rewrite Hj; (split; [congruence|]).
  all: split; [first [auto; fail|eapply awaited_type; eassumption]|exists f; auto].
Qed.

(** ** all of it *)
Record Winv (s : st) : Prop := mk_Winv {
  V_tids : Tids s; V_num : Numbered s; V_tasks : TasksW s; V_own : OwnW s; V_ids : Ids s; V_lock : Lock s; V_queue : Queue s;
  V_regs : Regs s; V_timed : Timed s; V_link : Link s; V_life : Life s; V_waiting : Waiting s; V_due : Due s; V_waiters : WaitersW s;
  V_ended : EndedW s; V_wrote : Wrote s; V_received : Received s }.
Lemma winv_x s s' : xprim s s' -> Winv s -> Winv s'.
Proof.
  intros H []. constructor.
  - eapply tids_x; eassumption.
  - eapply numbered_x; eassumption.
  - eapply tasksW_x; eassumption.
  - eapply ownW_x; [eassumption|apply V_ids0|eassumption].
  - eapply idsW_x; eassumption.
  - eapply lock_x; eassumption.
  - eapply queue_x; eassumption.
  - eapply regs_x; eassumption.
  - eapply timed_x; eassumption.
  - eapply link_x; eassumption.
  - eapply life_x; eassumption.
  - eapply waiting_x; eassumption.
  - eapply due_x; eassumption.
  - eapply waitersW_x; eassumption.
  - eapply endedW_x; eassumption.
  - eapply wroteW_x; eassumption.
  - eapply received_x; eassumption.
Qed.
Lemma winv_xs s s' : xprims s s' -> Winv s -> Winv s'.
Proof. apply xprims_inv, winv_x. Qed.
Lemma winv_new now : Winv (new_api now).
Proof.
  constructor; try discriminate.
  - split; [cbn; lia|discriminate].
  - split; [cbn; lia|reflexivity].
  - split; discriminate.
  - split; [cbn; lia|]. split; [exact I|]. split; [intros w []|reflexivity].
  - split; discriminate.
  - split; [constructor|]. split; [intros t []|discriminate].
  - split; [cbn; lia|reflexivity].
  - split; [intros d i []|intros w []].
  - split; [reflexivity|apply always_nil].
  - split; [discriminate|reflexivity].
  - split; [reflexivity|apply always_nil].
  - split; [reflexivity|intros t a bs []].
  - intros r [].
Qed.

(** ** between steps nobody is in the middle of something *)
Lemma resume_restsW s t : TasksW s -> At_rest s -> At_rest (resume t s).
Proof.
  intros Hc HA. unfold resume. destruct (get s t) as [k|] eqn:G; [|exact HA].
  pose proof (Hc t k G) as [_ Hk].
  destruct (t_phase k) eqn:Hp; try exact HA.
  - eapply rests_ok; [apply rests_start|exact HA].
  - destruct Hk as (o & Ho & _). eapply rests_ok; [eapply rests_acquire_sem; [exact Ho|apply HA]|exact HA].
  - destruct Hk as (o & Ho & _). destruct (s_lock s); [exact HA|]. destruct (s_queue s) as [|h q]; [exact HA|]. destruct (h =? t); [|exact HA].
    eapply rests_ok; [eapply (rests_granted _ _ o (set_queue q s)), Ho|exact HA].
  - destruct (s_futs s i) as [|r|]; try exact HA. destruct (t_obj k) as [o|]; [|exact HA]. eapply rests_ok; [|exact HA].
    unfold request_raw_resume. destruct (z_type o); try apply rests_raw_return.
    destruct (unexpected_status r (expected_of (t_job k))) as [c|]; [|apply rests_raw_return].
    destruct (t_wid k) as [j|]; [|apply rests_raw_raise]. destruct (registered s j); [|apply rests_raw_raise].
    rewrite complete_nf. eapply rests_after; [|apply rests_raw_raise]. intros u _. reflexivity.
  - destruct Hk.
  - eapply rests_ok; [apply rests_goto; reflexivity|exact HA].
  - destruct (s_futs s i); try exact HA. eapply rests_ok; [apply rests_finish|exact HA].
Qed.
(** task [t] alone is touched *)
Lemma resume_others s t : TasksW s -> others t s (resume t s).
Proof.
  intros Hc. unfold resume. destruct (get s t) as [k|] eqn:G; [|apply others_refl]. pose proof (Hc t k G) as [_ Hk].
  destruct (t_phase k) eqn:Hp; try apply others_refl.
  - apply rests_start.
  - destruct Hk as (o & Ho & _). unfold acquire_sem. destruct (uses_sem (t_job k)); [destruct (0 <? s_sem s); [|apply others_refl]|];
      (eapply others_trans; [|eapply rests_acquire_lock, Ho]); exact (others_goto t PAdm s).
  - destruct Hk as (o & Ho & _). destruct (s_lock s); [apply others_refl|]. destruct (s_queue s) as [|h q]; [apply others_refl|]. destruct (h =? t); [|apply others_refl].
    exact (proj1 (rests_granted t k o (set_queue q s) Ho)).
  - destruct (s_futs s i) as [|r|]; try apply others_refl. destruct (t_obj k) as [o|]; [|apply others_refl].
    unfold request_raw_resume. destruct (z_type o); try apply rests_raw_return.
    destruct (unexpected_status r (expected_of (t_job k))) as [c|]; [|apply rests_raw_return].
    destruct (t_wid k) as [j|]; [|apply rests_raw_raise]. destruct (registered s j); [|apply rests_raw_raise].
    rewrite complete_nf. eapply others_trans; [|apply rests_raw_raise]. intros u _. reflexivity.
  - destruct Hk.
  - apply others_goto.
  - destruct (s_futs s i); try apply others_refl. apply rests_finish.
Qed.
Lemma timeout_others s t : others t s (wait_timeout t s).
Proof.
  unfold wait_timeout. destruct (get s t) as [k|] eqn:G; [|apply others_refl].
  destruct (t_phase k) eqn:Hp; try apply others_refl; destruct (s_futs s i); try apply others_refl; destruct (deadline <=? s_now s); try apply others_refl;
    rewrite cancel_fut_nf; (eapply others_trans; [|first [apply rests_raw_raise|apply rests_finish]]); intros u _; reflexivity.
Qed.
Lemma cancel_others s t : others t s (Machine.cancel t s).
Proof.
  unfold Machine.cancel. destruct (get s t) as [k|] eqn:G; [|apply others_refl].
  destruct (t_phase k) eqn:Hp; try apply others_refl; try rewrite cancel_fut_nf; try rewrite free_sem_nf;
    try (apply rests_finish; fail); (eapply others_trans; [|first [apply rests_raw_raise|apply rests_finish]]); intros u _; reflexivity.
Qed.
Lemma call_raw_split o wid s : call_raw o wid s = acquire_lock (s_ntid s) (mk_task (JRaw o [0]) PAdm (Some o) wid) (called o wid s).
Proof. reflexivity. Qed.
Lemma get_called o wid s : Tids s -> get (called o wid s) (s_ntid s) = Some (mk_task (JRaw o [0]) PAdm (Some o) wid).
Proof. intro T. unfold called. opn. rewrite assoc_snoc, (new_task s T), Z.eqb_refl. reflexivity. Qed.
Lemma call_raw_x o wid s : Tids s -> xprims s (call_raw o wid s).
Proof.
  intro T. rewrite call_raw_split. eapply xprims_cons; [apply X_call|]. apply prims_x.
  - eapply acquire_lock_prims; [apply get_called, T|reflexivity..].
  - apply ntid_acquire_lock.
Qed.
Lemma call_raw_others o wid s : others (s_ntid s) s (call_raw o wid s).
Proof.
  rewrite call_raw_split. eapply others_trans; [|exact (proj1 (rests_acquire_lock (s_ntid s) (mk_task (JRaw o [0]) PAdm (Some o) wid) o (called o wid s) eq_refl))].
  intros u Hu. unfold called. opn. rewrite assoc_snoc. destruct (assoc u (s_tasks s)); [reflexivity|].
  destruct (Z.eqb_spec (s_ntid s) u); [congruence|reflexivity].
Qed.
Lemma call_raw_rests o wid s : At_rest s -> At_rest (call_raw o wid s).
Proof.
  intro HA. rewrite call_raw_split. pose proof (rests_acquire_lock (s_ntid s) (mk_task (JRaw o [0]) PAdm (Some o) wid) o (called o wid s) eq_refl) as [H1 H2].
  intros u k G. destruct (Z.eq_dec u (s_ntid s)) as [->|Hne]; [apply H2, G|]. rewrite H1 in G by exact Hne.
  unfold called in G. opn_in G. look G; [eapply HA; eassumption|contradiction].
Qed.
(** task and waiter number never change; only a new task starts in [PAdm] *)
Lemma wid_x s s' t k : xprim s s' -> get s t = Some k -> t_phase k <> PStart -> exists k', get s' t = Some k' /\ t_job k' = t_job k /\ t_wid k' = t_wid k /\ t_obj k' = t_obj k /\ t_phase k' <> PStart.
Proof.
  intros H G Hp. start_x H; try (exists k; split; [exact G|auto]; fail).
  2,3: (exists k; unfold called; opn; unfold get in G; rewrite assoc_snoc, G; auto).
  start_prim H; unfold get in G;
    try (match goal with Hg : assoc ?t0 (s_tasks s) = Some ?k0 |- _ =>
      match goal with |- context [assoc_set t0 _ _] => rewrite (assoc_put _ _ _ _ _ Hg) end;
      destruct (Z.eqb_spec t0 t) as [->|]; [rewrite Hg in G; injection G as <-; try (exfalso; apply Hp; assumption);
        eexists; split; [reflexivity|]; repeat (split; [reflexivity|]); fld; discriminate|exists k; auto] end);
    try (exists k; split; [assumption|auto]); try lia.
  all: match goal with |- context [assoc_set ?t0 _ _] => rewrite (assoc_put _ t0 _ _ _ H); destruct (Z.eqb_spec t0 t) as [->|]; [|exists k; auto] end;
    rewrite H in G; injection G as <-; exfalso; apply Hp; assumption.
Qed.
Lemma wid_xs s s' t k : xprims s s' -> get s t = Some k -> t_phase k <> PStart -> exists k', get s' t = Some k' /\ t_job k' = t_job k /\ t_wid k' = t_wid k /\ t_obj k' = t_obj k /\ t_phase k' <> PStart.
Proof.
  intro H. revert k. induction H as [s|s1 s2 s3 H _ IH]; intros k G Hp; [exists k; auto|].
  destruct (wid_x _ _ _ _ H G Hp) as (k1 & G1 & J1 & W1 & O1 & P1). destruct (IH k1 G1 P1) as (k2 & G2 & J2 & W2 & O2 & P2).
  exists k2. split; [exact G2|]. repeat split; congruence.
Qed.
Lemma done_xs s s' t k : xprims s s' -> get s t = Some k -> ended (t_phase k) = true -> get s' t = Some k.
Proof. induction 1 as [s|s1 s2 s3 H _ IH]; intros G E; [exact G|]. apply IH; [|exact E]. eapply done_x; eassumption. Qed.
Lemma log_xs s s' : xprims s s' -> grows (s_log s) (s_log s').
Proof. induction 1; [apply grows_refl|]. eapply grows_trans; [eapply log_x; eassumption|assumption]. Qed.
Lemma now_xs s s' : xprims s s' -> s_now s <= s_now s'.
Proof. induction 1; [lia|]. apply now_x in H. lia. Qed.
