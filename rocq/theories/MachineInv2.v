(** * MachineInv2: the link lock, the semaphore, waiters and timers *)
From Coq Require Import ZifyBool ZifyNat.
From Verif Require Import Base Types Uart Buffalo CmdTable Zpi Api App Machine MachineBase MachineInv.

(** ** the lock and its queue *)
Definition holds (p : phase) : bool := match p with PHold | PWait _ _ => true | _ => false end.
Definition queued (p : phase) : bool := match p with PLock => true | _ => false end.
Definition LockP (l : option Z) (ts : list (Z * task)) : Prop :=
  (forall t, l = Some t -> exists k, assoc t ts = Some k /\ holds (t_phase k) = true) /\
  (forall t k, assoc t ts = Some k -> holds (t_phase k) = true -> l = Some t).
Definition QueueP (q : list Z) (ts : list (Z * task)) : Prop :=
  NoDup q /\
  (forall t, In t q -> exists k, assoc t ts = Some k /\ queued (t_phase k) = true) /\
  (forall t k, assoc t ts = Some k -> queued (t_phase k) = true -> In t q).

Lemma LockP_put l l' ts t k k' : LockP l ts -> assoc t ts = Some k ->
  (l' = l /\ holds (t_phase k') = holds (t_phase k) \/
   l = None /\ l' = Some t /\ holds (t_phase k') = true \/
   holds (t_phase k) = true /\ l' = None /\ holds (t_phase k') = false) ->
  LockP l' (assoc_set t k' ts).
Proof.
  intros [L1 L2] G [[-> E]|[(-> & -> & E)|(E1 & -> & E2)]]; split.
  - intros t' Hl. destruct (L1 t' Hl) as (k1 & G1 & Hh). rewrite (assoc_put _ _ _ _ _ G).
    destruct (Z.eqb_spec t t') as [->|]; [|eauto]. exists k'. split; [reflexivity|]. congruence.
  - intros t' k1 G1 Hh. rewrite (assoc_put _ _ _ _ _ G) in G1. destruct (Z.eqb_spec t t') as [->|]; [|eauto].
    injection G1 as <-. eapply L2; [exact G|]. congruence.
  - intros t' [= <-]. rewrite (assoc_put _ _ _ _ _ G), Z.eqb_refl. eauto.
  - intros t' k1 G1 Hh. rewrite (assoc_put _ _ _ _ _ G) in G1. destruct (Z.eqb_spec t t') as [->|]; [reflexivity|].
    discriminate (L2 _ _ G1 Hh).
  - discriminate.
  - intros t' k1 G1 Hh. rewrite (assoc_put _ _ _ _ _ G) in G1. destruct (Z.eqb_spec t t') as [->|].
    + injection G1 as <-. congruence.
    + pose proof (L2 _ _ G E1). pose proof (L2 _ _ G1 Hh). congruence.
Qed.
Lemma LockP_snoc l ts t k : LockP l ts -> holds (t_phase k) = false -> LockP l (ts ++ [(t, k)]).
Proof.
  intros [L1 L2] E. split.
  - intros t' Hl. destruct (L1 t' Hl) as (k1 & G1 & Hh). exists k1. rewrite assoc_snoc, G1. auto.
  - intros t' k1 G1 Hh. rewrite assoc_snoc in G1. destruct (assoc t' ts) eqn:E1.
    + injection G1 as ->. eauto.
    + destruct (t =? t'); [|discriminate]. injection G1 as <-. congruence.
Qed.

Lemma QueueP_put q q' ts t k k' : QueueP q ts -> assoc t ts = Some k ->
  (q' = q /\ queued (t_phase k') = queued (t_phase k) \/
   queued (t_phase k) = false /\ q' = q ++ [t] /\ queued (t_phase k') = true \/
   q = t :: q' /\ queued (t_phase k') = false \/
   q' = filter (fun x => negb (x =? t)) q /\ queued (t_phase k') = false) ->
  QueueP q' (assoc_set t k' ts).
Proof.
  intros (Nd & L1 & L2) G Hcase.
  destruct Hcase as [[-> E]|[(E & -> & E')|[[-> E]|[-> E]]]]; (split; [|split]).
  - exact Nd.
  - intros t' Hl. destruct (L1 t' Hl) as (k1 & G1 & Hh). rewrite (assoc_put _ _ _ _ _ G).
    destruct (Z.eqb_spec t t') as [->|]; [|eauto]. exists k'. split; [reflexivity|]. congruence.
  - intros t' k1 G1 Hh. rewrite (assoc_put _ _ _ _ _ G) in G1. destruct (Z.eqb_spec t t') as [->|]; [|eauto].
    injection G1 as <-. eapply L2; [exact G|]. congruence.
  - apply NoDup_rev in Nd. rewrite <- (rev_involutive (q ++ [t])), rev_app_distr. apply NoDup_rev.
    cbn [rev app]. constructor; [|exact Nd]. intro C. apply in_rev in C. destruct (L1 _ C) as (k1 & G1 & Hh). congruence.
  - intros t' Hl. rewrite (assoc_put _ _ _ _ _ G). destruct (Z.eqb_spec t t') as [->|]; [eauto|].
    apply in_app_or in Hl as [Hl|[Hl|[]]]; [|contradiction]. destruct (L1 t' Hl) as (k1 & G1 & Hh). eauto.
  - intros t' k1 G1 Hh. rewrite (assoc_put _ _ _ _ _ G) in G1. apply in_or_app. destruct (Z.eqb_spec t t') as [->|]; [right; left; reflexivity|].
    left. eauto.
  - inversion Nd; assumption.
  - intros t' Hl. rewrite (assoc_put _ _ _ _ _ G). destruct (Z.eqb_spec t t') as [->|].
    + inversion Nd; contradiction.
    + apply L1. right. exact Hl.
  - intros t' k1 G1 Hh. rewrite (assoc_put _ _ _ _ _ G) in G1. destruct (Z.eqb_spec t t') as [->|].
    + injection G1 as <-. congruence.
    + destruct (L2 _ _ G1 Hh) as [C|Hi]; [contradiction|exact Hi].
  - apply NoDup_filter, Nd.
  - intros t' Hl. apply filter_In in Hl as [Hl Hne]. rewrite (assoc_put _ _ _ _ _ G). destruct (Z.eqb_spec t t') as [->|].
    + rewrite Z.eqb_refl in Hne. discriminate.
    + apply L1, Hl.
  - intros t' k1 G1 Hh. rewrite (assoc_put _ _ _ _ _ G) in G1. destruct (Z.eqb_spec t t') as [->|].
    + injection G1 as <-. congruence.
    + apply filter_In. split; [eauto|]. apply negb_true_iff, Z.eqb_neq. congruence.
Qed.
Lemma QueueP_snoc q ts t k : QueueP q ts -> queued (t_phase k) = false -> QueueP q (ts ++ [(t, k)]).
Proof.
  intros (Nd & L1 & L2) E. split; [exact Nd|]. split.
  - intros t' Hl. destruct (L1 t' Hl) as (k1 & G1 & Hh). exists k1. rewrite assoc_snoc, G1. auto.
  - intros t' k1 G1 Hh. rewrite assoc_snoc in G1. destruct (assoc t' ts) eqn:E1.
    + injection G1 as ->. eauto.
    + destruct (t =? t'); [|discriminate]. injection G1 as <-. congruence.
Qed.

Definition Lock (s : st) : Prop := LockP (s_lock s) (s_tasks s).
Definition Queue (s : st) : Prop := QueueP (s_queue s) (s_tasks s).
Ltac phases := repeat match goal with Hp : t_phase ?k = _ |- _ => rewrite Hp end; fld; cbn [holds queued].

Lemma lock_prim s s' : prim s s' -> Lock s -> Lock s'.
Proof.
  intros H L.
  start_prim H; unfold Lock in *; opn; try exact L; try (apply LockP_snoc; [exact L|reflexivity]);
    (eapply LockP_put; [exact L|eassumption|]; phases; auto 6).
Qed.
Lemma queue_prim s s' : prim s s' -> Queue s -> Queue s'.
Proof.
  intros H L.
  start_prim H; unfold Queue in *; opn; try exact L; try (apply QueueP_snoc; [exact L|reflexivity]);
    (eapply QueueP_put; [exact L|eassumption|]; phases; auto 8).
Qed.

(** ** the semaphore *)
Definition inside (p : phase) : bool := match p with PAdm | PLock | PHold | PWait _ _ | PRel | PSleep _ => true | _ => false end.
Definition slot (k : task) : Z := if uses_sem (t_job k) && inside (t_phase k) then 1 else 0.
Fixpoint slots (ts : list (Z * task)) : Z := match ts with [] => 0 | (_, k) :: r => slot k + slots r end.
Lemma slots_put ts t k k' : assoc t ts = Some k -> slots (assoc_set t k' ts) = slots ts - slot k + slot k'.
Proof.
  induction ts as [|[a b] ts IH]; cbn [assoc assoc_set slots]; [discriminate|].
  destruct (a =? t); cbn [slots]; [intros [= ->]; lia|]. intro H. specialize (IH H). lia.
Qed.
Lemma slots_snoc ts t k : slots (ts ++ [(t, k)]) = slots ts + slot k.
Proof. induction ts as [|[a b] ts IH]; cbn [app slots]; lia. Qed.
Definition Sem (cap : Z) (s : st) : Prop := s_sem s + slots (s_tasks s) = cap /\ 0 <= s_sem s.
Lemma settles_uses j : settles j = true -> uses_sem j = true.
Proof. destruct j; cbn; congruence. Qed.
Lemma sem_prim cap s s' : prim s s' -> Sem cap s -> Sem cap s'.
Proof.
  intros H [S1 S2].
  start_prim H; unfold Sem in *; opn; try (split; assumption);
    try (rewrite (slots_put _ _ k) by assumption; unfold slot; phases; cbn [inside];
         repeat match goal with Hu : uses_sem _ = _ |- _ => rewrite Hu end;
         destruct (uses_sem (t_job k)); cbn [andb inside]; lia).
  rewrite slots_snoc. unfold slot. fld. cbn [inside]. rewrite andb_false_r. lia.
Qed.

(** ** the log only grows, time only advances *)
Definition grows (l l' : list obs) : Prop := exists x, l' = l ++ x.
Lemma grows_refl l : grows l l.
Proof. exists []. rewrite app_nil_r. reflexivity. Qed.
Lemma grows_trans a b c : grows a b -> grows b c -> grows a c.
Proof. intros [x ->] [y ->]. exists (x ++ y). rewrite app_assoc. reflexivity. Qed.
Lemma grows_app l x : grows l (l ++ x).
Proof. exists x. reflexivity. Qed.
Lemma grows_in l l' x : grows l l' -> In x l -> In x l'.
Proof. intros [y ->] H. apply in_or_app. left. exact H. Qed.
Lemma log_prim s s' : prim s s' -> grows (s_log s) (s_log s').
Proof.
  intro H. start_prim H; repeat rewrite <- app_assoc; try apply grows_refl; apply grows_app.
Qed.
Lemma now_prim s s' : prim s s' -> s_now s <= s_now s'.
Proof. intro H. start_prim H; lia. Qed.
Lemma next_prim s s' : prim s s' -> s_next s <= s_next s'.
Proof. intro H. start_prim H; lia. Qed.
Lemma log_prims s s' : prims s s' -> grows (s_log s) (s_log s').
Proof. induction 1; [apply grows_refl|]. eapply grows_trans; [eapply log_prim; eassumption|assumption]. Qed.
Lemma now_prims s s' : prims s s' -> s_now s <= s_now s'.
Proof. induction 1; [lia|]. apply now_prim in H. lia. Qed.
Lemma next_prims s s' : prims s s' -> s_next s <= s_next s'.
Proof. induction 1; [lia|]. apply next_prim in H. lia. Qed.

(** jobs never change *)
Definition same_job (s s' : st) : Prop := forall t k, get s t = Some k -> exists k', get s' t = Some k' /\ t_job k' = t_job k.
Lemma job_prim s s' : prim s s' -> same_job s s'.
Proof.
  intro H. unfold same_job. start_prim H; intros t' k' G;
    try (match goal with Hg : assoc ?t (s_tasks s) = Some ?k |- _ =>
      match goal with |- context [assoc_set t _ _] => rewrite (assoc_put _ _ _ _ _ Hg) end;
      destruct (Z.eqb_spec t t') as [->|]; [rewrite Hg in G; injection G as <-; eexists; split; reflexivity|eauto] end);
    try (exists k'; split; [assumption|reflexivity]).
  exists k'. rewrite assoc_snoc, G. auto.
Qed.

(** ** registrations *)
Definition regs (l : list obs) : list Z := flat_map (fun x => match x with ORegistered i _ _ => [i] | _ => [] end) l.
Definition upto (n : Z) : list Z := map Z.of_nat (seq 0 (Z.to_nat n)).
Lemma upto_snoc n : 0 <= n -> upto (n + 1) = upto n ++ [n].
Proof.
  intro H. unfold upto. replace (Z.to_nat (n + 1)) with (Z.to_nat n + 1)%nat by lia. rewrite seq_app, map_app.
  cbn [seq map]. rewrite Nat.add_0_l, Z2Nat.id by exact H. reflexivity.
Qed.
Lemma upto_in n i : 0 <= n -> In i (upto n) <-> 0 <= i < n.
Proof.
  intro H. unfold upto. rewrite in_map_iff. split.
  - intros (x & <- & Hx). apply in_seq in Hx. lia.
  - intro Hi. exists (Z.to_nat i). split; [lia|]. apply in_seq. lia.
Qed.
Lemma upto_nodup n : NoDup (upto n).
Proof.
  unfold upto. generalize (seq_NoDup (Z.to_nat n) 0). generalize (seq 0 (Z.to_nat n)). intros l H.
  induction H as [|x l Hx Hl IH]; cbn [map]; constructor; [|exact IH].
  intro C. apply in_map_iff in C as (y & E & Hy). apply Nat2Z.inj in E as ->. contradiction.
Qed.
Lemma regs_app a b : regs (a ++ b) = regs a ++ regs b.
Proof. unfold regs. apply flat_map_app. Qed.
Lemma regs_in l i : In i (regs l) <-> exists at_ to, In (ORegistered i at_ to) l.
Proof.
  unfold regs. rewrite in_flat_map. split.
  - intros (x & Hx & Hi). destruct x; try contradiction. destruct Hi as [<-|[]]. eauto.
  - intros (at_ & to & Hx). eexists. split; [exact Hx|]. left. reflexivity.
Qed.

Definition Regs (s : st) : Prop := 0 <= s_next s /\ regs (s_log s) = upto (s_next s).
Lemma regs_prim s s' : prim s s' -> Regs s -> Regs s'.
Proof.
  intros H [Hn Hr]. unfold Regs. start_prim H; (split; [lia|]); repeat rewrite regs_app; cbn [regs flat_map app]; repeat rewrite app_nil_r;
    try exact Hr; rewrite upto_snoc by lia; rewrite Hr; reflexivity.
Qed.
(** a waiter id is registered once *)
Lemma regs_once l : NoDup (regs l) -> forall i a1 t1 a2 t2,
  In (ORegistered i a1 t1) l -> In (ORegistered i a2 t2) l -> a1 = a2 /\ t1 = t2.
Proof.
  induction l as [|x l IH]; intros Nd i a1 t1 a2 t2; [intros []|]. intros H1 H2.
  change (x :: l) with ([x] ++ l) in Nd. rewrite regs_app in Nd.
  assert (IHl : NoDup (regs l)) by (destruct x; cbn [regs flat_map app] in Nd; try exact Nd; inversion Nd; assumption).
  destruct H1 as [->|H1], H2 as [E2|H2].
  - injection E2 as -> ->. auto.
  - exfalso. cbn [regs flat_map app] in Nd. inversion Nd as [|? ? C _]. apply C, regs_in. eauto.
  - exfalso. rewrite E2 in Nd. cbn [regs flat_map app] in Nd. inversion Nd as [|? ? C _]. apply C, regs_in. eauto.
  - eapply IH; eassumption.
Qed.
Lemma registered_once s : Regs s -> forall i a1 t1 a2 t2,
  In (ORegistered i a1 t1) (s_log s) -> In (ORegistered i a2 t2) (s_log s) -> a1 = a2 /\ t1 = t2.
Proof. intros [Hn Hr]. apply regs_once. rewrite Hr. apply upto_nodup. Qed.

(** ** registered waiters: not completed, with a pending clean-up *)
Definition undone (f : fstate) : Prop := match f with FDone _ => False | _ => True end.
Definition TimedP (tm : list (Z * Z)) (ws : list waiter) (f : Z -> fstate) (lg : list obs) (now : Z) : Prop :=
  (forall d i, In (d, i) tm -> exists at_ to, In (ORegistered i at_ to) lg /\ d = at_ + to + 100) /\
  (forall w, In w ws -> undone (f (w_id w)) /\
     exists at_, In (ORegistered (w_id w) at_ (w_timeout w)) lg /\ at_ <= now /\
       In (at_ + w_timeout w + 100, w_id w) tm).
Definition Timed (s : st) : Prop := TimedP (s_timers s) (s_waiters s) (s_futs s) (s_log s) (s_now s).

Lemma timed_new s m to q lg' : Timed s -> Ids s -> grows (s_log s ++ [ORegistered (s_next s) (s_now s) to]) lg' ->
  TimedP (s_timers s ++ [(s_now s + to + 100, s_next s)]) (s_waiters s ++ [mk_waiter (s_next s) m to q])
    (upd (s_futs s) (s_next s) FPending) lg' (s_now s).
Proof.
  intros [T1 T2] (_ & _ & Hid & _) Hg.
  assert (Hold : forall x, In x (s_log s) -> In x lg') by (intros x Hx; eapply grows_in; [exact Hg|]; apply in_or_app; auto).
  assert (Hnew : In (ORegistered (s_next s) (s_now s) to) lg') by (eapply grows_in; [exact Hg|]; apply in_or_app; right; left; reflexivity).
  split.
  - intros d i Hi. apply in_app_or in Hi as [Hi|[Hi|[]]].
    + destruct (T1 d i Hi) as (a & t & Hr & E). eauto.
    + injection Hi as <- <-. eauto.
  - intros w Hw. apply in_app_or in Hw as [Hw|[<-|[]]].
    + destruct (T2 w Hw) as (U & a & Hr & Hle & Ht). split; [rewrite upd_other by (specialize (Hid w Hw); lia); exact U|].
      exists a. split; [auto|]. split; [exact Hle|apply in_or_app; left; exact Ht].
    + fld. split; [rewrite upd_same; exact I|]. exists (s_now s). split; [exact Hnew|].
      split; [lia|apply in_or_app; right; left; reflexivity].
Qed.
Lemma timed_keep s f' ws' now' lg' : Timed s -> s_now s <= now' -> grows (s_log s) lg' ->
  (forall w, In w ws' -> In w (s_waiters s) /\ undone (f' (w_id w))) ->
  TimedP (s_timers s) ws' f' lg' now'.
Proof.
  intros [T1 T2] Hnow Hg Hk. split.
  - intros d i Hi. destruct (T1 d i Hi) as (a & t & Hr & E). exists a, t. split; [|exact E]. eapply grows_in; eassumption.
  - intros w Hw. destruct (Hk w Hw) as [Hw' Hu]. split; [exact Hu|]. destruct (T2 w Hw') as (U & a & Hr & Hle & Ht).
    exists a. split; [eapply grows_in; eassumption|]. split; [lia|exact Ht].
Qed.
Lemma undone_cancelled f i j : undone (f j) -> undone (cancelled f i j).
Proof. intro H. unfold cancelled, upd. destruct (f i) eqn:E; try exact H. destruct (j =? i); [exact I|exact H]. Qed.

Lemma timed_prim_ids s s' : prim s s' -> Ids s -> Timed s -> Timed s'.
Proof.
  intros H Hid T. pose proof (proj2 T) as T2.
  start_prim H; unfold Timed; opn;
    try (apply timed_new; [exact T|exact Hid|]; repeat rewrite <- app_assoc; try apply grows_refl; try apply grows_app; fail);
    try (apply timed_keep; [exact T|lia|repeat rewrite <- app_assoc; first [apply grows_refl|apply grows_app]|
         intros x Hx; try (apply filter_In in Hx as [Hx Hne]);
         (split; [exact Hx|]);
         first [apply T2, Hx|apply undone_cancelled, T2, Hx|
                rewrite resulted_other; [apply T2, Hx|apply negb_true_iff, Z.eqb_neq in Hne; exact Hne]]]).
  - apply timed_new; [exact T|exact Hid|]. apply grows_app.
  - (* clean-up *)
    destruct T as [T1 _]. split.
    + intros d j Hj. apply filter_In in Hj as [Hj _]. apply T1, Hj.
    + intros w Hw.
      assert (Hw' : In w (s_waiters s) /\ w_id w <> i).
      { destruct (s_futs s i) eqn:Ef.
        - apply filter_In in Hw as [Hw Hne]. split; [exact Hw|]. apply negb_true_iff, Z.eqb_neq in Hne. exact Hne.
        - split; [exact Hw|]. intro E. destruct (T2 w Hw) as [U _]. rewrite E, Ef in U. exact U.
        - apply filter_In in Hw as [Hw Hne]. split; [exact Hw|]. apply negb_true_iff, Z.eqb_neq in Hne. exact Hne. }
      destruct Hw' as [Hw' Hne]. destruct (T2 w Hw') as (U & a & Hr & Hle & Ht). split; [exact U|].
      exists a. split; [exact Hr|]. split; [exact Hle|]. apply filter_In. split; [exact Ht|]. cbn [snd].
      apply negb_true_iff, Z.eqb_neq. exact Hne.
Qed.
Lemma timed_prim s s' : prim s s' -> Core s -> Timed s -> Timed s'.
Proof. intros H Hc. apply timed_prim_ids; [exact H|apply Hc]. Qed.
