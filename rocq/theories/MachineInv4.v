(** * MachineInv4: what a waiting task knows, and why a task ended *)
From Coq Require Import ZifyBool ZifyNat.
From Verif Require Import Base Types Uart Buffalo CmdTable Zpi Api App Machine SpecMachine MachineBase MachineInv MachineInv2 MachineInv3.

(** Waiter [i] was registered at [at_] with time limit [to] for messages matching [m]; [x] is the entry
    of the history from which on the answer counts. *)
Definition WaitC (ws : list waiter) (f : Z -> fstate) (lg : list obs) (now : Z) (t i : Z) (x : obs) (m : matcher) (to at_ : Z) : Prop :=
  exists la lb, lg = la ++ x :: lb /\ ~ In (OFreed t) lb /\ In (ORegistered i at_ to) lg /\ at_ <= now /\
    (forall w, In w ws -> w_id w = i -> w_matcher w = m) /\
    match f i with
    | FPending => (exists w, In w ws /\ w_id w = i) \/ at_ + to + 100 <= now
    | FDone r => waiter_match m r = Ok true /\ In (OReceived r) lb
    | FCancelled => False
    end.

Lemma recent_after o lg la x lb : recent o lg -> lg = la ++ x :: lb -> (forall i p, x <> OCompleted i p) -> (forall r, x <> OReceived r) ->
  In (OReceived o) lb.
Proof.
  intros (a & b & E & Hb) E2 Hx Hx'. rewrite E in E2. clear E lg.
  revert a E2. induction la as [|y la IH]; intros a E2.
  - destruct a as [|z a]; cbn [app] in E2; injection E2 as E1 E3.
    + exfalso. eapply Hx'. symmetry. exact E1.
    + rewrite <- E3. apply in_or_app. right. left. reflexivity.
  - destruct a as [|z a]; cbn [app] in E2; injection E2 as E1 E3.
    + exfalso. assert (Hin : In x b) by (rewrite E3; apply in_or_app; right; left; reflexivity).
      rewrite Forall_forall in Hb. destruct (Hb x Hin) as (i & p & E). eapply Hx. exact E.
    + apply (IH a E3).
Qed.

Lemma waitC_mono ws f lg now t i x m to at_ ws' f' lg' now' :
  WaitC ws f lg now t i x m to at_ ->
  (forall i p, x <> OCompleted i p) -> (forall r, x <> OReceived r) ->
  (exists l, lg' = lg ++ l /\ ~ In (OFreed t) l) -> now <= now' ->
  (forall w, In w ws' -> w_id w = i -> In w ws) ->
  (f' i = f i \/ exists r w, f i = FPending /\ In w ws /\ w_id w = i /\ waiter_match (w_matcher w) r = Ok true /\ recent r lg /\ f' i = FDone r) ->
  (f' i = FPending -> forall w, In w ws -> w_id w = i -> In w ws' \/ at_ + to + 100 <= now') ->
  WaitC ws' f' lg' now' t i x m to at_.
Proof.
  intros (la & lb & E & Hfr & Hreg & Hat & Hm & Hf) Hx1 Hx2 (l & El & Hl) Hnow Hws Hfut Hkeep.
  exists la, (lb ++ l). split; [rewrite El, E, <- app_assoc; reflexivity|].
  split; [intro C; apply in_app_or in C as [C|C]; contradiction|].
  split; [rewrite El; apply in_or_app; left; exact Hreg|]. split; [lia|].
  split; [intros w Hw Hi; apply Hm; [apply Hws; assumption|exact Hi]|].
  destruct Hfut as [Ef|(r & w & Ef & Hw & Hi & Hmt & Hr & Ef')].
  - rewrite Ef in *. destruct (f i) eqn:Efi.
    + destruct Hf as [(w & Hw & Hi)|Hd]; [|right; lia]. destruct (Hkeep eq_refl w Hw Hi) as [Hk|Hd]; [left; eauto|right; exact Hd].
    + destruct Hf as [H1 H2]. split; [exact H1|apply in_or_app; left; exact H2].
    + exact Hf.
  - rewrite Ef'. rewrite <- (Hm w Hw Hi). split; [exact Hmt|]. apply in_or_app. left. eapply recent_after; eassumption.
Qed.

(** what a waiting task knows *)
Definition Waits (s : st) (t : Z) (k : task) : Prop :=
  match t_phase k with
  | PWait i d => exists o m to at_ f bs,
      t_obj k = Some o /\ build (t_job k) = Ok o /\ awaited o = Some (m, to) /\ to_unpi_frame o = Ok f /\ to_buffer f = Ok bs /\
      d = at_ + to /\
      WaitC (s_waiters s) (s_futs s) (s_log s) (s_now s) t i (OWritten t at_ bs) m to at_
  | PReg i to => exists m at_, t_job k = JWaitFor m to /\
      WaitC (s_waiters s) (s_futs s) (s_log s) (s_now s) t i (ORegistered i at_ to) m to at_
  | PAwait i d => exists m to at_, t_job k = JWaitFor m to /\ at_ + to <= d /\
      WaitC (s_waiters s) (s_futs s) (s_log s) (s_now s) t i (ORegistered i at_ to) m to at_
  | _ => True
  end.
Definition Waiters (s : st) : Prop := forall t k, get s t = Some k -> Waits s t k.

(** a task that is not touched goes on knowing it *)
Lemma waits_mono s s' t k : Waits s t k ->
  (exists l, s_log s' = s_log s ++ l /\ ~ In (OFreed t) l) -> s_now s <= s_now s' ->
  (forall i, In i (phase_id (t_phase k)) ->
    (forall w, In w (s_waiters s') -> w_id w = i -> In w (s_waiters s)) /\
    (s_futs s' i = s_futs s i \/ exists r w, s_futs s i = FPending /\ In w (s_waiters s) /\ w_id w = i /\
        waiter_match (w_matcher w) r = Ok true /\ recent r (s_log s) /\ s_futs s' i = FDone r) /\
    (s_futs s' i = FPending -> forall w, In w (s_waiters s) -> w_id w = i -> In w (s_waiters s') \/
       forall at_ to, In (ORegistered i at_ to) (s_log s) -> at_ + to + 100 <= s_now s')) ->
  Waits s' t k.
Proof.
  intros W Hl Hn Hid. unfold Waits in *. 
  assert (Hreg : forall i x m to at_, WaitC (s_waiters s) (s_futs s) (s_log s) (s_now s) t i x m to at_ -> In (ORegistered i at_ to) (s_log s)).
  { intros i x m to at_ (la & lb & E & _ & Hr & _). exact Hr. }
  destruct (t_phase k); try exact I; destruct (Hid i (or_introl eq_refl)) as (H1 & H2 & H3).
  - destruct W as (o & m & to & a & f & bs & W1 & W2 & W3 & W4 & W5 & W6 & W7). exists o, m, to, a, f, bs.
    repeat (split; [assumption|]). eapply waitC_mono; try eassumption; try discriminate.
    intros Hf w Hw Hi. destruct (H3 Hf w Hw Hi) as [Hk|Hd]; [left; exact Hk|right; eauto].
  - destruct W as (m & a & W1 & W7). exists m, a. repeat (split; [assumption|]). eapply waitC_mono; try eassumption; try discriminate.
    intros Hf w Hw Hi. destruct (H3 Hf w Hw Hi) as [Hk|Hd]; [left; exact Hk|right; eauto].
  - destruct W as (m & to & a & W1 & W2 & W7). exists m, to, a. repeat (split; [assumption|]). eapply waitC_mono; try eassumption; try discriminate.
    intros Hf w Hw Hi. destruct (H3 Hf w Hw Hi) as [Hk|Hd]; [left; exact Hk|right; eauto].
Qed.

Lemma phase_own k i : In i (phase_id (t_phase k)) -> In i (own k).
Proof. intro H. unfold own. apply in_or_app. left. exact H. Qed.

(** the primitive transition of task [t0] (or of no task) leaves the other tasks' knowledge alone *)
Definition quiet (s s' : st) (j : option Z) : Prop :=
  (exists l, s_log s' = s_log s ++ l /\ forall t, In (OFreed t) l -> Some t = j) /\ s_now s <= s_now s' /\
  (forall i, 0 <= i < s_next s -> (forall t k, j = Some t -> get s t = Some k -> ~ In i (own k)) ->
    (forall w, In w (s_waiters s') -> w_id w = i -> In w (s_waiters s)) /\
    (s_futs s' i = s_futs s i \/ exists r w, s_futs s i = FPending /\ In w (s_waiters s) /\ w_id w = i /\
        waiter_match (w_matcher w) r = Ok true /\ recent r (s_log s) /\ s_futs s' i = FDone r) /\
    (s_futs s' i = FPending -> forall w, In w (s_waiters s) -> w_id w = i -> In w (s_waiters s') \/
       forall at_ to, In (ORegistered i at_ to) (s_log s) -> at_ + to + 100 <= s_now s')).

Lemma waits_quiet s s' j t k : Own s -> quiet s s' j -> get s t = Some k -> j <> Some t -> Waits s t k -> Waits s' t k.
Proof.
  intros (O1 & O2 & O3) ((l & El & Hfr) & Hn & Hq) G Hj W. apply (waits_mono s); [exact W| |exact Hn|].
  - exists l. split; [exact El|]. intro C. apply Hj. symmetry. apply Hfr, C.
  - intros i Hi. apply phase_own in Hi. apply Hq; [eapply O1; eassumption|].
    intros t2 k2 E G2 Hi2. apply Hj. rewrite E. f_equal. eapply O2; eassumption.
Qed.

Lemma due_registered s d i : Timed s -> Regs s -> In (d, i) (s_timers s) -> d <= s_now s ->
  forall at_ to, In (ORegistered i at_ to) (s_log s) -> at_ + to + 100 <= s_now s.
Proof.
  intros [T1 _] R Hi Hd a to Hr. destruct (T1 d i Hi) as (a' & to' & Hr' & ->).
  destruct (registered_once s R _ _ _ _ _ Hr Hr') as [-> ->]. exact Hd.
Qed.

Ltac quiet_log :=
  first [ exists []; split; [rewrite app_nil_r; reflexivity|intros ? []]
        | eexists; split; [repeat rewrite <- app_assoc; cbn [app]; reflexivity
                          |cbn [In]; intros ? C; repeat (destruct C as [C|C]); try discriminate C; try contradiction; injection C as <-; reflexivity] ].

Lemma waits_none s t k : phase_id (t_phase k) = [] -> Waits s t k.
Proof. unfold Waits. destruct (t_phase k); try exact (fun _ => I); discriminate. Qed.
Lemma waits_new s m to l t x ws' : Ids s -> grows (s_log s ++ [ORegistered (s_next s) (s_now s) to]) l ->
  (exists la lb, l = la ++ x :: lb /\ ~ In (OFreed t) lb) ->
  ws' = s_waiters s ++ [mk_waiter (s_next s) m to None] ->
  WaitC ws' (upd (s_futs s) (s_next s) FPending) l (s_now s) t (s_next s) x m to (s_now s).
Proof.
  intros (_ & _ & Hid & _) Hg (la & lb & E & Hfr) ->. exists la, lb. split; [exact E|]. split; [exact Hfr|].
  split; [eapply grows_in; [exact Hg|]; apply in_or_app; right; left; reflexivity|]. split; [lia|]. split.
  - intros w Hw Hi. apply in_app_or in Hw as [Hw|[<-|[]]]; [|reflexivity]. specialize (Hid w Hw). lia.
  - rewrite upd_same. left. exists (mk_waiter (s_next s) m to None). split; [apply in_or_app; right; left; reflexivity|reflexivity].
Qed.

Ltac opn_in G := unfold done, sem_back, freed, completed, cleaned, unregister, written, dequeue, put, note, spawn, wait_for, get in G; fldin G.
Lemma prim_quiet s s' : prim s s' -> Ids s -> Timed s -> Regs s -> Tasks_ok s -> Waiters s ->
  exists j, quiet s s' j /\
    (forall t k', get s' t = Some k' -> get s t = Some k' /\ j <> Some t \/ Waits s' t k').
Proof.
  intros H Hid T R Hok Hw.
  destruct H; prim_nf;
    match goal with
    | H : get ?s ?t = Some ?k |- _ => exists (Some t)
    | |- _ => exists (@None Z)
    end; split.
  all: match goal with
    | |- quiet _ _ _ => unfold quiet; opn_all; split; [quiet_log|]; split; [lia|];
         intros i' Hi' Hno; try (split; [auto|]; split; [left; reflexivity|]; auto; fail)
    | |- _ => intros t' k' G; try (left; split; [exact G|discriminate]; fail);
       try (opn_in G; unfold get in H; look G; [|left; split; [exact G|congruence]]; right; try (apply waits_none; reflexivity; fail))
    end.
  all: try (split; [intros w0 Hw0 Ei; apply in_app_or in Hw0 as [Hw0|[<-|[]]]; [exact Hw0|fldin Ei; lia]|];
            split; [left; apply upd_other; lia|]; intros _ w0 Hw0 _; left; apply in_or_app; left; exact Hw0).
  all: try (split; [auto|]; split; [|auto]; left; apply cancelled_other; intros ->; 
            eapply Hno; [reflexivity|eassumption|]; unfold own; match goal with Hp : t_phase _ = _ |- _ => rewrite Hp end; left; reflexivity).
  - opn_in G. look G; [left; split; [exact E|discriminate]|right; apply waits_none; reflexivity].
  - unfold Waits. fld. exists m, (s_now s). split; [assumption|]. apply waits_new; [exact Hid|apply grows_refl| |reflexivity].
    exists (s_log s), []. split; [reflexivity|intros []].
  - unfold get in *. change (assoc t' (s_tasks s) = Some k') in G. destruct (Z.eq_dec t t') as [<-|Hne].
    + right. rewrite G in H. injection H as ->. apply waits_none. rewrite H0. reflexivity.
    + left. split; [exact G|congruence].
  - unfold Waits, written. fld. pose proof (Hok _ _ H) as Hk. unfold Task_ok in Hk. rewrite H0 in Hk.
    destruct Hk as (o' & Ho & Hb & _). exists o, m, to, (s_now s), f, bs.
    split; [assumption|]. split; [congruence|]. repeat (split; [assumption|]). split; [reflexivity|].
    apply waits_new; [exact Hid|apply grows_app| |reflexivity].
    exists (s_log s ++ [ORegistered (s_next s) (s_now s) to]), []. split; [reflexivity|intros []].
  - assert (Hne : i' <> j).
    { intros ->. eapply Hno; [reflexivity|eassumption|]. unfold own. apply in_or_app. right.
      match goal with Hw : t_wid _ = Some _ |- _ => rewrite Hw end. left. reflexivity. }
    split; [intros w0 Hw0 _; apply filter_In in Hw0; apply Hw0|]. split; [left; apply resulted_other; exact Hne|].
    intros _ w0 Hw0 Ei. left. apply filter_In. split; [exact Hw0|]. apply negb_true_iff, Z.eqb_neq. congruence.
  - pose proof (Hw _ _ H) as W. unfold Waits in *. rewrite H0 in W. destruct W as (m & a & E & W). fld.
    exists m, to, a. split; [exact E|]. split; [|exact W]. destruct W as (la & lb & _ & _ & _ & Ha & _). lia.
  - split; [intros w0 Hw0 _; destruct (s_futs s i); try exact Hw0; apply filter_In in Hw0; apply Hw0|].
    split; [left; reflexivity|]. intros Hp w0 Hw0 Ei. destruct (Z.eq_dec i' i) as [->|Hne].
    + right. destruct Hdue as (d & Hd & Hle). eapply due_registered; eassumption.
    + left. assert (Hf : In w0 (filter (fun w0 => negb (w_id w0 =? i)) (s_waiters s))).
      { apply filter_In. split; [exact Hw0|]. apply negb_true_iff, Z.eqb_neq. congruence. }
      destruct (s_futs s i); assumption.
  - split; [intros w0 Hw0 _; apply filter_In in Hw0; apply Hw0|]. destruct (Z.eq_dec i' (w_id w)) as [->|Hne].
    + unfold resulted. destruct (s_futs s (w_id w)) eqn:Ef.
      * split; [right; exists o, w; repeat (split; [first [assumption|reflexivity]|]); apply upd_same|].
        rewrite upd_same. discriminate.
      * rewrite upd_same. split; [left; reflexivity|]. discriminate.
      * rewrite upd_same. split; [left; reflexivity|]. discriminate.
    + split; [left; apply resulted_other, Hne|]. intros _ w0 Hw0 Ei. left. apply filter_In. split; [exact Hw0|].
      apply negb_true_iff, Z.eqb_neq. congruence.
Qed.

Lemma waiters_prim s s' : prim s s' -> Core s -> Timed s -> Regs s -> Waiters s -> Waiters s'.
Proof.
  intros H (Ht & Hok & Ho & Hi) T R W t k G.
  destruct (prim_quiet s s' H Hi T R Hok W) as (j & Q & Hch). destruct (Hch t k G) as [[G0 Hj]|Hw]; [|exact Hw].
  eapply waits_quiet; try eassumption. apply W, G0.
Qed.

(** ** why a task ended *)
Inductive Accepted (j : job) (t : Z) (l : list obs) : option zpi -> Prop :=
| A_sent o at_ bs : build j = Ok o -> z_type o = AREQ -> awaited o = None -> frame_bytes o bs ->
    outstanding t at_ bs [] l -> Accepted j t l None
| A_ok o m to at_ bs lb r : build j = Ok o -> awaited o = Some (m, to) -> frame_bytes o bs -> outstanding t at_ bs lb l ->
    In (OReceived r) lb -> waiter_match m r = Ok true ->
    (z_type o = SREQ -> unexpected_status r (expected_of j) = None) -> Accepted j t l (Some r).
Inductive Reason (j : job) (t : Z) (l : list obs) : outcome -> Prop :=
| R_cancel : Reason j t l (OExn CancelledError)
| R_build e : build j = Err e -> Reason j t l (OExn e)
| R_waiter o e : build j = Ok o -> response_waiter j o = Err e -> Reason j t l (OExn e)
| R_hold o e : build j = Ok o -> 
    (to_unpi_frame o = Err e \/
     (z_type o = AREQ \/ z_type o = SREQ) /\ (e = AttributeError \/ exists f, to_unpi_frame o = Ok f /\ to_buffer f = Err e) \/
     z_type o <> AREQ /\ z_type o <> SREQ /\ e = GenericException) -> Reason j t l (outcome_of_exn j e)
| R_accepted x : Accepted j t l x -> Reason j t l (outcome_of_result j x)
| R_refused o m to at_ bs lb r c : build j = Ok o -> z_type o = SREQ -> awaited o = Some (m, to) -> frame_bytes o bs ->
    outstanding t at_ bs lb l -> In (OReceived r) lb -> waiter_match m r = Ok true ->
    unexpected_status r (expected_of j) = Some c -> Reason j t l (outcome_of_exn j (CommandError c))
| R_lost o m to at_ bs lb r c mq : build j = Ok o -> z_type o = SREQ -> awaited o = Some (m, to) -> frame_bytes o bs ->
    outstanding t at_ bs lb l -> In (OReceived r) lb -> waiter_match m r = Ok true ->
    unexpected_status r (expected_of j) = Some c -> response_waiter j o = Ok (Some mq) -> Reason j t l (OExn KeyError)
| R_timeout o m to at_ bs lb : build j = Ok o -> awaited o = Some (m, to) -> frame_bytes o bs ->
    outstanding t at_ bs lb l -> Reason j t l (OExn TimeoutError)
| R_wait_ok m to r : j = JWaitFor m to -> In (OReceived r) l -> waiter_match m r = Ok true -> Reason j t l (ORet (Some r))
| R_wait_timeout m to : j = JWaitFor m to -> Reason j t l (OExn TimeoutError).

Lemma outstanding_mono t a bs lb l l' : grows l l' -> outstanding t a bs lb l -> outstanding t a bs lb l'.
Proof.
  intros [x ->] (la & lc & -> & H). exists la, (lc ++ x). split; [|exact H].
  repeat (rewrite <- ?app_assoc; cbn [app]). reflexivity.
Qed.
Lemma accepted_mono j t l l' x : grows l l' -> Accepted j t l x -> Accepted j t l' x.
Proof. intros G []; [eapply A_sent|eapply A_ok]; eauto using outstanding_mono. Qed.
Lemma reason_mono j t l l' r : grows l l' -> Reason j t l r -> Reason j t l' r.
Proof.
  intros G [].
  - apply R_cancel.
  - apply R_build; assumption.
  - eapply R_waiter; eassumption.
  - eapply R_hold; eassumption.
  - apply R_accepted. eapply accepted_mono; eassumption.
  - eapply R_refused; eauto using outstanding_mono.
  - eapply R_lost; eauto using outstanding_mono.
  - eapply R_timeout; eauto using outstanding_mono.
  - eapply R_wait_ok; eauto using grows_in.
  - eapply R_wait_timeout; eassumption.
Qed.

Definition Ended1 (t : Z) (k : task) (l : list obs) : Prop :=
  match t_phase k with
  | PSleep _ => settles (t_job k) = true /\ exists x, Accepted (t_job k) t l x
  | PDone r => Reason (t_job k) t l r
  | _ => True
  end.
Definition Ended (s : st) : Prop := forall t k, get s t = Some k -> Ended1 t k (s_log s).
Lemma ended_mono t k l l' : grows l l' -> Ended1 t k l -> Ended1 t k l'.
Proof.
  intros G. unfold Ended1. destruct (t_phase k); auto.
  - intros (Hs & x & Ha). split; [exact Hs|]. exists x. eapply accepted_mono; eassumption.
  - apply reason_mono, G.
Qed.

(** the task holding the link leaves it *)
Lemma leaves s t k i d pre l : Waiters s -> get s t = Some k -> t_phase k = PWait i d -> ~ In (OFreed t) pre ->
  exists o m to at_ bs lb, t_obj k = Some o /\ build (t_job k) = Ok o /\ awaited o = Some (m, to) /\ frame_bytes o bs /\
    d = at_ + to /\ outstanding t at_ bs lb (s_log s ++ pre ++ OFreed t :: l) /\
    (forall r, s_futs s i = FDone r -> In (OReceived r) lb /\ waiter_match m r = Ok true).
Proof.
  intros W G Hp Hpre. pose proof (W t k G) as Hw. unfold Waits in Hw. rewrite Hp in Hw.
  destruct Hw as (o & m & to & a & f & bs & H1 & H2 & H3 & H4 & H5 & H6 & (la & lb & El & Hfr & _ & _ & _ & Hf)).
  exists o, m, to, a, bs, (lb ++ pre). repeat (split; [assumption|]). split; [exists f; auto|]. split; [exact H6|]. split.
  - exists la, l. split; [|intro C; apply in_app_or in C; tauto]. rewrite El. repeat (rewrite <- ?app_assoc; cbn [app]). reflexivity.
  - intros r E. rewrite E in Hf. split; [apply in_or_app; left|]; tauto.
Qed.
Lemma settles_result j x y : settles j = true -> outcome_of_result j x = outcome_of_result j y.
Proof. destruct j; cbn; congruence. Qed.
Lemma outcome_exn j e : (forall c, e <> CommandError c) -> outcome_of_exn j e = OExn e.
Proof. intro H. destruct e; try reflexivity. exfalso. eapply H. reflexivity. Qed.

Lemma ended_prim s s' : prim s s' -> Core s -> Waiters s -> Ended s -> Ended s'.
Proof.
  intros H Hc W E.
  assert (Hok : Tasks_ok s) by apply Hc.
  pose proof (log_prim s s' H) as Hg. revert Hg.
  destruct H; prim_nf; intros Hg t' k' G;
    try (eapply ended_mono; [exact Hg|]; apply E; exact G).
  all: try (assert (G0 := G); opn_in G0; unfold get in H; look G0; try (eapply ended_mono; [exact Hg|]; apply E; exact G0); try exact I).
  - opn_in G. look G; [|exact I]. eapply ended_mono; [exact Hg|]. apply E. assumption.
  - unfold Ended1. fld. destruct H1 as [->|[Hb|(o & Hb & Hr)]]; [apply R_cancel|apply R_build, Hb|eapply R_waiter; eassumption].
  - unfold Ended1. fld. split; [assumption|]. exists None. pose proof (Hok _ _ H) as Hk. unfold Task_ok in Hk. rewrite H0 in Hk.
    destruct Hk as (o' & Ho & Hb & _). eapply (A_sent _ _ _ o (s_now s) bs); try assumption; [congruence|exists f; auto|].
    exists (s_log s), []. split; [opn; repeat (rewrite <- ?app_assoc; cbn [app]); reflexivity|intros []].
  - unfold Ended1. fld. apply R_accepted. pose proof (Hok _ _ H) as Hk. unfold Task_ok in Hk. rewrite H0 in Hk.
    destruct Hk as (o' & Ho & Hb & _). eapply (A_sent _ _ _ o (s_now s) bs); try assumption; [congruence|exists f; auto|].
    eexists (s_log s), _. split; [opn; repeat (rewrite <- ?app_assoc; cbn [app]); reflexivity|intros []].
  - unfold Ended1. fld. pose proof (Hok _ _ H) as Hk. unfold Task_ok in Hk. rewrite H0 in Hk. destruct Hk as (o' & Ho & Hb & _).
    apply (R_hold _ _ _ o); [congruence|]. destruct H2 as [H2|[[Ht [[He _]|He]]|H2]]; auto.
  - destruct (leaves s t k i d [] [] W H H0 (fun x => x)) as (o' & m & to & a & bs & lb & Ho & Hb & Ha & Hf & Hd & Hout & Hr).
    unfold Ended1. fld. split; [assumption|]. exists (Some r). destruct (Hr r H2) as [Hr1 Hr2].
    eapply A_ok; [exact Hb|exact Ha|exact Hf| |exact Hr1|exact Hr2|intro Hs; apply H3; congruence].
    opn; repeat (rewrite <- ?app_assoc; cbn [app]). exact Hout.
  - destruct (leaves s t k i d [] [OEnded t (outcome_of_result (t_job k) (Some r))] W H H0 (fun x => x)) as (o' & m & to & a & bs & lb & Ho & Hb & Ha & Hf & Hd & Hout & Hr).
    unfold Ended1. fld. apply R_accepted. destruct (Hr r H2) as [Hr1 Hr2].
    eapply A_ok; [exact Hb|exact Ha|exact Hf| |exact Hr1|exact Hr2|intro Hs; apply H3; congruence].
    opn; repeat (rewrite <- ?app_assoc; cbn [app]). exact Hout.
  - destruct (leaves s t k i d [] [OEnded t (outcome_of_exn (t_job k) (CommandError c))] W H H0 (fun x => x)) as (o' & m & to & a & bs & lb & Ho & Hb & Ha & Hf & Hd & Hout & Hr).
    unfold Ended1. fld. destruct (Hr r H2) as [Hr1 Hr2].
    eapply (R_refused _ _ _ o m to a bs lb r c); try assumption; try congruence.
    opn; repeat (rewrite <- ?app_assoc; cbn [app]). exact Hout.
  - destruct (leaves s t k i d [OCompleted j r] [OEnded t (outcome_of_exn (t_job k) (CommandError c))] W H H0) as (o' & m & to & a & bs & lb & Ho & Hb & Ha & Hf & Hd & Hout & Hr).
    { intros [C|[]]; discriminate. }
    unfold Ended1. fld. destruct (Hr r H2) as [Hr1 Hr2].
    eapply (R_refused _ _ _ o m to a bs lb r c); try assumption; try congruence.
    opn; repeat (rewrite <- ?app_assoc; cbn [app]). exact Hout.
  - destruct (leaves s t k i d [] [OEnded t (outcome_of_exn (t_job k) KeyError)] W H H0 (fun x => x)) as (o' & m & to & a & bs & lb & Ho & Hb & Ha & Hf & Hd & Hout & Hr).
    unfold Ended1. fld. destruct (Hr r H2) as [Hr1 Hr2].
    pose proof (Hok _ _ H) as Hk. unfold Task_ok in Hk. rewrite H0 in Hk. destruct Hk as (o2 & Ho2 & Hb2 & _ & Hwid).
    destruct Hwid as (m2 & q2 & Hrw); [congruence|].
    eapply (R_lost _ _ _ o m to a bs lb r c); try assumption; try congruence.
    + opn; repeat (rewrite <- ?app_assoc; cbn [app]). exact Hout.
    + replace o with o2 by congruence. exact Hrw.
  - destruct (leaves s t k i d [] [OEnded t (outcome_of_exn (t_job k) TimeoutError)] W H H0 (fun x => x)) as (o' & m & to & a & bs & lb & Ho & Hb & Ha & Hf & Hd & Hout & Hr).
    unfold Ended1. fld. eapply R_timeout; try eassumption. opn; repeat (rewrite <- ?app_assoc; cbn [app]). exact Hout.
  - apply R_cancel.
  - apply R_cancel.
  - apply R_cancel.
  - unfold Ended1. fld. pose proof (E _ _ H) as He. unfold Ended1 in He. rewrite H0 in He. destruct He as (Hs & x & Hx).
    eapply reason_mono; [exact Hg|]. rewrite (settles_result _ None x Hs). apply R_accepted, Hx.
  - apply R_cancel.
  - unfold Ended1. fld. pose proof (W _ _ H) as Hw. unfold Waits in Hw. rewrite H0 in Hw.
    destruct Hw as (m & to & a & Hj & _ & (la & lb & El & _ & _ & _ & _ & Hf)). rewrite H1 in Hf.
    eapply R_wait_ok; [exact Hj| |apply Hf]. eapply grows_in; [exact Hg|]. rewrite El. apply in_or_app. right. right. apply Hf.
  - unfold Ended1. fld. pose proof (W _ _ H) as Hw. unfold Waits in Hw. rewrite H0 in Hw.
    destruct Hw as (m & to & a & Hj & _). eapply R_wait_timeout. exact Hj.
  - apply R_cancel.
  - apply R_cancel.
Qed.

(** ** what was written *)
Definition Wrote (s : st) : Prop :=
  s_wire s = written_bytes (s_log s) /\
  forall t at_ bs, In (OWritten t at_ bs) (s_log s) -> at_ <= s_now s /\
    exists k o, get s t = Some k /\ build (t_job k) = Ok o /\ (z_type o = SREQ \/ z_type o = AREQ) /\ frame_bytes o bs.
Lemma written_bytes_snoc l x : written_bytes (l ++ [x]) = written_bytes l ++ match x with OWritten _ _ bs => [bs] | _ => [] end.
Proof. unfold written_bytes. rewrite flat_map_app. cbn [flat_map]. rewrite app_nil_r. reflexivity. Qed.
Lemma awaited_type o m to : awaited o = Some (m, to) -> z_type o = SREQ \/ z_type o = AREQ.
Proof. unfold awaited. destruct (z_type o); auto; discriminate. Qed.
Lemma wrote_prim s s' : prim s s' -> Core s -> Wrote s -> Wrote s'.
Proof.
  intros H Hc [W1 W2].
  assert (Hok : Tasks_ok s) by apply Hc.
  assert (Hold : forall t at_ bs, In (OWritten t at_ bs) (s_log s) -> at_ <= s_now s' /\
    exists k o, get s' t = Some k /\ build (t_job k) = Ok o /\ (z_type o = SREQ \/ z_type o = AREQ) /\ frame_bytes o bs).
  { intros t a bs Hin. destruct (W2 t a bs Hin) as (Ha & k & o & G & Hb & Hr). apply now_prim in H as Hn. split; [lia|].
    destruct (job_prim s s' H t k G) as (k' & G' & Hj). exists k', o. split; [exact G'|]. rewrite Hj. auto. }
  pose proof (job_prim s s' H) as Hjob.
  revert Hold Hjob. destruct H; prim_nf; intros Hold Hjob; split;
    try (opn; repeat rewrite written_bytes_snoc; repeat rewrite app_nil_r; try rewrite W1; reflexivity);
    intros t' a' bs' Hin; opn_in Hin; repeat rewrite in_app_iff in Hin; cbn [In] in Hin;
    repeat (destruct Hin as [Hin|Hin]); try contradiction; try discriminate Hin; try (apply Hold; exact Hin).
  all: injection Hin as <- <- <-; (split; [opn; lia|]); destruct (Hjob _ _ H) as (k' & G' & Hj);
    pose proof (Hok _ _ H) as Hk; unfold Task_ok in Hk; rewrite H0 in Hk; destruct Hk as (o' & Ho & Hb & _);
    exists k', o; (split; [exact G'|]); rewrite Hj; (split; [congruence|]).
  all: split; [first [auto; fail|eapply awaited_type; eassumption]|exists f; auto].
Qed.
