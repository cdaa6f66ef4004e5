(** * WorldOps: where the operations of the world come from and how they end *)
From Coq Require Import ZifyBool ZifyNat.
From Verif Require Import Base Types Uart Buffalo CmdTable Zpi Api App Machine Life World SpecMachine SpecWorld
  MachineBase MachineInv MachineInv2 MachineInv3 MachineInv4 MachineInv5 DispatchProofs MachineProofs MachineProofs4 MachineProgress
  LifeProofs2 WorldInv WorldFace WorldBase WorldProofs WorldLife.

(** the request of operation [o] inside API object [a] is task [t], in state [k] *)
Definition request_of (w : world) (n : nat) (o : op) (q a : nat) (t : Z) (k : task) : Prop :=
  task_of w a t k /\ In (WAdmitted n q a) (w_log w) /\ t_phase k <> PStart /\ t_wid k = option_map snd (op_waiter o) /\
  exists obj, op_obj o = Some obj /\ t_job k = JRaw obj [0] /\ t_obj k = Some obj.
Definition unsent (w : world) (o : op) (r : outcome) : Prop :=
  exists e, r = OExn e /\ (build (op_job o) = Err e \/ e = AttributeError \/ e = CancelledError \/
    exists obj sq, build (op_job o) = Ok obj /\ wants_waiter (op_job o) = Some sq /\ create_response_waiter obj (Some sq) = Err e).
Definition result_of (o : op) (x r : outcome) : Prop :=
  match x with
  | ORet _ => r = outcome_of_result (op_job o) None \/ settles (op_job o) = true /\ r = OExn CancelledError
  | OExn e => r = outcome_of_exn (op_job o) e
  | OStatus c => r = OStatus c
  end.
Definition Hist1 (w : world) (n : nat) (o : op) : Prop :=
  (forall a i, op_waiter o = Some (a, i) -> In (WWaiter n a i) (w_log w)) /\
  match op_at o with
  | OInside q a t => exists k, request_of w n o q a t k
  | OSettling q u => u <= w_now w + 200 /\ settles (op_job o) = true /\ exists a t k x, request_of w n o q a t k /\ t_phase k = PDone (ORet x)
  | OOver r => In (WEnded n r) (w_log w) /\
      (unsent w o r \/ exists q a t k x, request_of w n o q a t k /\ t_phase k = PDone x /\ result_of o x r)
  | _ => True
  end.
Definition Hist (w : world) : Prop :=
  (forall n o, the_op w n = Some o -> Hist1 w n o) /\
  (forall n r, In (WEnded n r) (w_log w) -> exists o, the_op w n = Some o /\ op_at o = OOver r).
Lemma task_ext w w' a t k : ext w w' -> task_of w a t k -> t_phase k <> PStart ->
  exists k', task_of w' a t k' /\ t_job k' = t_job k /\ t_wid k' = t_wid k /\ t_obj k' = t_obj k /\ t_phase k' <> PStart /\
    (ended (t_phase k) = true -> k' = k).
Proof.
  intros E (s & A & G) P. destruct (E a s A) as (s' & A' & X). destruct (wid_xs s s' t k X G P) as (k' & G' & J & W & O & P').
  exists k'. split; [exists s'; auto|]. repeat (split; [assumption|]). intro D. rewrite (done_xs s s' t k X G D) in G'. congruence.
Qed.
Lemma request_ext w w' n o q a t k : ext w w' -> (forall x, In x (w_log w) -> In x (w_log w')) -> request_of w n o q a t k ->
  exists k', request_of w' n o q a t k' /\ (ended (t_phase k) = true -> k' = k).
Proof.
  intros E L (T & A & P & W & obj & O1 & O2 & O3). destruct (task_ext w w' a t k E T P) as (k' & T' & J & W' & O' & P' & D).
  exists k'. split; [|exact D]. split; [exact T'|]. split; [apply L, A|]. split; [exact P'|]. split; [congruence|]. exists obj. repeat split; congruence.
Qed.
Lemma hist1_ext w w' n o : ext w w' -> (forall x, In x (w_log w) -> In x (w_log w')) -> w_now w <= w_now w' -> Hist1 w n o -> Hist1 w' n o.
Proof.
  intros E L N [H1 H2]. split; [intros a i X; apply L, H1, X|]. destruct (op_at o) as [|q|q a t|q u|r]; try exact I.
  - destruct H2 as [k R]. destruct (request_ext w w' n o q a t k E L R) as (k' & R' & _). eauto.
  - destruct H2 as (U & S & a & t & k & x & R & P). destruct (request_ext w w' n o q a t k E L R) as (k' & R' & D).
    rewrite D in R' by (rewrite P; reflexivity). split; [lia|]. split; [exact S|]. eauto 8.
  - destruct H2 as [I1 H2]. split; [apply L, I1|]. destruct H2 as [U|(q & a & t & k & x & R & P & F)]; [left; exact U|right].
    destruct (request_ext w w' n o q a t k E L R) as (k' & R' & D). rewrite D in R' by (rewrite P; reflexivity). eauto 10.
Qed.
Lemma hist_keep w w' : ext w w' -> (forall x, In x (w_log w) -> In x (w_log w')) -> w_now w <= w_now w' -> w_ops w' = w_ops w ->
  (forall n r, In (WEnded n r) (w_log w') -> In (WEnded n r) (w_log w)) -> Hist w -> Hist w'.
Proof.
  intros E L N O L2 [H1 H2]. split.
  - intros n o G. rewrite (the_op_eq w w' n O) in G. eapply hist1_ext; eauto.
  - intros n r X. destruct (H2 n r (L2 n r X)) as (o & G & P). exists o. rewrite (the_op_eq w w' n O). auto.
Qed.
Lemma hist_put w w' n o x : ext w w' -> (forall x, In x (w_log w) -> In x (w_log w')) -> w_now w <= w_now w' ->
  the_op w n = Some o -> ~ (exists r, op_at o = OOver r) -> w_ops w' = set_nth n x (w_ops w) ->
  (forall m r, In (WEnded m r) (w_log w') -> In (WEnded m r) (w_log w) \/ (m = n /\ op_at x = OOver r)) -> Hist1 w' n x -> Hist w -> Hist w'.
Proof.
  intros E L N Ho NO O L2 Hx [H1 H2]. assert (S : forall m, the_op w' m = if Nat.eqb n m then Some x else the_op w m) by (intro m; rewrite (the_op_set w w' n x m O), Ho; reflexivity).
  split.
  - intros m p G. rewrite S in G. destruct (Nat.eqb_spec n m) as [->|]; [injection G as <-; exact Hx|]. eapply hist1_ext; eauto.
  - intros m r X. rewrite S. destruct (L2 m r X) as [X'|[-> Px]].
    + destruct (H2 m r X') as (p & G & P). destruct (Nat.eqb_spec n m) as [->|]; [|eauto]. rewrite Ho in G. injection G as <-. exfalso. eauto.
    + rewrite Nat.eqb_refl. eauto.
Qed.
Lemma result_none o x : uses_sem (op_job o) = true -> outcome_of_result (op_job o) x = outcome_of_result (op_job o) None.
Proof. destruct (op_job o); intro H; try discriminate H; reflexivity. Qed.
Ltac logs := intros ? ?; wfld; try (apply in_or_app; left); assumption.
Ltac ends := intros ? ?; wfld; intro; match goal with H : In _ (_ ++ [_]) |- _ => apply in_app_or in H; destruct H as [H|[H|[]]]; [|try discriminate H] | |- _ => idtac end; auto.
Lemma hist_p w w' : Good w -> wprim w w' -> Linked w -> Hist w -> Hist w'.
Proof.
  intros G H L Hi. pose proof (ext_p w w' G H L) as E. pose proof (proj1 Hi) as H1.
  destruct H.
  - apply (hist_keep w); try assumption; [logs|wfld; lia|reflexivity|ends].
  - apply (hist_keep w); try assumption; [logs|wfld; lia|reflexivity|ends].
  - apply (hist_keep w); try assumption; [logs|unfold life_event_happens; wfld; lia|reflexivity|ends].
  - apply (hist_keep w); try assumption; [logs|wfld; lia|reflexivity|]. ends. subst o. discriminate.
  - apply (hist_keep w); try assumption; [logs|wfld; lia|reflexivity|ends].
  - apply (hist_keep w); try assumption; [unfold got_version; logs|unfold got_version; wfld; lia|reflexivity|unfold got_version; ends].
  - destruct Hi as [_ H2]. split.
    + intros n o. unfold the_op. wfld. rewrite nth_snoc. destruct (Nat.eqb n (length (w_ops w))).
      * intros [= <-]. split; [discriminate|exact I].
      * intro Go. eapply hist1_ext; [exact E|logs|wfld; lia|apply H1, Go].
    + intros n r. wfld. intro X. apply in_app_or in X. destruct X as [X|[X|[]]]; [|discriminate]. destruct (H2 n r X) as (o & Go & P).
      exists o. split; [|exact P]. unfold the_op in *. wfld. rewrite nth_snoc. destruct (Nat.eqb_spec n (length (w_ops w))) as [->|]; [apply nth_lt in Go; lia|exact Go].
  - eapply (hist_put w _ n o); try eassumption; [logs|wfld; lia|intros [r X]; congruence|reflexivity|ends|]. split; [discriminate|exact I].
  - eapply (hist_put w _ n o); try eassumption; [logs|wfld; lia|intros [r X]; congruence|reflexivity|ends|]. split; [|exact I].
    wfld. intros a0 i [= <- <-]. apply in_or_app. right. left. reflexivity.
  - eapply (hist_put w _ n o); try eassumption; [logs|wfld; lia|intros [r X]; congruence|reflexivity|ends|]. split; [apply (H1 n o H)|exact I].
  - eapply (hist_put w _ n o); try eassumption; [logs|wfld; lia|intros [r X]; destruct H2 as [[? ?]|?]; congruence|reflexivity|ends|].
    split; [wfld; intros a0 i X; apply in_or_app; left; apply (H1 n o H), X|].
    cbn [op_at moved]. pose proof (V_tids s (proj2 (proj2 G) _ _ H6)) as T.
    destruct (wid_xs (called obj (option_map snd (op_waiter o)) s) (call_raw obj (option_map snd (op_waiter o)) s) (s_ntid s) (mk_task (JRaw obj [0]) PAdm (Some obj) (option_map snd (op_waiter o)))) as (k & K & J & W & O & P).
    + rewrite call_raw_split. apply prims_x; [eapply acquire_lock_prims; [apply get_called, T|reflexivity..]|apply ntid_acquire_lock].
    + apply get_called, T.
    + discriminate.
    + exists k. split; [exists (call_raw obj (option_map snd (op_waiter o)) s); split; [wfld; rewrite nth_set, Nat.eqb_refl, H6; reflexivity|exact K]|].
      split; [wfld; apply in_or_app; right; left; reflexivity|]. split; [exact P|]. split; [exact W|]. exists obj. repeat split; assumption.
  - eapply (hist_put w _ n o); try eassumption; [logs|wfld; lia| |reflexivity| |].
    + intros [r X]. destruct H0 as [[H0 _]|[[H0 _]|[[H0 _]|[[[q0 H0] _]|[[H0|[q0 H0]] _]]]]]; congruence.
    + ends. match goal with X : WEnded _ _ = _ |- _ => injection X as <- <- end. auto.
    + split; [wfld; intros a0 i X; apply in_or_app; left; apply (H1 n o H), X|]. wfld. split; [apply in_or_app; right; left; reflexivity|]. left. exists e. split; [reflexivity|]. wfld.
      destruct H0 as [[_ H0]|[[_ [H0 _]]|[[_ (obj & sq & ? & ? & ?)]|[[_ [H0 _]]|[_ H0]]]]]; auto. right. right. right. eauto.
  - pose proof (H1 n o H) as [W1 W2]. rewrite H0 in W2. destruct W2 as [k0 R].
    assert (k0 = k). { destruct H2 as (s & A & K). destruct R as ((s' & A' & K') & _). congruence. } subst k0.
    eapply (hist_put w _ n o); try eassumption; [logs|wfld; lia|intros [r X]; congruence|reflexivity|ends|].
    split; [exact W1|]. wfld. split; [lia|]. split; [exact H4|]. exists a, t, k, x. split; [|exact H3]. exact R.
  - eapply (hist_put w _ n o); try eassumption; [logs|wfld; lia| |reflexivity| |].
    + intros [r0 X]. destruct H0 as [(a & t & k & x & M & _)|[(a & t & k & x & M & _)|[(a & t & k & x & M & _)|[(u & M & _)|(u & M & _)]]]]; congruence.
    + ends. match goal with X : WEnded _ _ = _ |- _ => injection X as <- <- end. auto.
    + pose proof (H1 n o H) as [W1 W2]. split; [wfld; intros a0 i X; apply in_or_app; left; apply W1, X|]. wfld. split; [apply in_or_app; right; left; reflexivity|]. right.
      assert (Q : exists a t k x, request_of w n o q a t k /\ t_phase k = PDone x /\ result_of o x r).
      { destruct H0 as [(a & t & k & x & M & T & P & S & F)|[(a & t & k & x & M & T & P & F)|[(a & t & k & x & M & T & P & F)|[(u & M & U & F)|(u & M & F)]]]]; rewrite M in W2.
        1,2,3: destruct W2 as [k0 R]; (assert (k0 = k) by (destruct T as (s & A & K); destruct R as ((s' & A' & K') & _); congruence)); subst k0.
        - exists a, t, k, (ORet x). split; [exact R|]. split; [exact P|]. left. rewrite F. apply result_none. apply (proj1 (proj2 G) n o H).
        - exists a, t, k, (OExn x). auto.
        - exists a, t, k, (OStatus x). auto.
        - destruct W2 as (_ & S & a & t & k & x & R & P). exists a, t, k, (ORet x). split; [exact R|]. split; [exact P|]. left. exact F.
        - destruct W2 as (_ & S & a & t & k & x & R & P). exists a, t, k, (ORet x). split; [exact R|]. split; [exact P|]. right. auto. }
      destruct Q as (a & t & k & x & R & P & F). exists q, a, t, k, x. split; [|auto].
      destruct R as (T & A & R). split; [exact T|]. split; [apply in_or_app; left; exact A|exact R].
Qed.
Lemma hist_init devs : Hist (world_init devs).
Proof. split; [|intros n r []]. intros n o G. unfold the_op in G. destruct n; discriminate. Qed.
Lemma wreach_hist w : wreachable w -> Linked w /\ Hist w.
Proof.
  revert w. apply wreach_ind; [intros; split; [apply linked_init|apply hist_init]|]. intros w w' G H [L Hi].
  split; [eapply linked_p; eassumption|eapply hist_p; eassumption].
Qed.
