(** * WorldProofs2: once called, admitted and ended; slots of an older semaphore; success *)
From Coq Require Import ZifyBool ZifyNat.
From Verif Require Import Base Types Uart Buffalo CmdTable Zpi Api App Machine Life World SpecMachine SpecWorld
  MachineBase MachineInv MachineInv2 MachineInv3 MachineInv4 MachineInv5 DispatchProofs MachineProofs MachineProofs4 MachineProofs9 MachineProgress
  LifeProofs2 WorldInv WorldFace WorldBase WorldProofs WorldLife WorldOps WorldFresh.

(** ** lists *)
Lemma snoc_split {A} (l : list A) x l1 y l2 : l ++ [x] = l1 ++ y :: l2 ->
  (l2 = [] /\ x = y /\ l1 = l) \/ exists l2', l2 = l2' ++ [x] /\ l = l1 ++ y :: l2'.
Proof.
  intro E. destruct (rev l2) as [|z r] eqn:R.
  - apply (f_equal (@rev A)) in R. rewrite rev_involutive in R. cbn [rev] in R. subst l2. apply app_inj_tail in E. destruct E as [-> ->]. auto.
  - apply (f_equal (@rev A)) in R. rewrite rev_involutive in R. cbn [rev] in R. subst l2.
    change (l ++ [x] = l1 ++ (y :: rev r) ++ [z]) in E. rewrite app_assoc in E. apply app_inj_tail in E. destruct E as [-> ->]. right. eauto.
Qed.
Lemma called_snoc l o : called_ops (l ++ [o]) = called_ops l ++ match o with WCalled n => [n] | _ => [] end.
Proof. unfold called_ops. rewrite flat_map_app. cbn [flat_map]. rewrite app_nil_r. reflexivity. Qed.
Lemma admitted_snoc l o : admitted_ops (l ++ [o]) = admitted_ops l ++ match o with WAdmitted n _ _ => [n] | _ => [] end.
Proof. unfold admitted_ops. rewrite flat_map_app. cbn [flat_map]. rewrite app_nil_r. reflexivity. Qed.
Lemma ended_snoc l o : ended_ops (l ++ [o]) = ended_ops l ++ match o with WEnded n _ => [n] | _ => [] end.
Proof. unfold ended_ops. rewrite flat_map_app. cbn [flat_map]. rewrite app_nil_r. reflexivity. Qed.
Lemma in_called l n : In n (called_ops l) <-> In (WCalled n) l.
Proof.
  unfold called_ops. rewrite in_flat_map. split.
  - intros (o & H & X). destruct o; try contradiction. destruct X as [->|[]]. exact H.
  - intro H. exists (WCalled n). split; [exact H|left; reflexivity].
Qed.
Lemma in_admitted l n : In n (admitted_ops l) <-> exists q a, In (WAdmitted n q a) l.
Proof.
  unfold admitted_ops. rewrite in_flat_map. split.
  - intros (o & H & X). destruct o; try contradiction. destruct X as [->|[]]. eauto.
  - intros (q & a & H). exists (WAdmitted n q a). split; [exact H|left; reflexivity].
Qed.
Lemma in_ended l n : In n (ended_ops l) <-> exists r, In (WEnded n r) l.
Proof.
  unfold ended_ops. rewrite in_flat_map. split.
  - intros (o & H & X). destruct o; try contradiction. destruct X as [->|[]]. eauto.
  - intros (r & H). exists (WEnded n r). split; [exact H|left; reflexivity].
Qed.

(** ** the log of the operations *)
Definition place_sem (p : op_place) : option nat :=
  match p with OSlot q | OInside q _ _ | OSettling q _ => Some q | _ => None end.
(** an operation that is past the semaphore or was *)
Definition past (p : op_place) : bool := match p with OInside _ _ _ | OSettling _ _ | OOver _ => true | _ => false end.
Record Log (w : world) : Prop := mk_Log {
  G_called : called_ops (w_log w) = seq 0 (length (w_ops w));
  G_admitted : NoDup (admitted_ops (w_log w));
  G_past : forall n, In n (admitted_ops (w_log w)) -> exists o, the_op w n = Some o /\ past (op_at o) = true;
  G_ended : NoDup (ended_ops (w_log w));
  G_order : forall l1 n r l2, w_log w = l1 ++ WEnded n r :: l2 -> In n (called_ops l1) /\ ~ In n (admitted_ops l2);
  G_after : forall l1 n q a l2, w_log w = l1 ++ WAdmitted n q a :: l2 -> In n (called_ops l1) /\ exists c, In (WNewSem q c) l1;
  G_sem : w_sem w = match length (w_sems w) with O => None | S k => Some k end;
  G_old : forall l1 q' c l2, w_log w = l1 ++ WNewSem q' c :: l2 -> (q' < length (w_sems w))%nat /\
    forall n o q, the_op w n = Some o -> place_sem (op_at o) = Some q -> (q < q')%nat -> In n (called_ops l1) }.

Lemma is_called w n o : Log w -> the_op w n = Some o -> In n (called_ops (w_log w)).
Proof. intros L G. rewrite (G_called w L). apply in_seq. unfold the_op in G. apply nth_lt in G. lia. Qed.
(** nothing that the log tells about operations happens *)
Lemma log_note w w' o : plain o = true -> w_log w' = w_log w ++ [o] -> w_ops w' = w_ops w -> w_sems w' = w_sems w -> w_sem w' = w_sem w -> Log w -> Log w'.
Proof.
  intros P E O S Q [L1 L2 L3 L4 L5 L6 L7 L8]. constructor; rewrite ?E, ?O, ?S, ?Q, ?called_snoc, ?admitted_snoc, ?ended_snoc.
  - destruct o; try discriminate; rewrite app_nil_r; exact L1.
  - destruct o; try discriminate; rewrite app_nil_r; exact L2.
  - intros n X. rewrite (the_op_eq w w' n O). apply L3. destruct o; try discriminate; rewrite app_nil_r in X; exact X.
  - destruct o; try discriminate; rewrite app_nil_r; exact L4.
  - intros l1 n r l2 X. apply snoc_split in X. destruct X as [(_ & -> & _)|(l2' & -> & X)]; [discriminate|]. destruct (L5 _ _ _ _ X) as [X1 X2]. split; [exact X1|].
    rewrite admitted_snoc. destruct o; try discriminate; rewrite app_nil_r; exact X2.
  - intros l1 n q a l2 X. apply snoc_split in X. destruct X as [(_ & -> & _)|(l2' & -> & X)]; [discriminate|]. exact (L6 _ _ _ _ _ X).
  - exact L7.
  - intros l1 q' c l2 X. apply snoc_split in X. destruct X as [(_ & -> & _)|(l2' & -> & X)]; [discriminate|]. destruct (L8 _ _ _ _ X) as [X1 X2].
    split; [exact X1|]. intros n p q. rewrite (the_op_eq w w' n O). apply X2.
Qed.
Lemma log_same w w' : w_log w' = w_log w -> w_ops w' = w_ops w -> w_sems w' = w_sems w -> w_sem w' = w_sem w -> Log w -> Log w'.
Proof.
  intros E O S Q [L1 L2 L3 L4 L5 L6 L7 L8]. constructor; rewrite ?E, ?O, ?S, ?Q; try assumption.
  - intros n X. rewrite (the_op_eq w w' n O). apply L3, X.
  - intros l1 q' c l2 X. destruct (L8 _ _ _ _ X) as [X1 X2]. split; [exact X1|]. intros n p q. rewrite (the_op_eq w w' n O). apply X2.
Qed.
(** operation [n] moves; [x]: what is told about it *)
Definition tells (n : nat) (o : op) (p : op) (x : option wobs) (w : world) : Prop :=
  (forall q, place_sem (op_at p) = Some q -> place_sem (op_at o) = Some q \/ w_sem w = Some q) /\
  match x with
  | None => past (op_at o) = true -> past (op_at p) = true
  | Some (WWaiter _ _ _) => past (op_at o) = false
  | Some (WAdmitted m q a) => m = n /\ past (op_at o) = false /\ past (op_at p) = true /\ exists v, nth_error (w_sems w) q = Some v
  | Some (WEnded m r) => m = n /\ ~ (exists r, op_at o = OOver r) /\ past (op_at p) = true
  | Some _ => False
  end.
Lemma log_move w w' n o p x : Caps w -> Hist w -> the_op w n = Some o -> w_ops w' = set_nth n p (w_ops w) ->
  w_log w' = w_log w ++ match x with Some y => [y] | None => [] end -> length (w_sems w') = length (w_sems w) -> w_sem w' = w_sem w ->
  tells n o p x w -> Log w -> Log w'.
Proof.
  intros Cp Hi Ho O E S Q [T1 T2] L. pose proof (is_called w n o L Ho) as Cn. destruct L as [L1 L2 L3 L4 L5 L6 L7 L8].
  assert (P : forall m, the_op w' m = if Nat.eqb n m then Some p else the_op w m) by (intro m; rewrite (the_op_set w w' n p m O), Ho; reflexivity).
  assert (N : match x with Some (WNewSem _ _) | Some (WCalled _) => False | _ => True end) by (destruct x as [[]|]; try exact I; exact T2).
  assert (OLD : forall m q q' l1 y, the_op w' m = Some y -> place_sem (op_at y) = Some q -> (q < q')%nat -> (q' < length (w_sems w))%nat ->
    (forall n o q, the_op w n = Some o -> place_sem (op_at o) = Some q -> (q < q')%nat -> In n (called_ops l1)) -> In m (called_ops l1)).
  { intros m q q' l1 y G Y Hq Hq' X. rewrite P in G. destruct (Nat.eqb_spec n m) as [->|]; [|eapply X; eassumption]. injection G as <-.
    destruct (T1 q Y) as [Y'|Y']; [eapply X; eassumption|]. exfalso. rewrite L7 in Y'. destruct (length (w_sems w)); [discriminate|]. injection Y' as <-. lia. }
  assert (PAST : forall m, In m (admitted_ops (w_log w)) -> m <> n \/ past (op_at p) = true -> exists o, the_op w' m = Some o /\ past (op_at o) = true).
  { intros m X D. rewrite P. destruct (L3 m X) as (y & Y1 & Y2). destruct (Nat.eqb_spec n m) as [->|]; [|eauto]. destruct D as [D|D]; [congruence|eauto]. }
  assert (NOTPAST : past (op_at o) = false -> ~ In n (admitted_ops (w_log w))).
  { intros D X. destruct (L3 n X) as (y & Y1 & Y2). congruence. }
  destruct x as [x|].
  - assert (P1 : forall l1 n' r l2, w_log w ++ [x] = l1 ++ WEnded n' r :: l2 -> In n' (called_ops l1) /\ ~ In n' (admitted_ops l2)).
    { intros l1 n' r l2 X. apply snoc_split in X. destruct X as [(-> & -> & ->)|(l2' & -> & X)].
      - destruct T2 as (-> & _). split; [exact Cn|intros []].
      - destruct (L5 _ _ _ _ X) as [X1 X2]. split; [exact X1|]. rewrite admitted_snoc. intro Y. apply in_app_or in Y. destruct Y as [Y|Y]; [exact (X2 Y)|].
        destruct x; try contradiction. destruct Y as [->|[]]. destruct T2 as (-> & D & _).
        assert (Z : In (WEnded n r) (w_log w)) by (rewrite X; apply in_or_app; right; left; reflexivity).
        destruct (proj2 Hi n r Z) as (y & Y1 & Y2). rewrite Ho in Y1. injection Y1 as <-. rewrite Y2 in D. discriminate. }
    assert (P2 : forall l1 n' q a l2, w_log w ++ [x] = l1 ++ WAdmitted n' q a :: l2 -> In n' (called_ops l1) /\ exists c, In (WNewSem q c) l1).
    { intros l1 n' q a l2 X. apply snoc_split in X. destruct X as [(-> & -> & ->)|(l2' & -> & X)]; [|exact (L6 _ _ _ _ _ X)].
      destruct T2 as (-> & _ & _ & v & V). split; [exact Cn|]. destruct (proj1 Cp q v V) as (_ & c & X & _). eauto. }
    assert (P3 : forall l1 q' c l2, w_log w ++ [x] = l1 ++ WNewSem q' c :: l2 -> (q' < length (w_sems w))%nat /\
      forall n o q, the_op w' n = Some o -> place_sem (op_at o) = Some q -> (q < q')%nat -> In n (called_ops l1)).
    { intros l1 q' c l2 X. apply snoc_split in X. destruct X as [(-> & -> & ->)|(l2' & -> & X)]; [destruct N|]. destruct (L8 _ _ _ _ X) as [X1 X2].
      split; [exact X1|]. intros m y q G Y Hq. eapply OLD; eassumption. }
    constructor; rewrite ?E, ?O, ?S, ?Q, ?called_snoc, ?admitted_snoc, ?ended_snoc, ?len_set; try assumption.
    + destruct x; try contradiction; rewrite app_nil_r; exact L1.
    + destruct x; try contradiction; rewrite ?app_nil_r; try exact L2. destruct T2 as (-> & D & _). apply nodup_end; [exact L2|apply NOTPAST, D].
    + intros m X. destruct x as [| |n' q a|n' r| | | |]; try contradiction; rewrite ?app_nil_r in X.
      * destruct (Nat.eq_dec m n) as [->|Hm]; [exfalso; apply (NOTPAST T2 X)|]. apply PAST; auto.
      * destruct T2 as (-> & D & D' & _). apply in_app_or in X. destruct X as [X|[->|[]]]; [apply PAST; auto|]. rewrite P, Nat.eqb_refl. eauto.
      * destruct T2 as (-> & D & D'). apply PAST; auto.
    + destruct x as [| |n' q a|n' r| | | |]; try contradiction; rewrite ?app_nil_r; try exact L4. destruct T2 as (-> & D & _). apply nodup_end; [exact L4|].
      intro X. apply in_ended in X. destruct X as [r' X]. destruct (proj2 Hi n r' X) as (y & Y1 & Y2). rewrite Ho in Y1. injection Y1 as <-. eauto.
  - rewrite app_nil_r in E. constructor; rewrite ?E, ?O, ?S, ?Q, ?len_set; try assumption.
    + intros m X. destruct (Nat.eq_dec m n) as [->|Hm]; [|apply PAST; auto]. destruct (L3 n X) as (y & Y1 & Y2). rewrite Ho in Y1. injection Y1 as <-. apply PAST; auto.
    + intros l1 q' c l2 X. destruct (L8 _ _ _ _ X) as [X1 X2]. split; [exact X1|]. intros m y q G Y Hq. eapply OLD; eassumption.
Qed.
Lemma log_p w w' : Good w -> wprim w w' -> Work w -> Caps w -> Hist w -> Log w -> Log w'.
Proof.
  intros G H W Cp Hi L. destruct H.
  1,2,3,5: (apply (log_same w); [reflexivity..|exact L]).
  - eapply (log_note w _ o); [exact H|reflexivity..|exact L].
  - destruct L as [L1 L2 L3 L4 L5 L6 L7 L8]. unfold got_version. constructor; wfld; rewrite ?called_snoc, ?admitted_snoc, ?ended_snoc, ?app_nil_r; try assumption.
    + intros l1 n r l2 X. apply snoc_split in X. destruct X as [(_ & X & _)|(l2' & -> & X)]; [discriminate|]. rewrite admitted_snoc, app_nil_r. exact (L5 _ _ _ _ X).
    + intros l1 n q a l2 X. apply snoc_split in X. destruct X as [(_ & X & _)|(l2' & -> & X)]; [discriminate|]. exact (L6 _ _ _ _ _ X).
    + rewrite app_length. cbn [length]. rewrite Nat.add_1_r. reflexivity.
    + intros l1 q' c l2 X. rewrite app_length. cbn [length]. apply snoc_split in X. destruct X as [(_ & [= <- <-] & ->)|(l2' & -> & X)].
      * split; [lia|]. intros n o q Gn _ _. rewrite L1. apply in_seq. unfold the_op in Gn. apply nth_lt in Gn. change (w_ops _) with (w_ops w) in Gn. lia.
      * destruct (L8 _ _ _ _ X) as [X1 X2]. split; [lia|]. exact X2.
  - destruct L as [L1 L2 L3 L4 L5 L6 L7 L8]. constructor; wfld; rewrite ?called_snoc, ?admitted_snoc, ?ended_snoc, ?app_nil_r; try assumption.
    + rewrite L1, app_length, Nat.add_1_r, seq_S. reflexivity.
    + intros n X. destruct (L3 n X) as (o & G1 & G2). exists o. split; [|exact G2]. unfold the_op in *. wfld. rewrite nth_snoc.
      destruct (Nat.eqb_spec n (length (w_ops w))) as [->|]; [apply nth_lt in G1; lia|exact G1].
    + intros l1 n r l2 X. apply snoc_split in X. destruct X as [(_ & X & _)|(l2' & -> & X)]; [discriminate|]. rewrite admitted_snoc, app_nil_r. exact (L5 _ _ _ _ X).
    + intros l1 n q a l2 X. apply snoc_split in X. destruct X as [(_ & X & _)|(l2' & -> & X)]; [discriminate|]. exact (L6 _ _ _ _ _ X).
    + intros l1 q' c l2 X. apply snoc_split in X. destruct X as [(_ & X & _)|(l2' & -> & X)]; [discriminate|]. destruct (L8 _ _ _ _ X) as [X1 X2]. split; [exact X1|].
      intros n o q. unfold the_op. wfld. rewrite nth_snoc. destruct (Nat.eqb_spec n (length (w_ops w))) as [->|]; [intros [= <-]; discriminate|apply X2].
  - eapply (log_move w _ n o _ None); try eassumption; try reflexivity; [wfld; rewrite app_nil_r; reflexivity|]. split; [discriminate|]. rewrite H0. discriminate.
  - eapply (log_move w _ n o _ (Some _)); try eassumption; try reflexivity. split; [discriminate|]. rewrite H0. reflexivity.
  - eapply (log_move w _ n o _ None); try eassumption; try reflexivity; [wfld; rewrite app_nil_r; reflexivity|]. split; [wfld; cbn [place_sem]; intros q0 [= <-]; right; exact H2|]. rewrite H0. discriminate.
  - eapply (log_move w _ n o _ (Some _)); try eassumption; try reflexivity; [wfld; apply len_set|]. split; [wfld; cbn [place_sem]; intros q0 [= <-]|].
    + destruct H1 as [[_ H1]|H1]; [auto|left; rewrite H1; reflexivity].
    + split; [reflexivity|]. split; [destruct H1 as [[H1 _]|H1]; rewrite H1; reflexivity|]. split; [reflexivity|]. eauto.
  - eapply (log_move w _ n o _ (Some _)); try eassumption; try reflexivity. split; [discriminate|]. split; [reflexivity|]. split; [|reflexivity].
    intros [r X]. destruct H0 as [[H0 _]|[[H0 _]|[[H0 _]|[[[q0 H0] _]|[[H0|[q0 H0]] _]]]]]; congruence.
  - eapply (log_move w _ n o _ None); try eassumption; try reflexivity; [wfld; rewrite app_nil_r; reflexivity|]. split; [wfld; cbn [place_sem]; rewrite H0; auto|]. rewrite H0. reflexivity.
  - eapply (log_move w _ n o _ (Some _)); try eassumption; try reflexivity; [wfld; apply len_set|]. split; [discriminate|]. split; [reflexivity|]. split; [|reflexivity].
    intros [r0 X]. destruct H0 as [(a & t & k & x & M & _)|[(a & t & k & x & M & _)|[(a & t & k & x & M & _)|[(u & M & _)|(u & M & _)]]]]; congruence.
Qed.
Lemma log_init devs : Log (world_init devs).
Proof.
  constructor; try reflexivity; try (constructor; fail); try (intros ? []; fail); intros l1 *; destruct l1; discriminate.
Qed.
Record All (w : world) : Prop := mk_All { L_linked : Linked w; L_hist : Hist w; L_work : Work w; L_caps : Caps w; L_log : Log w }.
Lemma wreach_all w : wreachable w -> All w.
Proof.
  revert w. apply wreach_ind.
  - intro devs. assert (R : wreachable (world_init devs)) by (exists devs, []; reflexivity). destruct (wreach_slots _ R). destruct (wreach_hist _ R).
    constructor; try assumption. apply log_init.
  - intros w w' G H [L Hi W C Lg]. constructor; [eapply linked_p|eapply hist_p|eapply work_p|eapply caps_p|eapply log_p]; eassumption.
Qed.

(** ** success *)
Lemma world_success w n o : wreachable w -> the_op w n = Some o -> sends (op_job o) -> In (WEnded n (OStatus 0)) (w_log w) ->
  exists q a s obj t at_ bs lb, In (WAdmitted n q a) (w_log w) /\ nth_error (w_apis w) a = Some s /\ build (op_job o) = Ok obj /\
    frame_bytes obj bs /\ outstanding t at_ bs lb (s_log s) /\
    (z_type obj = SREQ -> exists r, In (OReceived r) lb /\ response_to obj r /\ forall v, status_of r = Some v -> v = VInt 0).
Proof.
  intros R Go Hs X. pose proof (wreach_good w R) as Gw. destruct (wreach_hist w R) as [_ [H1 H2]].
  destruct (H2 n _ X) as (o' & Go' & P). rewrite Go in Go'. injection Go' as <-. pose proof (H1 n o Go) as [_ Y]. rewrite P in Y.
  destruct Y as [_ [(e & D & _)|(q & a & t & k & x & Rq & Pk & F)]]; [discriminate|].
  destruct Rq as ((s & A & K) & Ad & Ps & Wd & obj & O1 & O2 & O3).
  assert (B : build (op_job o) = Ok obj) by (apply (proj1 (proj2 Gw) n o Go), O1).
  pose proof (proj2 (proj2 Gw) a s A) as V. pose proof (V_ended s V t k K) as E. unfold EndedW1 in E. rewrite Pk, O2 in E.
  pose proof (V_received s V) as Hrec.
  exists q, a, s, obj.
  destruct E as [(m & to & E)|[E|E]]; [discriminate| |].
  - subst x. cbn [result_of] in F. discriminate.
  - remember (JRaw obj [0]) as j eqn:Ej. assert (Bj : build j = Ok obj) by (subst j; reflexivity). assert (Ex : expected_of j = [0]) by (subst j; reflexivity).
    assert (Ou : forall e, outcome_of_exn j e = OExn e) by (intro e; subst j; unfold outcome_of_exn; destruct e; reflexivity).
    assert (NC : forall c e, result_of o (OExn e) (OStatus 0) -> e = CommandError c -> c = 0).
    { intros c e Y ->. cbn [result_of] in Y. destruct (op_job o); cbn in Hs, Y; try contradiction; congruence. }
    assert (NC2 : forall e, result_of o (OExn e) (OStatus 0) -> exists c, e = CommandError c).
    { intros e Y. cbn [result_of] in Y. unfold outcome_of_exn in Y. destruct e; try discriminate; eauto. }
    destruct E as [|e He|o' e Ho He|o' e Ho He|x Ha|o' m to at_ bs lb r' c Ho Hst Haw Hfb Hout Hi Hm Hu| | |m to r' Hj Hi Hm|]; try (destruct (NC2 _ F) as [? ?]; congruence).
    + subst j. rewrite Bj in *. discriminate.
    + exfalso. rewrite Ou in F. destruct (NC2 _ F) as [c ->]. assert (c = 0) by (eapply NC; [exact F|reflexivity]). subst c.
      destruct He as [E|[[_ [E|(f & _ & E)]]|(_ & _ & E)]]; try discriminate E; [revert E; apply frame_no_cmd|revert E; apply to_buffer_no_cmd].
    + inversion Ha as [o' at_ bs Ho Ht Haw Hfb Hout|o' m to at_ bs lb r' Ho Haw Hfb Hout Hi Hm Hu]; subst x; rewrite Bj in Ho; injection Ho as <-.
      * exists t, at_, bs, []. repeat (split; [assumption|]). congruence.
      * exists t, at_, bs, lb. repeat (split; [assumption|]). intro Ht. exists r'. split; [exact Hi|].
        rewrite (awaited_sreq _ _ _ Haw Ht) in Hm. apply matched in Hm. cbn [m_type m_sub m_cmd] in Hm. split; [exact Hm|].
        intros v Hv. destruct (Hrec r' (outstanding_in _ _ _ _ _ _ Hout Hi)) as [f Hf]. destruct (status_is_int f r' v Hf Hv) as [c ->].
        f_equal. assert (Z : expects j c) by (eapply unexpected_none; [apply Hu, Ht|exact Hv]). subst j. cbn [expects] in Z. destruct Z as [Z|[]]. congruence.
    + exfalso. apply unexpected_some in Hu as [_ Hu]. rewrite Ou in F. assert (c = 0) by (eapply NC; [exact F|reflexivity]). subst c. apply Hu. subst j. left. reflexivity.
    + subst j. discriminate.
Qed.
