(** * WorldProofs3: every moment; before the first version answer; silence; what bytes from one stick change *)
From Coq Require Import ZifyBool ZifyNat.
From Verif Require Import Base Types Uart Buffalo CmdTable Zpi Api App Machine Life World SpecMachine SpecLife SpecWorld
  MachineBase MachineInv MachineInv2 MachineInv3 MachineInv4 MachineInv5 DispatchProofs MachineProofs MachineProofs4 MachineProofs9 MachineProgress
  LifeProofs2 WorldInv WorldFace WorldBase WorldProofs WorldLife WorldOps WorldFresh WorldProofs2.

(** ** every moment is the end of some log *)
Lemma log_prim w w' : wprim w w' -> w_log w' = w_log w \/ exists o, w_log w' = w_log w ++ [o].
Proof. destruct 1; unfold life_event_happens, got_version; wfld; eauto. Qed.
Lemma all_p w w' : Good w -> wprim w w' -> All w -> All w'.
Proof. intros G H [L Hi W C Lg]. constructor; [eapply linked_p|eapply hist_p|eapply work_p|eapply caps_p|eapply log_p]; eassumption. Qed.
Lemma every_moment (P : list wobs -> Prop) : (forall w, All w -> P (w_log w)) -> forall w, wreachable w -> forall l1 l2, w_log w = l1 ++ l2 -> P l1.
Proof.
  intros H w R. enough (X : All w /\ forall l1 l2, w_log w = l1 ++ l2 -> P l1) by apply X. revert w R. apply wreach_ind.
  - intro devs. assert (A : All (world_init devs)) by (apply wreach_all; exists devs, []; reflexivity). split; [exact A|].
    intros l1 l2 E. destruct l1; [|discriminate]. apply (H _ A).
  - intros w w' G Hp [A X]. assert (A' : All w') by (eapply all_p; eassumption). split; [exact A'|]. intros l1 l2 E.
    destruct (log_prim w w' Hp) as [L|[o L]]; rewrite L in E; [eapply X, E|].
    destruct l2 as [|y l2]; [rewrite app_nil_r in E; subst l1; rewrite <- L; apply H, A'|].
    apply snoc_split in E. destruct E as [(-> & -> & ->)|(l2' & -> & E)]; [eapply X; rewrite app_nil_r; reflexivity|eapply X; exact E].
Qed.

(** ** slots at every moment *)
Lemma sum_filters {A} (f g : A -> bool) l : (forall x, f x = true -> g x = true) -> (length (filter f l) <= length (filter g l))%nat.
Proof. intro H. induction l as [|x l IH]; [apply le_n|]. cbn [filter]. specialize (H x). destruct (f x), (g x); cbn [length]; try lia; discriminate (H eq_refl). Qed.
Lemma slots_moment w : wreachable w -> forall l1 l2, w_log w = l1 ++ l2 ->
  (forall q c, In (WNewSem q c) l1 -> (exists p, c = concurrent p) /\ 0 <= with_slot q l1 <= c) /\
  Z.of_nat (length (working l1)) <= all_slots l1.
Proof.
  apply every_moment. intros v A. pose proof (L_caps v A) as (C1 & C2 & C3). split.
  - intros q c X. destruct (C2 q c X) as [(x & X1 & X2) X3]. split; [exact X3|]. destruct (C1 q x X1) as [Y _].
    split; [unfold with_slot; lia|lia].
  - assert (T : forall l, (forall q x, nth_error l q = Some x -> 0 <= x) -> 0 <= total_free l).
    { induction l as [|y l IH]; intro Y; [cbn [total_free]; lia|]. cbn [total_free]. pose proof (Y O y eq_refl). specialize (IH (fun q x => Y (S q) x)). lia. }
    assert (0 <= total_free (w_sems v)) by (apply T; intros q x X; apply (C1 q x X)). lia.
Qed.
(** no slot is given away while all are taken *)
Lemma slots_taken w l1 n q a l2 : wreachable w -> w_log w = l1 ++ WAdmitted n q a :: l2 -> exists c p, In (WNewSem q c) l1 /\ c = concurrent p /\ with_slot q l1 < c.
Proof.
  intros R E. pose proof (L_log w (wreach_all w R)) as L. destruct (G_after w L _ _ _ _ _ E) as [_ [c X]].
  assert (E' : w_log w = (l1 ++ [WAdmitted n q a]) ++ l2) by (rewrite <- app_assoc; exact E).
  destruct (slots_moment w R _ _ E') as [S _]. destruct (S q c) as [[p ->] S2]; [apply in_or_app; left; exact X|].
  exists (concurrent p), p. split; [exact X|]. split; [reflexivity|]. rewrite with_slot_grows, Nat.eqb_refl in S2. lia.
Qed.
(** semaphore objects are made in order, each once *)
Lemma sems_order w : wreachable w -> (forall q c, In (WNewSem q c) (w_log w) -> (q < length (w_sems w))%nat) /\
  forall l1 q c l2, w_log w = l1 ++ WNewSem q c :: l2 -> forall q' c', In (WNewSem q' c') l2 -> (q < q')%nat.
Proof.
  revert w. apply wreach_ind.
  - intro devs. split; [intros ? ? []|intros l1 q c l2 E; destruct l1; discriminate].
  - intros w w' G H [X1 X2].
    assert (K : forall o, (forall q c, o <> WNewSem q c) -> length (w_sems w') = length (w_sems w) -> (w_log w' = w_log w \/ w_log w' = w_log w ++ [o]) ->
      (forall q c, In (WNewSem q c) (w_log w') -> (q < length (w_sems w'))%nat) /\
      forall l1 q c l2, w_log w' = l1 ++ WNewSem q c :: l2 -> forall q' c', In (WNewSem q' c') l2 -> (q < q')%nat).
    { intros o N S L. rewrite S. destruct L as [->| ->]; [auto|]. split.
      - intros q0 c0 Y. apply in_app_or in Y. destruct Y as [Y|[Y|[]]]; [eauto|destruct (N _ _ Y)].
      - intros l1 q c l2 E. apply snoc_split in E. destruct E as [(_ & Y & _)|(l2' & -> & E)]; [destruct (N q c Y)|].
        intros q' c' Y. apply in_app_or in Y. destruct Y as [Y|[Y|[]]]; [exact (X2 _ _ _ _ E q' c' Y)|destruct (N _ _ Y)]. }
    destruct H; try (apply (K (WCalled 0)); [discriminate|reflexivity|left; reflexivity]);
      try (eapply K; [|reflexivity|right; reflexivity]; discriminate); try (eapply K; [|wfld; apply len_set|right; reflexivity]; discriminate).
    + eapply K; [|reflexivity|right; reflexivity]. intros q0 c0 ->. discriminate.
    + unfold got_version. wfld. rewrite app_length. cbn [length]. split.
      * intros q0 c0 Y. apply in_app_or in Y. destruct Y as [Y|[[= <- <-]|[]]]; [specialize (X1 _ _ Y)|]; lia.
      * intros l1 q c l2 E. apply snoc_split in E. destruct E as [(-> & _ & ->)|(l2' & -> & E)]; [intros q' c' []|].
        intros q' c' Y. apply in_app_or in Y. destruct Y as [Y|[[= Y _]|[]]]; [exact (X2 _ _ _ _ E q' c' Y)|].
        assert (Z : In (WNewSem q c) (w_log w)) by (rewrite E; apply in_or_app; right; left; reflexivity). specialize (X1 _ _ Z). lia.
Qed.
Lemma sems_once w q c l1 l2 : wreachable w -> w_log w = l1 ++ WNewSem q c :: l2 -> forall c', ~ In (WNewSem q c') l2.
Proof. intros R E c' X. pose proof (proj2 (sems_order w R) _ _ _ _ E _ _ X). lia. Qed.
(** how many talk to one stick *)
Lemma at_stick_bounds w : wreachable w -> forall l1 l2, w_log w = l1 ++ l2 ->
  (forall a q c, In (WNewSem q c) l1 -> at_stick_with a q l1 <= c) /\ forall a, at_stick a l1 <= all_slots l1.
Proof.
  intros R l1 l2 E. destruct (slots_moment w R l1 l2 E) as [S1 S2]. split.
  - intros a q c X. destruct (S1 q c X) as [_ [_ Y]]. unfold at_stick_with, with_slot in *.
    pose proof (sum_filters (fun x : nat * nat * nat => (Nat.eqb (snd x) a && Nat.eqb (snd (fst x)) q)%bool) (fun x => Nat.eqb (snd (fst x)) q) (working l1)) as Z.
    rewrite <- Y. apply Nat2Z.inj_le, Z. intros x X1. apply andb_prop in X1. apply X1.
  - intro a. unfold at_stick. etransitivity; [|exact S2]. apply Nat2Z.inj_le. rewrite <- (filter_all (working l1)) at 2. apply sum_filters. reflexivity.
Qed.
(** operations with a slot of an older semaphore were called before the newer one was made *)
Lemma older_called w n q a l1 q' c l2 : wreachable w -> In (n, q, a) (working (w_log w)) -> w_log w = l1 ++ WNewSem q' c :: l2 -> (q < q')%nat -> In (WCalled n) l1.
Proof.
  intros R X E Hq. pose proof (wreach_all w R) as A. destruct (L_work w A) as (_ & W & _). destruct (W n q a X) as (o & G & P).
  apply in_called. destruct (G_old w (L_log w A) _ _ _ _ E) as [_ Y]. eapply Y; [exact G| |exact Hq].
  destruct P as [(t & ->)|(u & ->)]; reflexivity.
Qed.

(** ** before the first version answer *)
Lemma no_sem w : wreachable w -> (forall q c, ~ In (WNewSem q c) (w_log w)) -> w_sem w = None /\ w_sems w = [].
Proof.
  intros R N. pose proof (wreach_all w R) as A. pose proof (G_sem w (L_log w A)) as S. destruct (w_sems w) as [|v l] eqn:E; [auto|].
  exfalso. destruct (L_caps w A) as (C & _). destruct (C O v) as (_ & c & X & _); [rewrite E; reflexivity|]. exact (N _ _ X).
Qed.
Lemma no_places w n o : wreachable w -> (forall q c, ~ In (WNewSem q c) (w_log w)) -> the_op w n = Some o -> op_at o = OBegin \/ exists e, op_at o = OOver (OExn e).
Proof.
  intros R N G. destruct (no_sem w R N) as [_ E]. pose proof (wreach_good w R) as [[_ S] _].
  assert (X : forall q, op_at o = OSlot q \/ (exists a t, op_at o = OInside q a t) \/ (exists u, op_at o = OSettling q u) -> False).
  { intros q H. specialize (S n o q G H). rewrite E in S. cbn [length] in S. lia. }
  destruct (op_at o) eqn:P; [auto|exfalso; eapply X; eauto..|].
  right. destruct (wreach_hist w R) as [_ [H _]]. pose proof (H n o G) as [_ Y]. rewrite P in Y. destruct Y as [_ [(e & -> & _)|(q & a & t & k & x & Rq & _)]]; [eauto|].
  exfalso. destruct Rq as (_ & Ad & _). apply in_split in Ad. destruct Ad as (l1 & l2 & Ad).
  destruct (G_after w (L_log w (wreach_all w R)) _ _ _ _ _ Ad) as [_ [c Y]]. apply (N q c). rewrite Ad. apply in_or_app. left. exact Y.
Qed.
Lemma none_admitted w n q a : wreachable w -> (forall q c, ~ In (WNewSem q c) (w_log w)) -> ~ In (WAdmitted n q a) (w_log w).
Proof.
  intros R N Ad. apply in_split in Ad. destruct Ad as (l1 & l2 & Ad).
  destruct (G_after w (L_log w (wreach_all w R)) _ _ _ _ _ Ad) as [_ [c Y]]. apply (N q c). rewrite Ad. apply in_or_app. left. exact Y.
Qed.
(** an API object in which nothing happened, or a waiter was made *)
Definition only_waiter (s s' : st) : Prop :=
  s_wire s' = s_wire s /\ s_tasks s' = s_tasks s /\ s_lock s' = s_lock s /\ s_queue s' = s_queue s /\ (s_waiters s' = s_waiters s \/ exists x, s_waiters s' = s_waiters s ++ [x]).
Lemma only_refl s : only_waiter s s.
Proof. repeat split; auto. Qed.
Lemma end_facts n r w o : the_op w n = Some o -> w_apis (op_end n r w) = w_apis w /\ w_log (op_end n r w) = w_log w ++ [WEnded n r] /\
  exists o', the_op (op_end n r w) n = Some o' /\ op_at o' = OOver r.
Proof.
  intro G. unfold op_end, op_goto. rewrite G. split; [reflexivity|]. split; [reflexivity|]. exists (moved o (OOver r)). split; [|reflexivity].
  rewrite (the_op_set w _ n (moved o (OOver r)) n) by reflexivity. rewrite G, Nat.eqb_refl. reflexivity.
Qed.
Lemma unready w n o : wreachable w -> (forall q c, ~ In (WNewSem q c) (w_log w)) -> the_op w n = Some o -> op_at o = OBegin ->
  let w' := world_step (VRun n) w in
  exists e l, w_log w' = w_log w ++ l ++ [WEnded n (OExn e)] /\ (l = [] \/ exists a i, l = [WWaiter n a i]) /\
    (exists o', the_op w' n = Some o' /\ op_at o' = OOver (OExn e)) /\
    (build (op_job o) = Err e \/
     (exists obj sq, build (op_job o) = Ok obj /\ wants_waiter (op_job o) = Some sq /\ create_response_waiter obj (Some sq) = Err e) \/ e = AttributeError) /\
    forall a s, nth_error (w_apis w) a = Some s -> exists s', nth_error (w_apis w') a = Some s' /\ only_waiter s s'.
Proof.
  intros R N G P. cbv zeta. cbn [world_step]. unfold op_run. rewrite G, P. destruct (no_sem w R N) as [S _].
  assert (END : forall e, build (op_job o) = Err e \/ (exists obj sq, build (op_job o) = Ok obj /\ wants_waiter (op_job o) = Some sq /\ create_response_waiter obj (Some sq) = Err e) \/ e = AttributeError ->
    let w' := op_end n (OExn e) w in
    exists e' l, w_log w' = w_log w ++ l ++ [WEnded n (OExn e')] /\ (l = [] \/ exists a i, l = [WWaiter n a i]) /\
    (exists o', the_op w' n = Some o' /\ op_at o' = OOver (OExn e')) /\
    (build (op_job o) = Err e' \/
     (exists obj sq, build (op_job o) = Ok obj /\ wants_waiter (op_job o) = Some sq /\ create_response_waiter obj (Some sq) = Err e') \/ e' = AttributeError) /\
    forall a s, nth_error (w_apis w) a = Some s -> exists s', nth_error (w_apis w') a = Some s' /\ only_waiter s s').
  { intros e He w'. destruct (end_facts n (OExn e) w o G) as (E1 & E2 & E3). exists e, []. split; [exact E2|]. split; [auto|]. split; [exact E3|]. split; [exact He|].
    intros a s A. exists s. unfold w'. rewrite E1. split; [exact A|apply only_refl]. }
  unfold op_begin. destruct (build (op_job o)) as [obj|e] eqn:B; [|apply END; auto].
  assert (PUT : forall x, w_apis (put_op n x w) = w_apis w /\ the_op (put_op n x w) n = Some x).
  { intro x. split; [reflexivity|]. rewrite the_op_put, G, Nat.eqb_refl. reflexivity. }
  assert (SEM : forall x, let w' := op_semaphore n (put_op n x w) in
    exists e' l, w_log w' = w_log w ++ l ++ [WEnded n (OExn e')] /\ (l = [] \/ exists a i, l = [WWaiter n a i]) /\
    (exists o', the_op w' n = Some o' /\ op_at o' = OOver (OExn e')) /\
    (Ok obj = Err e' \/ (exists obj0 sq, Ok obj = Ok obj0 /\ wants_waiter (op_job o) = Some sq /\ create_response_waiter obj0 (Some sq) = Err e') \/ e' = AttributeError) /\
    forall a s, nth_error (w_apis w) a = Some s -> exists s', nth_error (w_apis w') a = Some s' /\ only_waiter s s').
  { intros x w'. unfold w', op_semaphore. change (w_sem (put_op n x w)) with (w_sem w). rewrite S. destruct (end_facts n (OExn AttributeError) _ x (proj2 (PUT x))) as (E1 & E2 & E3).
    exists AttributeError, []. split; [exact E2|]. split; [auto|]. split; [exact E3|]. split; [auto|].
    intros a s A. exists s. rewrite E1. split; [exact A|apply only_refl]. }
  destruct (wants_waiter (op_job o)) as [sq|] eqn:W; [|apply SEM].
  destruct (y_cur (w_life w)) as [a|] eqn:C; [|apply END; auto].
  destruct (linked_cur w a (L_linked w (wreach_all w R)) C) as [s A]. rewrite A.
  destruct (create_response_waiter obj (Some sq)) as [[[m q]|]|e] eqn:CR; [|apply SEM|apply END; right; left; eauto].
  cbv zeta. set (w1 := wnote _ _). set (x := mk_op _ _ _ _).
  assert (G1 : the_op (put_op n x w1) n = Some x).
  { rewrite the_op_put, Nat.eqb_refl. unfold the_op, w1, on_api. rewrite A. wfld. unfold the_op in G. rewrite G. reflexivity. }
  unfold op_semaphore. assert (S1 : w_sem (put_op n x w1) = None) by (unfold w1, on_api; rewrite A; exact S). rewrite S1.
  destruct (end_facts n (OExn AttributeError) _ x G1) as (E1 & E2 & E3). exists AttributeError, [WWaiter n a (s_next s)].
  split; [rewrite E2; unfold w1, on_api; rewrite A; wfld; rewrite <- app_assoc; reflexivity|]. split; [eauto|]. split; [exact E3|]. split; [auto|].
  intros b s0 B0. rewrite E1. unfold w1, on_api. rewrite A. wfld. rewrite nth_set. destruct (Nat.eqb_spec b a) as [->|].
  - rewrite A. rewrite A in B0. injection B0 as <-. eexists. split; [reflexivity|]. unfold only_waiter, wait_for. opn. repeat split; auto. right. eauto.
  - exists s0. split; [exact B0|apply only_refl].
Qed.

(** ** a closed link is silent *)
Lemma shut_call_raw o wid s : Tids s -> shut s (call_raw o wid s).
Proof.
  intro T. rewrite call_raw_split. eapply shut_trans; [apply (shut_same s (called o wid s)); reflexivity|]. apply shut_prims.
  eapply acquire_lock_prims; [apply get_called, T|reflexivity..].
Qed.
Definition Silent (a : nat) (wire : list (list Z)) (w : world) : Prop :=
  exists x s, nth_error (y_apis (w_life w)) a = Some x /\ a_uart x = None /\ a_app x = true /\ nth_error (w_apis w) a = Some s /\ s_wire s = wire.
Lemma silent_p a wire w w' : Good w -> Linked w -> wprim w w' -> Silent a wire w -> Silent a wire w'.
Proof.
  intros G L H (x & s & X & U & Ap & A & W).
  assert (O : s_open s = false). { destruct L as (_ & _ & L). specialize (L a x s X A). unfold face, port_of in L. rewrite U in L. congruence. }
  assert (SH : forall s', shut s s' -> s_wire s' = wire) by (intros s' [Y|[_ Y]]; congruence).
  destruct H; unfold Silent, life_event_happens, got_version in *; wfld; try (exists x, s; auto; fail).
  - exists x. rewrite nth_set. destruct (Nat.eqb_spec a a0) as [->|]; [|exists s; auto]. rewrite A. rewrite A in H. injection H as <-. exists s'. auto 6.
  - exists x. rewrite nth_map, A. eexists. repeat split; try eassumption.
  - destruct (moves_step e (w_life w) (linked_book w L) a x X) as (y & Y & M). exists y. rewrite sync_nth, Y, A. eexists. split; [reflexivity|].
    destruct M as [->|[[-> _]| ->]]; [auto 6|discriminate|]. cbn [a_uart a_app]. auto 6.
  - exists x. rewrite nth_set. destruct (Nat.eqb_spec a a0) as [->|]; [|exists s; auto]. rewrite A. rewrite A in H4. injection H4 as <-. eexists. repeat split; try eassumption.
  - exists x. rewrite nth_set. destruct (Nat.eqb_spec a a0) as [->|]; [|exists s; auto]. rewrite A. rewrite A in H5. injection H5 as <-. eexists.
    split; [exact X|]. split; [exact U|]. split; [exact Ap|]. split; [reflexivity|]. apply SH, shut_call_raw, (proj2 (proj2 G) _ _ A).
Qed.
Lemma silent_ps a wire w w' : wprims w w' -> Good w -> Linked w -> Silent a wire w -> Silent a wire w'.
Proof. induction 1; [auto|]. intros G L S. apply IHwprims; [eapply good_p|eapply linked_p|eapply silent_p]; eassumption. Qed.
Lemma silent_run a wire es : forall w, Good w -> Linked w -> Silent a wire w -> Silent a wire (world_run es w).
Proof.
  induction es as [|e es IH]; intros w G L S; [exact S|]. change (world_run (e :: es) w) with (world_run es (world_step e w)).
  pose proof (world_step_p e w G) as P. apply IH.
  - clear - P G. induction P; [auto|]. apply IHP. eapply good_p; eassumption.
  - clear - P L. induction P; [auto|]. apply IHP. eapply linked_p; eassumption.
  - eapply silent_ps; eassumption.
Qed.
Lemma closed_silent w a x s : wreachable w -> nth_error (y_apis (w_life w)) a = Some x -> a_uart x = None -> a_app x = true -> nth_error (w_apis w) a = Some s ->
  forall es, exists s', nth_error (w_apis (world_run es w)) a = Some s' /\ s_wire s' = s_wire s.
Proof.
  intros R X U Ap A es. destruct (silent_run a (s_wire s) es w (wreach_good w R) (wreach_linked w R)) as (_ & s' & _ & _ & _ & A' & W); [exists x, s; auto 6|eauto].
Qed.

(** ** an operation turns only to the API object in use *)
Definition elsewhere (b : nat) (w w' : world) : Prop := nth_error (w_apis w') b = nth_error (w_apis w) b.
Lemma elsewhere_on b a f w : b <> a -> elsewhere b w (on_api a f w).
Proof. intro N. unfold elsewhere, on_api. destruct (nth_error (w_apis w) a); [|reflexivity]. wfld. rewrite nth_set. destruct (Nat.eqb_spec b a); [contradiction|reflexivity]. Qed.
Lemma elsewhere_same b w w' : w_apis w' = w_apis w -> elsewhere b w w'.
Proof. unfold elsewhere. intros ->. reflexivity. Qed.
Lemma elsewhere_trans b u v w : elsewhere b u v -> elsewhere b v w -> elsewhere b u w.
Proof. unfold elsewhere. congruence. Qed.
Lemma apis_end n r w : w_apis (op_end n r w) = w_apis w.
Proof. unfold op_end, op_goto. destruct (the_op w n); reflexivity. Qed.
Lemma apis_goto n p w : w_apis (op_goto n p w) = w_apis w.
Proof. unfold op_goto. destruct (the_op w n); reflexivity. Qed.
Lemma apis_slot q d w : w_apis (slot_change q d w) = w_apis w.
Proof. unfold slot_change. destruct (nth_error (w_sems w) q); reflexivity. Qed.
Lemma apis_leave n q r w : w_apis (op_leave n q r w) = w_apis w.
Proof. unfold op_leave. rewrite apis_end. apply apis_slot. Qed.
Lemma life_slot q d w : w_life (slot_change q d w) = w_life w.
Proof. unfold slot_change. destruct (nth_error (w_sems w) q); reflexivity. Qed.
Lemma admitted_elsewhere b n q w : y_cur (w_life w) <> Some b -> elsewhere b w (op_admitted n q w).
Proof.
  intro N. unfold op_admitted. destruct (the_op w n) as [o|]; [|apply elsewhere_same, apis_end]. destruct (y_cur (w_life w)) as [a|]; [|apply elsewhere_same, apis_end].
  destruct (nth_error (w_apis w) a) as [s|] eqn:A; [|reflexivity]. destruct (op_obj o) as [obj|]; [|reflexivity].
  apply (elsewhere_trans b _ (on_api a (call_raw obj (option_map snd (op_waiter o))) (wnote (WAdmitted n q a) (slot_change q (-1) w)))).
  - apply (elsewhere_trans b _ (wnote (WAdmitted n q a) (slot_change q (-1) w))); [apply elsewhere_same; wfld; apply apis_slot|]. apply elsewhere_on. congruence.
  - apply elsewhere_same. rewrite (proj1 (after_ops n _)). apply apis_goto.
Qed.
Lemma semaphore_elsewhere b n w : y_cur (w_life w) <> Some b -> elsewhere b w (op_semaphore n w).
Proof.
  intro N. unfold op_semaphore. destruct (w_sem w) as [q|]; [|apply elsewhere_same, apis_end]. unfold op_acquire. destruct (nth_error (w_sems w) q) as [v|]; [|reflexivity].
  destruct (0 <? v); [apply admitted_elsewhere, N|apply elsewhere_same, apis_goto].
Qed.
Lemma run_elsewhere b n w : y_cur (w_life w) <> Some b -> elsewhere b w (world_step (VRun n) w).
Proof.
  intro N. cbn [world_step]. unfold op_run. destruct (the_op w n) as [o|]; [|reflexivity]. destruct (op_at o) as [|q|q a t|q u|r]; [|..|reflexivity].
  - unfold op_begin. destruct (build (op_job o)) as [obj|e]; [|apply elsewhere_same, apis_end].
    destruct (wants_waiter (op_job o)) as [sq|]; [|apply (semaphore_elsewhere b n (put_op n _ w)), N].
    destruct (y_cur (w_life w)) as [a|] eqn:C; [|apply elsewhere_same, apis_end].
    destruct (nth_error (w_apis w) a) as [s|] eqn:A; [|reflexivity].
    destruct (create_response_waiter obj (Some sq)) as [[[m q]|]|e]; [|apply (semaphore_elsewhere b n (put_op n _ w)); wfld; congruence|apply elsewhere_same, apis_end].
    eapply elsewhere_trans; [|apply semaphore_elsewhere; unfold on_api; rewrite A; wfld; congruence].
    apply (elsewhere_trans b _ (on_api a (wait_for m Timeouts_default q) w)); [apply elsewhere_on; congruence|apply elsewhere_same; reflexivity].
  - destruct (nth_error (w_sems w) q) as [v|]; [|reflexivity]. destruct (0 <? v); [apply admitted_elsewhere, N|reflexivity].
  - reflexivity.
  - destruct (u <=? w_now w); [apply elsewhere_same, apis_leave|reflexivity].
Qed.
Lemma nth_ext_error {A} (l l' : list A) : (forall n, nth_error l n = nth_error l' n) -> l = l'.
Proof.
  revert l'. induction l as [|x l IH]; intros [|y l'] H; [reflexivity|discriminate (H O)|discriminate (H O)|].
  pose proof (H O) as E. cbn [nth_error] in E. injection E as ->. f_equal. apply IH. intro n. exact (H (S n)).
Qed.
(** while the link in use is closed no operation writes *)
Lemma down_writes_nothing w a x n : wreachable w -> y_cur (w_life w) = Some a -> nth_error (y_apis (w_life w)) a = Some x -> a_uart x = None -> a_app x = true ->
  map s_wire (w_apis (world_step (VRun n) w)) = map s_wire (w_apis w).
Proof.
  intros R C X U Ap. assert (R' : wreachable (world_step (VRun n) w)).
  { destruct R as (devs & es & ->). exists devs, (es ++ [VRun n]). rewrite world_run_snoc. reflexivity. }
  destruct (linked_cur w a (wreach_linked w R) C) as [s A].
  destruct (closed_silent w a x s R X U Ap A [VRun n]) as (s' & A' & W). change (world_run [VRun n] w) with (world_step (VRun n) w) in A'.
  apply nth_ext_error. intro b. rewrite !nth_map. destruct (Nat.eq_dec b a) as [->|Hb]; [rewrite A, A'; cbn [option_map]; congruence|].
  rewrite (run_elsewhere b n w) by congruence. reflexivity.
Qed.
