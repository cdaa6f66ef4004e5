(** * WorldBlame3: why an operation of the application raises *)
From Coq Require Import ZifyBool ZifyNat.
From Verif Require Import Base Types Uart Buffalo CmdTable Zpi Api App Machine Life World SpecWire SpecCodec SpecApi SpecMachine SpecFirst SpecBlame SpecWorld SpecWorldBlame
  MachineBase MachineInv MachineInv2 MachineInv3 MachineInv4 MachineInv5 DispatchProofs MachineProofs
  MachineProgress LifeProofs2 WorldInv WorldFace WorldBase WorldProofs WorldLife WorldOps WorldOwn WorldFresh WorldProgress2 LinkBlame LinkBlame2 WorldBlame WorldBlame2.

Lemma some_eq {A} (a b : A) : Some a = Some b -> b = a.
Proof. congruence. Qed.
Definition Gd (w : world) : Prop := Good w /\ Linked w /\ Hist w.
Lemma gd_ps w w' : wprims w w' -> Gd w -> Gd w'.
Proof. apply wprims_inv. intros u v H (G & L & Hi). split; [eapply good_p; eassumption|]. split; [eapply linked_p; eassumption|eapply hist_p; eassumption]. Qed.
(** the request inside ended with an exception, which the operation passes on *)
Definition inside_exn (w : world) (n : nat) (o : op) (x : exn) : Prop :=
  exists q a t k e, request_of w n o q a t k /\ t_phase k = PDone (OExn e) /\ outcome_of_exn (op_job o) e = OExn x.
Lemma inside_more w w' n o x : w_apis w' = w_apis w -> longer w w' -> inside_exn w n o x -> inside_exn w' n o x.
Proof.
  intros E [l El] (q & a & t & k & e & ((s & A & G) & H2 & H3) & Hp & Ho). exists q, a, t, k, e. split; [|auto]. split; [exists s; rewrite E; auto|].
  split; [rewrite El; apply in_or_app; left; exact H2|exact H3].
Qed.
Definition over_with (o : op) (x : exn) : Prop := op_at o = OOver (OExn x).
(** operation [n] of [w'] ended with [x] in the step from [w] to [w'], or was like that before *)
Definition ends_by (D : nat -> op -> exn -> Prop) (w w' : world) : Prop :=
  forall n o x, the_op w' n = Some o -> over_with o x -> the_op w n = Some o \/ (exists o0, the_op w n = Some o0 /\ (forall r, op_at o0 <> OOver r)) /\ (D n o x \/ inside_exn w' n o x).
Definition no_why (n : nat) (o : op) (x : exn) : Prop := False.

Lemma goto_op n p w m : the_op (op_goto n p w) m = if Nat.eqb n m then option_map (fun o => moved o p) (the_op w n) else the_op w m.
Proof.
  unfold op_goto. destruct (the_op w n) as [o|] eqn:E; [|destruct (Nat.eqb_spec n m) as [<-|]; [rewrite E|]; reflexivity].
  rewrite the_op_put, E. reflexivity.
Qed.
Lemma end_op n r w m : the_op (op_end n r w) m = if Nat.eqb n m then option_map (fun o => moved o (OOver r)) (the_op w n) else the_op w m.
Proof. unfold op_end. change (the_op (wnote (WEnded n r) (op_goto n (OOver r) w)) m) with (the_op (op_goto n (OOver r) w) m). apply goto_op. Qed.
Lemma slot_op q d w m : the_op (slot_change q d w) m = the_op w m.
Proof. unfold slot_change. destruct (nth_error _ _); reflexivity. Qed.
Lemma leave_op n q r w m : the_op (op_leave n q r w) m = if Nat.eqb n m then option_map (fun o => moved o (OOver r)) (the_op w n) else the_op w m.
Proof. unfold op_leave. rewrite end_op, !slot_op. reflexivity. Qed.
Lemma on_api_op a f w m : the_op (on_api a f w) m = the_op w m.
Proof. unfold on_api. destruct (nth_error _ _); reflexivity. Qed.

Lemma after_ends m w : Gd w -> ends_by no_why w (op_after m w).
Proof.
  intros (G & L & Hi & _) n o x Hn Hx.
  assert (Same : w_apis (op_after m w) = w_apis w /\ longer w (op_after m w)) by (destruct (same_after m w); auto). revert Hn Same.
  unfold op_after. destruct (the_op w m) as [p|] eqn:E; [|auto]. destruct (op_at p) as [|q|q a t|q u|r] eqn:P; auto.
  destruct (nth_error (w_apis w) a) as [s|] eqn:A; [|auto]. destruct (get s t) as [k|] eqn:K; [|auto]. destruct (t_phase k) as [| | | | | | | | | |r] eqn:Hp; auto.
  assert (Leave : forall r, (forall y, r = OExn y -> exists e, t_phase k = PDone (OExn e) /\ outcome_of_exn (op_job p) e = OExn y) -> the_op (op_leave m q r w) n = Some o ->
    w_apis (op_leave m q r w) = w_apis w /\ longer w (op_leave m q r w) -> 
    the_op w n = Some o \/ (exists o0, the_op w n = Some o0 /\ (forall r, op_at o0 <> OOver r)) /\ (no_why n o x \/ inside_exn (op_leave m q r w) n o x)).
  { intros r0 Hr Hn [S1 S2]. rewrite leave_op in Hn. destruct (Nat.eqb_spec m n) as [<-|]; [|left; exact Hn]. rewrite E in Hn. cbn [option_map] in Hn. apply some_eq in Hn. subst o.
    right. split; [exists p; split; [exact E|intros r1; congruence]|]. right. apply (inside_more w); [exact S1|exact S2|]. unfold over_with in Hx. cbn [moved op_at] in Hx. injection Hx as Hx. destruct (Hr x Hx) as (e & H1 & H2).
    pose proof (Hi m p E) as [_ H3]. rewrite P in H3. destruct H3 as (k0 & Rq). assert (k0 = k) as -> by (destruct Rq as ((s' & A' & K') & _); congruence).
    exists q, a, t, k, e. split; [exact Rq|]. auto. }
  destruct r as [y|c|e].
  - destruct (settles (op_job p)).
    + intros Hn _. rewrite goto_op in Hn. destruct (Nat.eqb_spec m n) as [<-|]; [|left; exact Hn]. rewrite E in Hn. cbn [option_map] in Hn. apply some_eq in Hn. subst o. discriminate Hx.
    + apply Leave. intros z Hz. destruct (op_job p); discriminate Hz.
  - apply Leave. discriminate.
  - apply Leave. intros z Hz. exists e. auto.
Qed.
Lemma ends_trans D u v w : ends_by D u v -> (forall n o, the_op u n = Some o -> forall r, op_at o = OOver r -> the_op v n = Some o) -> (forall n, the_op v n <> None -> the_op u n <> None) ->
  w_apis w = w_apis v -> longer v w -> ends_by no_why v w -> ends_by D u w.
Proof.
  intros H1 Hk Hs E Lo H2 n o x Hn Hx. destruct (H2 n o x Hn Hx) as [H|[(o1 & G1 & X1) [[]|H]]].
  - destruct (H1 n o x H Hx) as [H3|[H3 [H4|H4]]]; auto. right. split; [exact H3|right; eapply inside_more; eassumption].
  - right. split; [|right; exact H]. destruct (the_op u n) as [o0|] eqn:G0; [|exfalso; apply (Hs n); congruence]. exists o0. split; [reflexivity|]. intros r Hr.
    pose proof (Hk n o0 G0 r Hr) as G2. assert (o1 = o0) as -> by congruence. exact (X1 r Hr).
Qed.
Lemma ends_refl D w w' : (forall n, the_op w' n = the_op w n) -> ends_by D w w'.
Proof. intros H n o x Hn _. left. rewrite <- H. exact Hn. Qed.
Lemma after_keeps m w n o r : the_op w n = Some o -> op_at o = OOver r -> the_op (op_after m w) n = Some o.
Proof.
  intros G P. destruct (Nat.eq_dec n m) as [->|D]; [|rewrite (proj1 (proj2 (proj2 (after_ops m w))) n D); exact G].
  unfold op_after. rewrite G, P. exact G.
Qed.
Lemma after_none m w n : the_op (op_after m w) n <> None -> the_op w n <> None.
Proof.
  intros H C. apply H. unfold the_op in *. apply nth_error_None. apply nth_error_None in C. destruct (after_ops m w) as (_ & -> & _). exact C.
Qed.
Lemma ops_ends w : Gd w -> ends_by no_why w (ops_after w).
Proof.
  unfold ops_after. generalize (seq 0 (length (w_ops w))) as l. intro l.
  assert (X : forall v, Gd v -> ends_by no_why v (fold_left (fun w n => op_after n w) l v) /\
    (forall n o r, the_op v n = Some o -> op_at o = OOver r -> the_op (fold_left (fun w n => op_after n w) l v) n = Some o) /\
    (forall n, the_op (fold_left (fun w n => op_after n w) l v) n <> None -> the_op v n <> None) /\ same_apis v (fold_left (fun w n => op_after n w) l v)).
  { induction l as [|m l IH]; intros v Gv; cbn [fold_left]; [split; [apply ends_refl; reflexivity|split; [auto|split; [auto|apply same_refl]]]|].
    assert (G1 : Gd (op_after m v)) by (eapply gd_ps; [apply op_after_p, Gv|exact Gv]). destruct (IH _ G1) as (I1 & I2 & I3 & I4).
    split; [|split; [|split]].
    - eapply ends_trans; [apply after_ends, Gv| |apply after_none|apply I4|apply I4|exact I1]. intros n o Hn r Hr. eapply after_keeps; eassumption.
    - intros n o r Hn Hr. eapply I2; [eapply after_keeps; eassumption|exact Hr].
    - intros n Hn. apply (after_none m), I3, Hn.
    - eapply same_trans; [apply same_after|exact I4]. }
  intro Gw. apply X, Gw.
Qed.

(** ** the steps of an operation *)
Definition unlinked (w : world) (n m : nat) (x : exn) : Prop := m = n /\ x = AttributeError /\ (w_sem w = None \/ y_cur (w_life w) = None).
Lemma end_ends (D : nat -> op -> exn -> Prop) n e w o : the_op w n = Some o -> (forall r, op_at o <> OOver r) -> D n (moved o (OOver (OExn e))) e -> ends_by D w (op_end n (OExn e) w).
Proof.
  intros G P HD m o' x Hm Hx. rewrite end_op, G in Hm. destruct (Nat.eqb_spec n m) as [<-|]; [|left; exact Hm]. cbn [option_map] in Hm. apply some_eq in Hm. subst o'.
  right. split; [exists o; auto|]. left. unfold over_with in Hx. cbn [moved op_at] in Hx. injection Hx as <-. exact HD.
Qed.
Lemma admitted_ends n q v w o : Gd w -> the_op w n = Some o -> op_obj o <> None -> (op_at o = OBegin /\ w_sem w = Some q \/ op_at o = OSlot q) ->
  nth_error (w_sems w) q = Some v -> 0 < v -> ends_by (fun m _ => unlinked w n m) w (op_admitted n q w).
Proof.
  intros Gw G Hob Hat Hq Hv. assert (NO : forall r, op_at o <> OOver r) by (intros r; destruct Hat as [[-> _]| ->]; discriminate).
  unfold op_admitted. rewrite G. destruct (y_cur (w_life w)) as [a|] eqn:C; [|eapply end_ends; [exact G|exact NO|]; split; [reflexivity|]; auto].
  destruct (nth_error (w_apis w) a) as [s|] eqn:A; [|apply ends_refl; reflexivity]. destruct (op_obj o) as [obj|] eqn:B; [|congruence].
  set (w1 := op_goto n (OInside q a (s_ntid s)) (on_api a (call_raw obj (option_map snd (op_waiter o))) (wnote (WAdmitted n q a) (slot_change q (-1) w)))).
  assert (P : wprim w w1).
  { unfold w1, slot_change. rewrite Hq. unfold on_api. wfld. rewrite A. unfold op_goto, the_op in *. wfld. rewrite G. eapply T_admit; eassumption. }
  assert (G1 : Gd w1) by (eapply gd_ps; [apply wprims_one, P|exact Gw]).
  assert (O1 : forall m, the_op w1 m = if Nat.eqb n m then Some (moved o (OInside q a (s_ntid s))) else the_op w m).
  { intro m. unfold w1. rewrite goto_op, !on_api_op. change (the_op (wnote (WAdmitted n q a) (slot_change q (-1) w)) n) with (the_op (slot_change q (-1) w) n).
    change (the_op (wnote (WAdmitted n q a) (slot_change q (-1) w)) m) with (the_op (slot_change q (-1) w) m). rewrite !slot_op, G. reflexivity. }
  eapply (ends_trans _ w w1); [| | |apply same_after|apply same_after|apply after_ends, G1].
  - intros m o' x Hm Hx. rewrite O1 in Hm. destruct (Nat.eqb_spec n m); [|left; exact Hm]. apply some_eq in Hm. subst o'. discriminate Hx.
  - intros m o' Hm r Hr. rewrite O1. destruct (Nat.eqb_spec n m) as [<-|]; [|exact Hm]. exfalso. assert (o' = o) as -> by congruence. exact (NO r Hr).
  - intros m Hm. rewrite O1 in Hm. destruct (Nat.eqb_spec n m) as [E|]; [rewrite <- E; congruence|exact Hm].
Qed.
Lemma semaphore_ends n w o : Gd w -> the_op w n = Some o -> op_obj o <> None -> op_at o = OBegin -> ends_by (fun m _ => unlinked w n m) w (op_semaphore n w).
Proof.
  intros Gw G Hob Hat. unfold op_semaphore. destruct (w_sem w) as [q|] eqn:Q; [|eapply end_ends; [exact G|intros r; congruence|]; split; [reflexivity|]; auto].
  unfold op_acquire. destruct (nth_error (w_sems w) q) as [v|] eqn:V; [|apply ends_refl; reflexivity]. destruct (0 <? v) eqn:Hv.
  - eapply admitted_ends; eauto. lia.
  - intros m o' x Hm Hx. rewrite goto_op, G in Hm. destruct (Nat.eqb_spec n m); [|left; exact Hm]. cbn [option_map] in Hm. apply some_eq in Hm. subst o'. discriminate Hx.
Qed.
Definition why_run (w : world) (n m : nat) (o : op) (x : exn) : Prop := unsendable (op_job o) x \/ unlinked w n m x.
Lemma begin_ends n w o : Gd w -> the_op w n = Some o -> op_at o = OBegin -> ends_by (why_run w n) w (op_begin n o w).
Proof.
  intros Gw G Hat. assert (NO : forall r, op_at o <> OOver r) by (intro r; congruence).
  pose proof (op_begin_p w n o (proj1 Gw) G Hat) as _. unfold op_begin. destruct (build (op_job o)) as [obj|e] eqn:B; [|eapply end_ends; [exact G|exact NO|left; left; exact B]].
  assert (N : forall x w1, wprim w w1 -> w1 = put_op n (with_obj o obj x) (set_ops (w_ops w) w1) -> w_sem w1 = w_sem w -> w_life w1 = w_life w -> ends_by (why_run w n) w (op_semaphore n w1)).
  { intros x w1 P E Es El. assert (G1 : Gd w1) by (eapply gd_ps; [apply wprims_one, P|exact Gw]).
    assert (O1 : forall m, the_op w1 m = if Nat.eqb n m then Some (with_obj o obj x) else the_op w m).
    { intro m. rewrite E, the_op_put. unfold the_op in *. wfld. rewrite G. reflexivity. }
    pose proof (semaphore_ends n w1 (with_obj o obj x) G1) as S. rewrite O1, Nat.eqb_refl in S. specialize (S eq_refl ltac:(discriminate) eq_refl).
    intros m o' y Hm Hy. destruct (S m o' y Hm Hy) as [H|[(o0 & H1 & H2) H3]].
    - rewrite O1 in H. destruct (Nat.eqb_spec n m); [|left; exact H]. apply some_eq in H. subst o'. discriminate Hy.
    - right. split.
      + rewrite O1 in H1. destruct (Nat.eqb_spec n m) as [<-|]; [exists o; auto|exists o0; auto].
      + destruct H3 as [(H3 & H4 & H5)|H3]; [|auto]. left. right. split; [exact H3|]. split; [exact H4|]. rewrite <- Es, <- El. exact H5. }
  destruct (wants_waiter (op_job o)) as [sq|] eqn:W.
  - destruct (y_cur (w_life w)) as [a|] eqn:C; [|eapply end_ends; [exact G|exact NO|right; split; [reflexivity|auto]]].
    destruct (nth_error (w_apis w) a) as [s|] eqn:A; [|apply ends_refl; reflexivity].
    destruct (create_response_waiter obj (Some sq)) as [[[m q]|]|e] eqn:R.
    + eapply N; unfold on_api; rewrite A; try reflexivity. eapply T_waiter; eassumption.
    + eapply N; try reflexivity. eapply T_prepare; eauto.
    + eapply end_ends; [exact G|exact NO|]. left. right. exists obj. split; [exact B|]. left. wfld. destruct (op_job o); try discriminate W; cbn [wants_waiter response_waiter] in *.
      * destruct expect_reply; [|discriminate W]. injection W as ->. exact R.
      * injection W as ->. exact R.
  - eapply N; try reflexivity. eapply T_prepare; eauto.
Qed.
Lemma run_ends n w : Gd w -> ends_by (why_run w n) w (op_run n w).
Proof.
  intro Gw. unfold op_run. destruct (the_op w n) as [o|] eqn:G; [|apply ends_refl; reflexivity]. destruct (op_at o) as [|q|q a t|q u|r] eqn:E; try (apply ends_refl; reflexivity).
  - apply begin_ends; assumption.
  - destruct (nth_error (w_sems w) q) as [v|] eqn:V; [|apply ends_refl; reflexivity]. destruct (0 <? v) eqn:Hv; [|apply ends_refl; reflexivity].
    intros m o' x Hm Hx. destruct (admitted_ends n q v w o Gw G) with (n := m) (o := o') (x := x) as [H|[H1 [H2|H2]]]; auto; [|lia|right; split; [exact H1|left; right; exact H2]].
    apply (proj1 (proj2 (proj1 Gw)) _ _ G). rewrite E. exact I.
  - destruct (u <=? w_now w); [|apply ends_refl; reflexivity]. intros m o' x Hm Hx. rewrite leave_op, G in Hm. destruct (Nat.eqb_spec n m); [|left; exact Hm].
    cbn [option_map] in Hm. apply some_eq in Hm. subst o'. exfalso. unfold over_with in Hx. cbn [moved op_at] in Hx. injection Hx as Hx. destruct (op_job o); discriminate Hx.
Qed.
Lemma cancel_ends n w : Gd w -> ends_by (fun m _ x => m = n /\ x = CancelledError) w (op_cancel n w).
Proof.
  intro Gw. unfold op_cancel. destruct (the_op w n) as [o|] eqn:G; [|apply ends_refl; reflexivity]. destruct (op_at o) as [|q|q a t|q u|r] eqn:E; try (apply ends_refl; reflexivity).
  - eapply end_ends; [exact G|intro; congruence|auto].
  - eapply end_ends; [exact G|intro; congruence|auto].
  - set (w1 := on_api a (Machine.cancel t) w).
    assert (P : wprims w w1) by (apply on_api_p; intros; split; [apply cancel_x|split; [apply face_cancel|apply shut_prims, cancel_prims]]).
    assert (G1 : Gd w1) by (eapply gd_ps; eassumption).
    assert (O1 : forall m, the_op w1 m = the_op w m) by (intro m; apply on_api_op).
    eapply (ends_trans _ w w1); [apply ends_refl; exact O1| | |apply same_after|apply same_after|apply after_ends, G1].
    + intros m o' Hm r Hr. rewrite O1. exact Hm.
    + intros m. rewrite O1. auto.
  - intros m o' x Hm Hx. rewrite leave_op, G in Hm. destruct (Nat.eqb_spec n m) as [<-|]; [|left; exact Hm]. cbn [option_map] in Hm. apply some_eq in Hm. subst o'.
    unfold over_with in Hx. cbn [moved op_at] in Hx. injection Hx as <-. right. split; [exists o; split; [exact G|intro; congruence]|]. left. auto.
Qed.
Definition why_step (e : wevent) (w : world) (n : nat) (o : op) (x : exn) : Prop :=
  (e = VCancel n /\ x = CancelledError) \/ unsendable (op_job o) x \/ (e = VRun n /\ x = AttributeError /\ (w_sem w = None \/ y_cur (w_life w) = None)).
Lemma ends_weak (D D' : nat -> op -> exn -> Prop) w w' : (forall n o x, D n o x -> D' n o x) -> ends_by D w w' -> ends_by D' w w'.
Proof. intros H E n o x Hn Hx. destruct (E n o x Hn Hx) as [H1|[H1 [H2|H2]]]; auto. Qed.
Lemma step_ends e w : Gd w -> ends_by (why_step e w) w (world_step e w).
Proof.
  intro Gw. destruct e; cbn [world_step].
  - destruct (uses_sem j); [|apply ends_refl; reflexivity]. intros n o x Hn Hx. unfold the_op in *. wfldin Hn. rewrite nth_snoc in Hn.
    destruct (Nat.eqb n (length (w_ops w))); [|left; exact Hn]. apply some_eq in Hn. subst o. discriminate Hx.
  - eapply ends_weak; [|apply run_ends, Gw]. intros m o x [H|(-> & -> & H)]; [right; left; exact H|right; right; auto].
  - eapply ends_weak; [|apply cancel_ends, Gw]. intros m o x [-> ->]. left. auto.
  - destruct (uses_sem j); [apply ends_refl; reflexivity|]. apply ends_refl. intro. apply on_api_op.
  - set (w1 := on_api a (resume t) w). assert (P : wprims w w1) by (apply on_api_p; intros; split; [apply resume_x|split; [apply face_resume|apply shut_prims, resume_prims]]).
    assert (O1 : forall m, the_op w1 m = the_op w m) by (intro m; apply on_api_op).
    eapply (ends_trans _ w w1); [apply ends_refl; exact O1|intros m o' Hm r Hr; rewrite O1; exact Hm|intros m; rewrite O1; auto|apply same_ops|apply same_ops|apply ops_ends; eapply gd_ps; eassumption].
  - set (w1 := on_api a (wait_timeout t) w). assert (P : wprims w w1) by (apply on_api_p; intros; split; [apply timeout_x|split; [apply face_timeout|apply shut_prims, wait_timeout_prims]]).
    assert (O1 : forall m, the_op w1 m = the_op w m) by (intro m; apply on_api_op).
    eapply (ends_trans _ w w1); [apply ends_refl; exact O1|intros m o' Hm r Hr; rewrite O1; exact Hm|intros m; rewrite O1; auto|apply same_ops|apply same_ops|apply ops_ends; eapply gd_ps; eassumption].
  - set (w1 := on_api a (Machine.cancel t) w). assert (P : wprims w w1) by (apply on_api_p; intros; split; [apply cancel_x|split; [apply face_cancel|apply shut_prims, cancel_prims]]).
    assert (O1 : forall m, the_op w1 m = the_op w m) by (intro m; apply on_api_op).
    eapply (ends_trans _ w w1); [apply ends_refl; exact O1|intros m o' Hm r Hr; rewrite O1; exact Hm|intros m; rewrite O1; auto|apply same_ops|apply same_ops|apply ops_ends; eapply gd_ps; eassumption].
  - apply ends_refl. intro. apply on_api_op.
  - apply ends_refl. intro n. unfold the_op. rewrite (proj1 (proj2 (aside_receive w a data))). reflexivity.
  - destruct (0 <=? ms); apply ends_refl; reflexivity.
  - apply ends_refl. reflexivity.
  - destruct (starting w t); apply ends_refl; reflexivity.
  - destruct (starting w t); apply ends_refl; reflexivity.
Qed.

(** ** along a run *)
Definition OpsB (es : list wevent) (w0 w : world) : Prop := forall n o x, the_op w n = Some o -> over_with o x ->
  (x = CancelledError /\ In (VCancel n) es) \/ unsendable (op_job o) x \/ (x = AttributeError /\ some_step (unconnected n) es w0) \/ inside_exn w n o x.
Lemma wreach_gd w : wreachable w -> Gd w.
Proof. intro R. split; [apply wreach_good, R|apply wreach_hist, R]. Qed.
Lemma inside_later e w n o x : wreachable w -> inside_exn w n o x -> inside_exn (world_step e w) n o x.
Proof.
  intros R (q & a & t & k & y & Rq & Hp & Ho). pose proof (wreach_gd w R) as (G & L & _).
  destruct (request_ext w (world_step e w) n o q a t k) as (k' & Rq' & D); [eapply ext_ps; [apply world_step_p, G|exact G|exact L]| |exact Rq|].
  - pose proof (world_step_p e w G) as P. intros z Hz. revert Hz. clear - P. induction P as [|u v v' H _ IH]; [auto|]. intro Hz. apply IH. destruct H; unfold life_event_happens, got_version; wfld; try (apply in_or_app; left); exact Hz.
  - assert (k' = k) as -> by (apply D; rewrite Hp; reflexivity). exists q, a, t, k, y. auto.
Qed.
Lemma opsB_run devs es : OpsB es (world_init devs) (world_run es (world_init devs)).
Proof.
  induction es as [|e es IH] using rev_ind; [intros n o x H; unfold the_op in H; destruct n; discriminate H|].
  assert (R : wreachable (world_run es (world_init devs))) by (exists devs, es; reflexivity).
  rewrite world_run_snoc. set (w := world_run es (world_init devs)) in *. intros n o x Hn Hx.
  destruct (step_ends e w (wreach_gd w R) n o x Hn Hx) as [H|[(o0 & G0 & NO) [[[-> ->]|[H|(-> & -> & H)]]|H]]].
  - destruct (IH n o x H Hx) as [[H1 H2]|[H1|[[H1 H2]|H1]]].
    + left. split; [exact H1|apply in_or_app; left; exact H2].
    + auto.
    + right. right. left. split; [exact H1|apply some_more, H2].
    + right. right. right. apply inside_later; assumption.
  - left. split; [reflexivity|apply in_or_app; right; left; reflexivity].
  - auto.
  - right. right. left. split; [reflexivity|]. apply some_last. fold w. split; [reflexivity|]. split; [exact H|].
    assert (R' : wreachable (world_step (VRun n) w)) by (exists devs, (es ++ [VRun n]); rewrite world_run_snoc; reflexivity).
    split.
    + intro C. destruct (proj2 (proj2 (wreach_hist w R)) n _ C) as (o1 & G1 & P1). assert (o1 = o0) as -> by congruence. exact (NO _ P1).
    + destruct (proj1 (proj2 (wreach_hist _ R')) n o Hn) as [_ H1]. rewrite Hx in H1. apply H1.
  - auto.
Qed.
Lemma wop_blamed devs es n o x : let w := world_run es (world_init devs) in wfields_exist w -> the_op w n = Some o -> In (WEnded n (OExn x)) (w_log w) ->
  op_blamed es (world_init devs) w n o x.
Proof.
  intros w F Ho Hin. assert (R : wreachable w) by (exists devs, es; reflexivity). destruct (proj2 (proj2 (wreach_hist w R)) n _ Hin) as (o' & Ho' & Hx).
  assert (o' = o) as -> by congruence. destruct (opsB_run devs es n o x Ho Hx) as [[-> H]|[H|[[-> H]|(q & a & t & k & e & ((s & A & G) & H2 & H3 & H4 & obj & H5 & H6 & H7) & Hp & He)]]].
  - apply H_cancelled, H.
  - apply H_unsendable, H.
  - apply H_unconnected, H.
  - assert (e = x) as ->. { unfold outcome_of_exn in He. destruct e; try congruence. destruct (_ && _) in He; congruence. }
    eapply (H_request es (world_init devs) w n o q a s t k obj x); try assumption.
    + apply (proj1 (proj2 (wreach_good w R)) n o Ho). exact H5.
    + intros c ->. unfold outcome_of_exn in He. destruct (uses_sem (op_job o) && _) eqn:U in He; [discriminate He|]. 
      pose proof (proj1 (proj1 (proj2 (wreach_good w R)) n o Ho)) as Us. rewrite Us in U. destruct (op_job o); try discriminate U. eauto.
    + eapply wtask_blamed; [exact F|exact A|exact G|intros m to; congruence|]. eapply ended_logged; [|exact G|exact Hp]. apply (V_life _ (proj2 (proj2 (wreach_good w R)) a s A)).
Qed.
