(** * WorldProofs4: what bytes from one stick change; refusals and reply waiters across reconnects *)
From Coq Require Import ZifyBool ZifyNat.
From Verif Require Import Base Types Uart Buffalo CmdTable Zpi Api App Machine Life World SpecMachine SpecLife SpecWorld
  MachineBase MachineInv MachineInv2 MachineInv3 MachineInv4 MachineInv5 DispatchProofs MachineProofs MachineProofs4 MachineProofs5 MachineProofs9 MachineProgress
  LifeProofs2 WorldInv WorldFace WorldBase WorldProofs WorldLife WorldOps WorldFresh WorldProofs2 WorldProofs3.

(** ** bytes from the port of API object [a] *)
Record heard (a : nat) (w w' : world) : Prop := mk_heard {
  E_life : w_life w' = w_life w; E_sems : w_sems w' = w_sems w; E_sem : w_sem w' = w_sem w; E_version : w_version w' = w_version w;
  E_ops : w_ops w' = w_ops w; E_now : w_now w' = w_now w;
  E_log : exists l, w_log w' = w_log w ++ l /\ forall o, In o l -> (exists e, o = WEffect a e) \/ exists e, o = WRaised a e;
  E_wire : map s_wire (w_apis w') = map s_wire (w_apis w);
  E_other : forall b, b <> a -> y_cur (w_life w) <> Some b -> nth_error (w_apis w') b = nth_error (w_apis w) b;
  E_current : forall b s, b <> a -> nth_error (w_apis w) b = Some s -> exists modes, nth_error (w_apis w') b = Some (with_leds modes s) }.
Lemma heard_same a w w' : w_life w' = w_life w -> w_apis w' = w_apis w -> w_sems w' = w_sems w -> w_sem w' = w_sem w -> w_version w' = w_version w ->
  w_ops w' = w_ops w -> w_now w' = w_now w -> (w_log w' = w_log w \/ exists o, w_log w' = w_log w ++ [o] /\ ((exists e, o = WEffect a e) \/ exists e, o = WRaised a e)) -> heard a w w'.
Proof.
  intros H1 H2 H3 H4 H5 H6 H7 H8. constructor; try assumption.
  - destruct H8 as [->|(o & -> & H8)]; [exists []; rewrite app_nil_r; split; [reflexivity|intros o []]|]. exists [o]. split; [reflexivity|]. intros x [<-|[]]. exact H8.
  - rewrite H2. reflexivity.
  - intros. rewrite H2. reflexivity.
  - intros b s _ B. exists []. rewrite H2. exact B.
Qed.
Lemma heard_trans a u v w : heard a u v -> heard a v w -> heard a u w.
Proof.
  intros [A1 A2 A3 A4 A5 A6 (l1 & L1 & F1) A8 A9 A10] [B1 B2 B3 B4 B5 B6 (l2 & L2 & F2) B8 B9 B10]. constructor; try congruence.
  - exists (l1 ++ l2). split; [rewrite L2, L1, app_assoc; reflexivity|]. intros o X. apply in_app_or in X. destruct X; auto.
  - intros b Hb C. rewrite B9, A9 by congruence. reflexivity.
  - intros b s Hb B. destruct (A10 b s Hb B) as [m1 M1]. destruct (B10 b _ Hb M1) as [m2 M2]. exists (m1 ++ m2). rewrite M2. unfold with_leds. rewrite fold_left_app. reflexivity.
Qed.
Lemma map_set {A B} (f : A -> B) n x y l : nth_error l n = Some y -> f x = f y -> map f (set_nth n x l) = map f l.
Proof. revert n. induction l as [|z l IH]; intros [|n] H E; cbn [nth_error set_nth map] in *; try discriminate; [injection H as ->; congruence|]. f_equal. apply IH; assumption. Qed.
Lemma heard_own a f w : (forall s, nth_error (w_apis w) a = Some s -> s_wire (f s) = s_wire s) -> heard a w (on_api a f w).
Proof.
  intro F. unfold on_api. destruct (nth_error (w_apis w) a) as [s|] eqn:A; [|apply heard_same; auto]. constructor; wfld; try reflexivity.
  - exists []. rewrite app_nil_r. split; [reflexivity|intros o []].
  - eapply map_set; [exact A|apply F; reflexivity].
  - intros b Hb _. rewrite nth_set. destruct (Nat.eqb_spec b a); [contradiction|reflexivity].
  - intros b s0 Hb B. exists []. rewrite nth_set. destruct (Nat.eqb_spec b a); [contradiction|exact B].
Qed.
Lemma heard_effect a e w : heard a w (world_effect a w e).
Proof.
  unfold world_effect. eapply heard_trans; [apply (heard_same a w (wnote (WEffect a e) w)); try reflexivity; right; eexists; split; [reflexivity|eauto]|].
  generalize (wnote (WEffect a e) w). intro v. destruct e; try (change (heard a v v); apply heard_same; auto; fail). destruct (y_cur (w_life v)) as [c|] eqn:C; [|apply heard_same; auto].
  unfold on_api. destruct (nth_error (w_apis v) c) as [s|] eqn:A; [|apply heard_same; auto]. constructor; wfld; try reflexivity.
  - exists []. rewrite app_nil_r. split; [reflexivity|intros o []].
  - eapply map_set; [exact A|reflexivity].
  - intros b Hb N. rewrite nth_set. destruct (Nat.eqb_spec b c); [congruence|reflexivity].
  - intros b s0 Hb B. rewrite nth_set. destruct (Nat.eqb_spec b c) as [->|]; [|exists []; exact B]. rewrite B. rewrite A in B. injection B as <-. eexists [_]. reflexivity.
Qed.
Lemma heard_effects a effs : forall w, heard a w (fold_left (world_effect a) effs w).
Proof. induction effs as [|e l IH]; intro w; cbn [fold_left]; [apply heard_same; auto|]. eapply heard_trans; [apply heard_effect|apply IH]. Qed.
Lemma dispatch_wire o ws s : s_wire (fst (fst (dispatch ws o s))) = s_wire s.
Proof. destruct (dispatch_spec o ws s) as (pre & post & o' & r & _ & -> & _). cbn [fst]. rewrite completes_nf. reflexivity. Qed.
Lemma heard_received w a f : heard a w (fst (world_received a w f)).
Proof.
  unfold world_received. destruct (nth_error (w_apis w) a) as [s|] eqn:A; [|apply heard_same; auto].
  destruct (from_unpi_frame f) as [o|e]; [|apply heard_same; auto]. cbv zeta.
  pose proof (dispatch_wire o (s_waiters (note (OReceived o) s)) (note (OReceived o) s)) as T.
  destruct (dispatch (s_waiters (note (OReceived o) s)) o (note (OReceived o) s)) as [[s1 o1] r]. cbn [fst] in T.
  assert (P : heard a w (on_api a (fun _ => s1) w)). { apply heard_own. intros s0 A0. rewrite A in A0. injection A0 as <-. exact T. }
  destruct r; [|exact P]. destruct (s_app s1); [|exact P]. eapply heard_trans; [exact P|]. unfold world_handle.
  destruct (handle_znp _ _ o1) as [[devs effs] r]. cbn [fst]. eapply heard_trans; [|apply heard_effects]. apply heard_same; auto.
Qed.
Lemma heard_gw a data : forall b w, heard a w (snd (fst (gw_data_received (world_received a) b w data))).
Proof.
  induction data as [|x data IH]; intros b w; cbn [gw_data_received]; [apply heard_same; auto|].
  destruct (parser_write b x) as [b1 [[f|]|e]]; [|apply IH|apply heard_same; auto].
  pose proof (heard_received w a f) as P. destruct (world_received a w f) as [w1 [u|e]]; cbn [fst] in P; [|exact P].
  eapply heard_trans; [exact P|apply IH].
Qed.
Lemma heard_receive w a data : heard a w (world_step (VReceive a data) w).
Proof.
  cbn [world_step]. unfold world_receive. destruct (nth_error (w_apis w) a) as [s|]; [|apply heard_same; auto].
  pose proof (heard_gw a data (s_buf s) w) as P. destruct (gw_data_received (world_received a) (s_buf s) w data) as [[b w1] r]. cbn [fst snd] in P.
  assert (Q : heard a w (on_api a (set_buf b) w1)) by (eapply heard_trans; [exact P|]; apply heard_own; reflexivity).
  destruct r; [exact Q|]. eapply heard_trans; [exact Q|]. apply heard_same; try reflexivity. right. eexists. split; [reflexivity|eauto].
Qed.

(** ** operations whose request has ended *)
Lemma after_log n w : exists l, w_log (op_after n w) = w_log w ++ l.
Proof.
  unfold op_after. assert (S : exists l, w_log w = w_log w ++ l) by (exists []; rewrite app_nil_r; reflexivity).
  assert (Lv : forall q r, exists l, w_log (op_leave n q r w) = w_log w ++ l).
  { intros q r. exists [WEnded n r]. unfold op_leave, op_end, op_goto, slot_change. destruct (nth_error (w_sems w) q); destruct (the_op _ n); reflexivity. }
  assert (Gt : forall p, exists l, w_log (op_goto n p w) = w_log w ++ l) by (intro p; unfold op_goto; destruct (the_op w n); exact S).
  destruct (the_op w n) as [o|]; [|exact S]. destruct (op_at o) as [| |q a t| |]; try exact S. destruct (nth_error (w_apis w) a) as [s|]; [|exact S].
  destruct (get s t) as [k|]; [|exact S]. destruct (t_phase k) as [| | | | | | | | | |r]; try exact S. destruct r as [x|c|e]; try apply Lv.
  destruct (settles (op_job o)); [apply Gt|apply Lv].
Qed.
Lemma ops_after_ends w n o q a t k e : the_op w n = Some o -> op_at o = OInside q a t -> task_of w a t k -> t_phase k = PDone (OExn e) ->
  In (WEnded n (outcome_of_exn (op_job o) e)) (w_log (ops_after w)).
Proof.
  intros G P T D. unfold ops_after. assert (I0 : In n (seq 0 (length (w_ops w)))) by (apply in_seq; unfold the_op in G; apply nth_lt in G; lia).
  revert I0. generalize (seq 0 (length (w_ops w))). intro l. revert w G T. induction l as [|m l IH]; intros w G T I0; [destruct I0|]. cbn [fold_left].
  assert (K : forall l w x, In x (w_log w) -> In x (w_log (fold_left (fun w n => op_after n w) l w))).
  { clear. induction l as [|m l IH]; intros w x X; cbn [fold_left]; [exact X|]. apply IH. destruct (after_log m w) as [l' ->]. apply in_or_app. left. exact X. }
  destruct (Nat.eq_dec m n) as [->|Hm].
  - apply K. unfold op_after. destruct T as (s & A & Gt). rewrite G, P, A, Gt, D. unfold op_leave, op_end, op_goto, slot_change.
    destruct (nth_error (w_sems w) q); destruct (the_op _ n); apply in_or_app; right; left; reflexivity.
  - destruct (after_ops m w) as (A1 & _ & A3 & _). apply IH.
    + rewrite A3 by congruence. exact G.
    + destruct T as (s & A & Gt). exists s. rewrite A1. auto.
    + destruct I0 as [E|I0]; [contradiction|exact I0].
Qed.

(** ** a refused request and the waiter number that it carries *)
Lemma goto_here t p s k : get s t = Some k -> get (goto t p s) t = Some (mk_task (t_job k) p (t_obj k) (t_wid k)).
Proof. intro G. unfold goto. rewrite G. unfold get in *. opn. rewrite (assoc_put _ _ _ _ _ G), Z.eqb_refl. reflexivity. Qed.
Lemma get_raise t j e s k : get s t = Some k -> exists k', get (raw_raise t j e s) t = Some k' /\ t_phase k' = PDone (outcome_of_exn j e).
Proof.
  intro G. unfold raw_raise, finish. assert (G1 : exists k1, get (free_sem j (free_lock t s)) t = Some k1).
  { eexists. unfold free_sem, free_lock. destruct (uses_sem j); apply (goto_here t PRel s k G). }
  destruct G1 as [k1 G1]. eexists. split; [apply (goto_here t _ _ k1 G1)|reflexivity].
Qed.
Lemma filter_ids i l : map w_id (filter (fun w => negb (w_id w =? i)) l) = filter (fun j => negb (j =? i)) (map w_id l).
Proof. induction l as [|x l IH]; [reflexivity|]. cbn [filter map]. destruct (w_id x =? i); cbn [negb map]; rewrite IH; reflexivity. Qed.
Lemma registered_ids s i : registered s i = true <-> In i (map w_id (s_waiters s)).
Proof.
  unfold registered. rewrite existsb_exists, in_map_iff. split; intros (x & X & Y).
  - exists x. apply Z.eqb_eq in Y. auto.
  - exists x. split; [exact Y|]. apply Z.eqb_eq, X.
Qed.
Lemma refused w n o q a t s k i0 u r obj c : wreachable w -> the_op w n = Some o -> sends (op_job o) -> op_at o = OInside q a t ->
  nth_error (w_apis w) a = Some s -> get s t = Some k -> t_phase k = PWait i0 u -> s_futs s i0 = FDone r -> op_obj o = Some obj -> z_type obj = SREQ ->
  status_of r = Some (VInt c) -> c <> 0 ->
  let w' := world_step (VTask a t) w in
  exists s', nth_error (w_apis w') a = Some s' /\
    match op_waiter o with
    | None => In (WEnded n (OStatus c)) (w_log w') /\ s_waiters s' = s_waiters s /\ completions (s_log s') = completions (s_log s)
    | Some (b, i) =>
        (In i (map w_id (s_waiters s)) -> In (WEnded n (OStatus c)) (w_log w') /\
           map w_id (s_waiters s') = filter (fun j => negb (j =? i)) (map w_id (s_waiters s)) /\ completions (s_log s') = completions (s_log s) ++ [i]) /\
        (~ In i (map w_id (s_waiters s)) -> In (WEnded n (OExn KeyError)) (w_log w') /\
           s_waiters s' = s_waiters s /\ completions (s_log s') = completions (s_log s))
    end.
Proof.
  intros R G Hs P A K Pk F O Ty St Hc. cbv zeta.
  destruct (proj1 (L_hist w (wreach_all w R)) n o G) as [_ Y]. rewrite P in Y. destruct Y as [k' ((s1 & A1 & K1) & _ & _ & Wd & obj' & O1 & J & O2)].
  rewrite A in A1. injection A1 as <-. rewrite K in K1. injection K1 as <-. rewrite O in O1. injection O1 as <-.
  cbn [world_step]. set (v := on_api a (resume t) w). exists (resume t s).
  assert (Av : nth_error (w_apis v) a = Some (resume t s)) by (unfold v, on_api; rewrite A; wfld; rewrite nth_set, Nat.eqb_refl, A; reflexivity).
  split; [rewrite (proj2 (ops_after_fresh v)); exact Av|].
  assert (N : ~ expects (t_job k) c) by (rewrite J; cbn [expects]; intros [X|[]]; congruence).
  pose proof (refused_step s t k i0 u obj r c K Pk O2 Ty F St N) as H. cbv zeta in H. change (step (ERun t) s) with (resume t s) in H. destruct H as [_ H].
  assert (Gv : the_op v n = Some o) by (unfold v, the_op; rewrite ops_on; exact G).
  assert (EN : forall e, (exists k', get (resume t s) t = Some k' /\ t_phase k' = PDone (OExn e)) -> In (WEnded n (outcome_of_exn (op_job o) e)) (w_log (ops_after v))).
  { intros e (k' & X1 & X2). eapply ops_after_ends; [exact Gv|exact P|exists (resume t s); split; [exact Av|exact X1]|exact X2]. }
  assert (SC : outcome_of_exn (op_job o) (CommandError c) = OStatus c) by (destruct (op_job o); cbn in Hs; try contradiction; reflexivity).
  assert (CP : forall l, completions (l ++ [OFreed t; OEnded t (reported (t_job k) c)]) = completions l) by (intro l; unfold completions; rewrite flat_map_app; cbn [flat_map app]; rewrite app_nil_r; reflexivity).
  assert (PH : forall e, outcome_of_exn (t_job k) e = OExn e) by (intro e; rewrite J; destruct e; reflexivity).
  assert (UN : unexpected_status r (expected_of (t_job k)) = Some c) by (apply unexpected_some; auto).
  assert (RS : resume t s = request_raw_resume t k obj r s) by (unfold resume; rewrite K, Pk, F, O2; reflexivity).
  destruct (op_waiter o) as [[b i]|]; cbn [option_map snd] in Wd; rewrite Wd in H.
  - split.
    + intro X. apply registered_ids in X. rewrite X in H. destruct H as (L & W1 & _). split; [|split].
      * rewrite <- SC. apply EN. rewrite RS. unfold request_raw_resume. rewrite Ty, UN, Wd, X, complete_nf. rewrite <- (PH (CommandError c)). eapply get_raise. exact K.
      * rewrite W1. apply filter_ids.
      * rewrite L. unfold completions. rewrite flat_map_app. reflexivity.
    + intro X. rewrite <- registered_ids in X. apply Bool.not_true_is_false in X. rewrite X in H. destruct H as (L & W1 & _). split; [|split].
      * change (OExn KeyError) with (outcome_of_exn (op_job o) KeyError). apply EN. rewrite RS. unfold request_raw_resume. rewrite Ty, UN, Wd, X. rewrite <- (PH KeyError). eapply get_raise. exact K.
      * exact W1.
      * rewrite L. unfold completions. rewrite flat_map_app. cbn [flat_map app]. apply app_nil_r.
  - destruct H as (L & W1 & _). split; [|split; [exact W1|rewrite L; apply CP]].
    rewrite <- SC. apply EN. rewrite RS. unfold request_raw_resume. rewrite Ty, UN, Wd. rewrite <- (PH (CommandError c)). eapply get_raise. exact K.
Qed.

(** ** who made which waiter *)
Lemma next_x s s' : xprim s s' -> s_next s <= s_next s'.
Proof. intro H. start_x H; try (start_prim H; opn; try lia; destruct (s_futs s i); fld; lia); unfold called; opn; lia. Qed.
Lemma next_xs s s' : xprims s s' -> s_next s <= s_next s'.
Proof. induction 1; [lia|]. etransitivity; [eapply next_x; eassumption|assumption]. Qed.
Definition Marks (w : world) : Prop :=
  (forall n a i, In (WWaiter n a i) (w_log w) -> exists s, nth_error (w_apis w) a = Some s /\ i < s_next s) /\
  (forall n m a i, In (WWaiter n a i) (w_log w) -> In (WWaiter m a i) (w_log w) -> n = m).
Lemma marks_p w w' : Good w -> Linked w -> wprim w w' -> Marks w -> Marks w'.
Proof.
  intros G L H [M1 M2]. pose proof (ext_p w w' G H L) as E.
  assert (KEEP : forall o, (forall n a i, o <> WWaiter n a i) -> (w_log w' = w_log w \/ w_log w' = w_log w ++ [o]) -> Marks w').
  { intros o N Lg. assert (X : forall n a i, In (WWaiter n a i) (w_log w') -> In (WWaiter n a i) (w_log w)).
    { intros n a i Y. destruct Lg as [Lg|Lg]; rewrite Lg in Y; [exact Y|]. apply in_app_or in Y. destruct Y as [Y|[Y|[]]]; [exact Y|destruct (N _ _ _ Y)]. }
    split.
    - intros n a i Y. destruct (M1 n a i (X n a i Y)) as (s & A & I0). destruct (E a s A) as (s' & A' & Xs). exists s'. split; [exact A'|]. pose proof (next_xs s s' Xs). lia.
    - intros n m a i Y Z. eapply M2; apply X; eassumption. }
  destruct H; try (apply (KEEP (WCalled 0)); [discriminate|left; reflexivity]); try (eapply KEEP; [|right; reflexivity]; discriminate).
  - eapply KEEP; [|right; reflexivity]. intros n a i ->. discriminate.
  - assert (NEW : forall n', ~ In (WWaiter n' a (s_next s)) (w_log w)).
    { intros n' Y. destruct (M1 _ _ _ Y) as (s0 & A & I0). rewrite H4 in A. injection A as <-. lia. }
    split; wfld.
    + intros n' a' i Y. rewrite nth_set. apply in_app_or in Y. destruct Y as [Y|[[= <- <- <-]|[]]].
      * destruct (M1 _ _ _ Y) as (s0 & A & I0). destruct (Nat.eqb_spec a' a) as [->|]; [|eauto]. rewrite A. eexists. split; [reflexivity|].
        rewrite H4 in A. injection A as <-. unfold wait_for. opn. lia.
      * rewrite Nat.eqb_refl, H4. eexists. split; [reflexivity|]. unfold wait_for. opn. lia.
    + intros n1 n2 a' i Y Z. apply in_app_or in Y. apply in_app_or in Z. destruct Y as [Y|[[= <- <- <-]|[]]]; destruct Z as [Z|[Z|[]]].
      * eapply M2; eassumption.
      * injection Z as <- <- <-. destruct (NEW _ Y).
      * destruct (NEW _ Z).
      * congruence.
Qed.
Lemma wreach_marks w : wreachable w -> Marks w.
Proof.
  intro R. enough (X : Linked w /\ Marks w) by apply X. revert w R. apply wreach_ind.
  - intro devs. split; [apply linked_init|]. split; intros ? *; intros [].
  - intros w w' G H [L M]. split; [eapply linked_p; eassumption|eapply marks_p; eassumption].
Qed.

(** ** requests made while the link in use is closed *)
Lemma raw_closed t j o s k : s_open s = false -> get s t = Some k -> (forall e, outcome_of_exn j e = OExn e) ->
  exists k' e, get (request_raw t j o s) t = Some k' /\ t_phase k' = PDone (OExn e) /\ forall c, e <> CommandError c.
Proof.
  intros O G X.
  assert (Y : forall e s', get s' t = Some k -> (forall c, e <> CommandError c) -> exists k' e', get (raw_raise t j e s') t = Some k' /\ t_phase k' = PDone (OExn e') /\ forall c, e' <> CommandError c).
  { intros e s' G' N. destruct (get_raise t j e s' k G') as (k' & A & B). rewrite X in B. eauto. }
  assert (SW : forall f m to, exists k' e, get (send_and_wait t j f m to s) t = Some k' /\ t_phase k' = PDone (OExn e) /\ forall c, e <> CommandError c).
  { intros f m to. unfold send_and_wait, uart_send. change (s_open (wait_for m to None s)) with (s_open s). rewrite O. apply Y; [exact G|discriminate]. }
  unfold request_raw. destruct (to_unpi_frame o) as [f|e] eqn:F; [|apply Y; [exact G|intros c ->; revert F; apply frame_no_cmd]].
  destruct (z_type o); try (apply Y; [exact G|discriminate]); [apply SW|]. destruct (is_reset_command o); [apply SW|].
  unfold uart_send. rewrite O. apply Y; [exact G|discriminate].
Qed.
Lemma call_closed o wid s : s_open s = false -> Tids s -> s_lock s = None -> s_queue s = [] ->
  exists k e, get (call_raw o wid s) (s_ntid s) = Some k /\ t_phase k = PDone (OExn e) /\ forall c, e <> CommandError c.
Proof.
  intros O T L Q. rewrite call_raw_split. unfold acquire_lock. change (s_lock (called o wid s)) with (s_lock s). change (s_queue (called o wid s)) with (s_queue s).
  rewrite L, Q. unfold granted. cbn [t_obj t_job]. eapply raw_closed.
  - cbn [note set_log set_lock s_open]. unfold goto. destruct (get (called o wid s) (s_ntid s)); exact O.
  - apply (goto_here _ PHold _ _ (get_called o wid s T)).
  - intros []; reflexivity.
Qed.
Lemma after_ends w n o q a t k e : the_op w n = Some o -> op_at o = OInside q a t -> task_of w a t k -> t_phase k = PDone (OExn e) ->
  exists o', the_op (op_after n w) n = Some o' /\ op_at o' = OOver (outcome_of_exn (op_job o) e).
Proof.
  intros G P (s & A & K) D. unfold op_after. rewrite G, P, A, K, D. destruct (leave_ops n q (outcome_of_exn (op_job o) e) w) as (_ & _ & _ & L).
  eexists. split; [apply L, G|reflexivity].
Qed.
Lemma admitted_down w n o obj q a s : the_op w n = Some o -> op_obj o = Some obj -> y_cur (w_life w) = Some a -> nth_error (w_apis w) a = Some s ->
  s_open s = false -> Tids s -> s_lock s = None -> s_queue s = [] -> exists o' e, the_op (op_admitted n q w) n = Some o' /\ op_at o' = OOver (OExn e).
Proof.
  intros G Ob C A O T L Q. unfold op_admitted. rewrite G, C, A, Ob. set (v := wnote _ _).
  assert (Av : nth_error (w_apis v) a = Some s) by (unfold v; wfld; rewrite apis_slot; exact A).
  assert (Gv : the_op v n = Some o). { unfold the_op, v. wfld. unfold slot_change. destruct (nth_error (w_sems w) q); exact G. }
  destruct (call_closed obj (option_map snd (op_waiter o)) s O T L Q) as (k & e & K & P & N).
  set (v1 := on_api a _ v). assert (Av1 : nth_error (w_apis v1) a = Some (call_raw obj (option_map snd (op_waiter o)) s)).
  { unfold v1, on_api. rewrite Av. wfld. rewrite nth_set, Nat.eqb_refl, Av. reflexivity. }
  assert (Gv1 : the_op v1 n = Some o) by (unfold the_op, v1; rewrite ops_on; exact Gv).
  set (v2 := op_goto n _ v1). assert (Gv2 : the_op v2 n = Some (moved o (OInside q a (s_ntid s)))).
  { unfold v2, op_goto. rewrite Gv1, the_op_put, Gv1, Nat.eqb_refl. reflexivity. }
  destruct (after_ends v2 n _ q a (s_ntid s) k e Gv2 eq_refl) as (o' & X1 & X2).
  - exists (call_raw obj (option_map snd (op_waiter o)) s). split; [unfold v2; rewrite apis_goto; exact Av1|exact K].
  - exact P.
  - exists o'. exists e. split; [exact X1|]. rewrite X2. f_equal. destruct e; try reflexivity. destruct (N status); reflexivity.
Qed.
Lemma down_ends w n o a x s q v : wreachable w -> the_op w n = Some o -> op_at o = OBegin -> y_cur (w_life w) = Some a -> nth_error (y_apis (w_life w)) a = Some x -> a_uart x = None ->
  nth_error (w_apis w) a = Some s -> s_lock s = None -> s_queue s = [] -> w_sem w = Some q -> nth_error (w_sems w) q = Some v -> 0 < v ->
  exists o' e, the_op (world_step (VRun n) w) n = Some o' /\ op_at o' = OOver (OExn e).
Proof.
  intros R G P C X U A L Q S V Hv. cbn [world_step]. unfold op_run. rewrite G, P.
  assert (O : s_open s = false). { destruct (wreach_linked w R) as (_ & _ & Lk). specialize (Lk a x s X A). unfold face, port_of in Lk. rewrite U in Lk. congruence. }
  pose proof (V_tids s (proj2 (proj2 (wreach_good w R)) a s A)) as T.
  assert (END : forall e, exists o' e', the_op (op_end n (OExn e) w) n = Some o' /\ op_at o' = OOver (OExn e')).
  { intro e. destruct (end_facts n (OExn e) w o G) as (_ & _ & o' & E1 & E2). eauto. }
  unfold op_begin. destruct (build (op_job o)) as [obj|e]; [|apply END].
  assert (SEM : forall y, op_obj y = Some obj -> exists o' e, the_op (op_semaphore n (put_op n y w)) n = Some o' /\ op_at o' = OOver (OExn e)).
  { intros y Y. unfold op_semaphore, op_acquire. wfld. rewrite S, V. destruct (Z.ltb_spec 0 v); [|lia].
    eapply (admitted_down _ n y obj q a s); try eassumption; try reflexivity. rewrite the_op_put, G, Nat.eqb_refl. reflexivity. }
  destruct (wants_waiter (op_job o)) as [sq|]; [|apply SEM; reflexivity]. rewrite C, A.
  destruct (create_response_waiter obj (Some sq)) as [[[m sq']|]|e]; [|apply SEM; reflexivity|apply END].
  set (y := mk_op _ _ _ _). set (w1 := wnote _ _). unfold op_semaphore, op_acquire.
  assert (E : w_sem w1 = Some q /\ w_sems w1 = w_sems w /\ w_life w1 = w_life w /\ w_ops w1 = w_ops w /\ nth_error (w_apis w1) a = Some (wait_for m Timeouts_default sq' s)).
  { unfold w1, on_api. rewrite A. wfld. rewrite nth_set, Nat.eqb_refl, A. auto. }
  destruct E as (E1 & E2 & E3 & E4 & E5). wfld. rewrite E1, E2, V. destruct (Z.ltb_spec 0 v); [|lia].
  eapply (admitted_down _ n y obj q a (wait_for m Timeouts_default sq' s)); try reflexivity; try assumption.
  - rewrite the_op_put, Nat.eqb_refl. rewrite (the_op_eq w w1 n E4), G. reflexivity.
  - wfld. rewrite E3. exact C.
Qed.

(** ** operations called after the last version answer keep within its limit *)
Lemma later_within w l1 q' c l2 a : wreachable w -> w_log w = l1 ++ WNewSem q' c :: l2 -> (forall q c, ~ In (WNewSem q c) l2) ->
  Z.of_nat (length (filter (fun x => (Nat.eqb (snd x) a && negb (existsb (Nat.eqb (fst (fst x))) (called_ops l1)))%bool) (working (w_log w)))) <= c.
Proof.
  intros R E N. pose proof (wreach_all w R) as Al. destruct (L_caps w Al) as (C1 & C2 & _).
  assert (X : In (WNewSem q' c) (w_log w)) by (rewrite E; apply in_or_app; right; left; reflexivity).
  destruct (C2 q' c X) as [(v & V & Ev) _]. destruct (C1 q' v V) as [Hv _].
  etransitivity; [|apply (Z.le_trans _ (with_slot q' (w_log w))); [apply Z.le_refl|lia]]. unfold with_slot. apply Nat2Z.inj_le.
  assert (Y : forall x, In x (working (w_log w)) -> (Nat.eqb (snd x) a && negb (existsb (Nat.eqb (fst (fst x))) (called_ops l1)))%bool = true -> Nat.eqb (snd (fst x)) q' = true).
  { intros [[n q] b] I0 H. cbn [fst snd] in *. apply andb_prop in H. destruct H as [_ H]. apply Nat.eqb_eq.
    destruct (L_work w Al) as (_ & W & _). destruct (W n q b I0) as (o & G & P).
    assert (PS : place_sem (op_at o) = Some q) by (destruct P as [(t & ->)|(u & ->)]; reflexivity).
    destruct (Nat.lt_trichotomy q q') as [L|[L|L]]; [|exact L|]; exfalso.
    - destruct (G_old w (L_log w Al) _ _ _ _ E) as [_ Y]. specialize (Y n o q G PS L). rewrite (proj2 (existsb_exists _ _)) in H; [discriminate|].
      exists n. split; [exact Y|apply Nat.eqb_refl].
    - assert (Q : (q < length (w_sems w))%nat).
      { apply (proj2 (proj1 (wreach_good w R)) n o q G). destruct P as [(t & P)|(u & P)]; eauto. }
      apply nth_error_Some in Q. destruct (nth_error (w_sems w) q) as [x|] eqn:Sx; [|congruence]. destruct (C1 q x Sx) as (_ & c' & Z & _).
      rewrite E in Z. apply in_app_or in Z. destruct Z as [Z|[Z|Z]]; [|injection Z as -> _; lia|exact (N _ _ Z)].
      apply in_split in Z. destruct Z as (y1 & y2 & Z). rewrite Z, <- app_assoc in E. cbn [app] in E.
      assert (Od : (q < q')%nat) by (eapply (proj2 (sems_order w R)); [exact E|apply in_or_app; right; left; reflexivity]). lia. }
  clear - Y. induction (working (w_log w)) as [|x l IH]; [apply le_n|]. cbn [filter]. pose proof (Y x (or_introl eq_refl)) as Yx.
  assert (IH' := IH (fun z Hz => Y z (or_intror Hz))). destruct (Nat.eqb (snd x) a && _)%bool; destruct (Nat.eqb (snd (fst x)) q'); cbn [length]; try lia; discriminate (Yx eq_refl).
Qed.
(** ** the log only grows *)
Lemma log_ps w w' : wprims w w' -> exists l, w_log w' = w_log w ++ l.
Proof.
  induction 1 as [w|w1 w2 w3 H1 H2 [l IH]]; [exists []; rewrite app_nil_r; reflexivity|].
  destruct (log_prim w1 w2 H1) as [E|[o E]]; rewrite E in IH; [eauto|]. rewrite <- app_assoc in IH. eauto.
Qed.
Lemma log_run w es : wreachable w -> exists l, w_log (world_run es w) = w_log w ++ l.
Proof.
  intros (devs & es0 & ->). induction es as [|e es IH] using rev_ind; [exists []; cbn [world_run]; rewrite app_nil_r; reflexivity|].
  rewrite world_run_snoc. destruct IH as [l IH]. set (v := world_run es _) in *.
  assert (R : wreachable v) by (exists devs, (es0 ++ es); unfold v, world_run; rewrite fold_left_app; reflexivity).
  destruct (log_ps v (world_step e v)) as [l' E]; [apply world_step_p, wreach_good, R|]. rewrite E, IH, <- app_assoc. eauto.
Qed.
