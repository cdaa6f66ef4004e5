(** * WorldFresh: between two steps no operation waits for a request that is over *)
From Coq Require Import ZifyBool ZifyNat.
From Verif Require Import Base Types Uart Buffalo CmdTable Zpi Api App Machine Life World SpecMachine SpecWorld
  MachineBase MachineInv MachineInv2 MachineInv3 MachineInv4 MachineInv5 DispatchProofs MachineProofs MachineProofs4 MachineProgress
  LifeProofs2 WorldInv WorldFace WorldBase WorldProofs WorldLife WorldOps.

(** ** two operations never share a request *)
Definition Apart (w : world) : Prop := forall n m o p q q' a t, the_op w n = Some o -> the_op w m = Some p ->
  op_at o = OInside q a t -> op_at p = OInside q' a t -> n = m.
Lemma apart_keep w w' : w_ops w' = w_ops w -> Apart w -> Apart w'.
Proof. intros E A n m o p q q' a t. unfold the_op. rewrite E. apply A. Qed.
Lemma apart_put w w' n o x : the_op w n = Some o -> w_ops w' = set_nth n x (w_ops w) ->
  (forall q a t, op_at x = OInside q a t -> op_at o = OInside q a t) -> Apart w -> Apart w'.
Proof.
  intros Ho E X A m m' p p' q q' a t G1 G2 P1 P2. rewrite (the_op_set w w' n x m E), Ho in G1. rewrite (the_op_set w w' n x m' E), Ho in G2.
  assert (Y : forall k y q0, (if Nat.eqb n k then Some x else the_op w k) = Some y -> op_at y = OInside q0 a t -> exists y0, the_op w k = Some y0 /\ op_at y0 = OInside q0 a t).
  { intros k y q0 G P. destruct (Nat.eqb_spec n k) as [->|]; [injection G as <-; exists o; split; [exact Ho|apply X, P]|eauto]. }
  destruct (Y _ _ _ G1 P1) as (y1 & Z1 & Q1). destruct (Y _ _ _ G2 P2) as (y2 & Z2 & Q2). eapply A; eassumption.
Qed.
Lemma apart_p w w' : Good w -> wprim w w' -> Hist w -> Apart w -> Apart w'.
Proof.
  intros G H [Hi _] A. destruct H; try (apply (apart_keep w); [reflexivity|exact A]);
    try (eapply (apart_put w _ n o); [eassumption|reflexivity|wfld; discriminate|exact A]).
  - intros n m o p q q' a t. unfold the_op. wfld. rewrite !nth_snoc.
    destruct (Nat.eqb n (length (w_ops w))); [intros [= <-]; discriminate|]. destruct (Nat.eqb m (length (w_ops w))); [intros _ [= <-]; discriminate|]. apply A.
  - intros m m' p p' q1 q2 b t G1 G2 P1 P2. match type of G1 with the_op ?W _ = _ => rewrite (the_op_set w W n (moved o (OInside q a (s_ntid s))) m eq_refl), H in G1; rewrite (the_op_set w W n (moved o (OInside q a (s_ntid s))) m' eq_refl), H in G2 end.
    assert (N : forall k y q0, the_op w k = Some y -> op_at y = OInside q0 a (s_ntid s) -> False).
    { intros k y q0 Gy Py. destruct (Hi k y Gy) as [_ Y]. rewrite Py in Y. destruct Y as [k0 ((s0 & A0 & K0) & _)]. rewrite H5 in A0. injection A0 as <-.
      pose proof (V_tids s (proj2 (proj2 G) _ _ H5)) as T. apply new_task in T. unfold get in K0. congruence. }
    destruct (Nat.eqb_spec n m) as [N1|N1]; destruct (Nat.eqb_spec n m') as [N2|N2]; try congruence.
    + injection G1 as <-. injection P1 as <- <- <-. exfalso. eapply N; eassumption.
    + injection G2 as <-. injection P2 as <- <- <-. exfalso. eapply N; eassumption.
    + eapply A; eassumption.
Qed.

(** ** after each step *)
Definition Fresh1 (w : world) (o : op) : Prop := forall q a t k, op_at o = OInside q a t -> task_of w a t k -> ended (t_phase k) = false.
Definition Fresh (w : world) : Prop := forall n o, the_op w n = Some o -> Fresh1 w o.
Definition Rest (w : world) : Prop := forall a s, nth_error (w_apis w) a = Some s -> At_rest s.
Lemma leave_ops n q r w : w_apis (op_leave n q r w) = w_apis w /\ length (w_ops (op_leave n q r w)) = length (w_ops w) /\
  (forall m, m <> n -> the_op (op_leave n q r w) m = the_op w m) /\ forall o, the_op w n = Some o -> the_op (op_leave n q r w) n = Some (moved o (OOver r)).
Proof.
  unfold op_leave, op_end, op_goto. unfold slot_change. set (v := match nth_error (w_sems w) q with Some _ => _ | None => w end).
  assert (E : w_ops v = w_ops w /\ w_apis v = w_apis w) by (unfold v; destruct (nth_error (w_sems w) q); split; reflexivity).
  destruct E as [E1 E2]. rewrite (the_op_eq w v n E1). destruct (the_op w n) as [o|] eqn:Ho.
  - wfld. rewrite E1, E2, len_set. split; [reflexivity|]. split; [reflexivity|]. split.
    + intros m Hm. unfold the_op. wfld. rewrite nth_set, ?E1. destruct (Nat.eqb_spec m n); [congruence|reflexivity].
    + intros o' [= <-]. unfold the_op in *. wfld. rewrite ?E1, nth_set, Nat.eqb_refl, Ho. reflexivity.
  - wfld. rewrite E1, E2. repeat split; [|discriminate]. intros m _. unfold the_op. wfld. rewrite E1. reflexivity.
Qed.
Lemma end_ops n r w : w_apis (op_end n r w) = w_apis w /\ (forall m, m <> n -> the_op (op_end n r w) m = the_op w m) /\
  forall o, the_op w n = Some o -> the_op (op_end n r w) n = Some (moved o (OOver r)).
Proof.
  unfold op_end, op_goto. destruct (the_op w n) as [o|] eqn:Ho.
  - split; [reflexivity|]. split.
    + intros m Hm. unfold the_op. wfld. rewrite nth_set. destruct (Nat.eqb_spec m n); [congruence|reflexivity].
    + intros o' [= <-]. unfold the_op in *. wfld. rewrite nth_set, Nat.eqb_refl, Ho. reflexivity.
  - repeat split. discriminate.
Qed.
Lemma after_ops n w : w_apis (op_after n w) = w_apis w /\ length (w_ops (op_after n w)) = length (w_ops w) /\
  (forall m, m <> n -> the_op (op_after n w) m = the_op w m) /\ forall o, the_op (op_after n w) n = Some o -> Fresh1 w o.
Proof.
  unfold op_after. destruct (the_op w n) as [o|] eqn:Ho; [|repeat split; congruence].
  assert (Same : (forall q a t k, op_at o = OInside q a t -> task_of w a t k -> ended (t_phase k) = false) ->
     w_apis w = w_apis w /\ length (w_ops w) = length (w_ops w) /\ (forall m, m <> n -> the_op w m = the_op w m) /\ forall o0, the_op w n = Some o0 -> Fresh1 w o0).
  { intro F. repeat split. intros o0 E. rewrite Ho in E. injection E as <-. exact F. }
  destruct (op_at o) as [|q|q a t|q u|r] eqn:E; try (apply Same; discriminate).
  destruct (nth_error (w_apis w) a) as [s|] eqn:A; [|apply Same; intros ? ? ? k [= <- <- <-] (s & A' & _); congruence].
  destruct (get s t) as [k|] eqn:K; [|apply Same; intros ? ? ? k [= <- <- <-] (s' & A' & K'); congruence].
  assert (Same' : ended (t_phase k) = false -> w_apis w = w_apis w /\ length (w_ops w) = length (w_ops w) /\ (forall m, m <> n -> the_op w m = the_op w m) /\ forall o0, the_op w n = Some o0 -> Fresh1 w o0).
  { intro D. apply Same. intros ? ? ? k' [= <- <- <-] (s' & A' & K'). congruence. }
  assert (Left : forall r, w_apis (op_leave n q r w) = w_apis w /\ length (w_ops (op_leave n q r w)) = length (w_ops w) /\
    (forall m, m <> n -> the_op (op_leave n q r w) m = the_op w m) /\ forall o0, the_op (op_leave n q r w) n = Some o0 -> Fresh1 w o0).
  { intro r. destruct (leave_ops n q r w) as (L1 & L2 & L3 & L4). repeat (split; [assumption|]). intros o0 E0. rewrite (L4 o Ho) in E0. injection E0 as <-. intros ? ? ? ? X. discriminate X. }
  destruct (t_phase k) as [| | | | | | | | | |r] eqn:P; try (apply Same'; reflexivity). destruct r as [x|c|e]; try apply Left.
  destruct (settles (op_job o)); [|apply Left]. unfold op_goto. rewrite Ho. wfld. rewrite len_set. split; [reflexivity|]. split; [reflexivity|]. split.
  - intros m Hm. rewrite the_op_put. destruct (Nat.eqb_spec n m); [congruence|reflexivity].
  - intros o0. rewrite the_op_put, Nat.eqb_refl, Ho. intros [= <-] ? ? ? ? X. discriminate X.
Qed.
Lemma fresh1_same w w' o : w_apis w' = w_apis w -> Fresh1 w o -> Fresh1 w' o.
Proof. intros E F q a t k P (s & A & K). rewrite E in A. eapply F; [exact P|exists s; auto]. Qed.
Lemma ops_after_fresh w : Fresh (ops_after w) /\ w_apis (ops_after w) = w_apis w.
Proof.
  unfold ops_after.
  assert (X : forall l w, w_apis (fold_left (fun w n => op_after n w) l w) = w_apis w /\ length (w_ops (fold_left (fun w n => op_after n w) l w)) = length (w_ops w) /\
    forall n o, (In n l \/ forall o0, the_op w n = Some o0 -> Fresh1 w o0) -> the_op (fold_left (fun w n => op_after n w) l w) n = Some o -> Fresh1 w o).
  { induction l as [|m l IH]; intro v; cbn [fold_left]; [repeat split; intros n o [[]|F]; apply F|].
    destruct (after_ops m v) as (A1 & A2 & A3 & A4). destruct (IH (op_after m v)) as (I1 & I2 & I3). split; [congruence|]. split; [congruence|].
    intros n o F Gn. eapply (fresh1_same (op_after m v) v); [congruence|]. eapply I3; [|exact Gn].
    destruct (Nat.eq_dec n m) as [->|Hne]; [right; intros o0 E0; eapply fresh1_same; [exact A1|apply A4, E0]|].
    destruct F as [[->|F]|F]; [congruence|left; exact F|right]. intros o0 E0. rewrite A3 in E0 by exact Hne. eapply fresh1_same; [exact A1|apply F, E0]. }
  destruct (X (seq 0 (length (w_ops w))) w) as (X1 & X2 & X3). split; [|exact X1].
  intros n o Gn. eapply fresh1_same; [exact X1|]. eapply X3; [|exact Gn]. left. apply in_seq.
  unfold the_op in Gn. apply nth_lt in Gn. rewrite X2 in Gn. lia.
Qed.

(** tasks are only added *)
Definition still (w w' : world) : Prop := forall a s, nth_error (w_apis w) a = Some s ->
  exists s', nth_error (w_apis w') a = Some s' /\ forall t k, get s t = Some k -> get s' t = Some k.
Lemma still_refl w w' : w_apis w' = w_apis w -> still w w'.
Proof. intros E a s A. rewrite E. eauto. Qed.
Lemma still_trans u v w : still u v -> still v w -> still u w.
Proof. intros H1 H2 a s A. destruct (H1 a s A) as (s1 & A1 & K1). destruct (H2 a s1 A1) as (s2 & A2 & K2). exists s2. split; [exact A2|]. eauto. Qed.
Lemma still_on w a f : (forall s t k, nth_error (w_apis w) a = Some s -> get s t = Some k -> get (f s) t = Some k) -> still w (on_api a f w).
Proof.
  intros F b s A. unfold on_api. destruct (nth_error (w_apis w) a) as [s0|] eqn:E; [|eauto]. wfld. rewrite nth_set.
  destruct (Nat.eqb_spec b a) as [->|]; [|eauto]. rewrite E. rewrite E in A. injection A as <-. eexists. split; [reflexivity|]. intros t k. apply F. reflexivity.
Qed.
Lemma fresh1_still w w' n o : still w w' -> Hist1 w n o -> Fresh1 w o -> Fresh1 w' o.
Proof.
  intros S [_ H] F q a t k P (s' & A' & K'). rewrite P in H. destruct H as [k0 (T & _)]. pose proof T as (s & A & K).
  destruct (S a s A) as (s1 & A1 & X). rewrite A' in A1. injection A1 as <-. rewrite (X t k0 K) in K'. injection K' as <-. eapply F; eassumption.
Qed.
Lemma fresh_still w w' : still w w' -> w_ops w' = w_ops w -> Hist w -> Fresh w -> Fresh w'.
Proof. intros S E [H _] F n o Gn. rewrite (the_op_eq w w' n E) in Gn. eapply fresh1_still; eauto. Qed.
Lemma spawn_still j s t k : get s t = Some k -> get (spawn j s) t = Some k.
Proof. intro G. unfold spawn. opn. unfold get in G. rewrite assoc_snoc, G. reflexivity. Qed.
(** nothing happens to the operations, and no task is touched *)
Definition aside (w w' : world) : Prop := still w w' /\ w_ops w' = w_ops w /\ (Rest w -> Rest w').
Lemma aside_refl w w' : w_apis w' = w_apis w -> w_ops w' = w_ops w -> aside w w'.
Proof. intros E O. split; [apply still_refl, E|]. split; [exact O|]. intros R a s A. rewrite E in A. eapply R, A. Qed.
Lemma aside_trans u v w : aside u v -> aside v w -> aside u w.
Proof. intros (S1 & O1 & R1) (S2 & O2 & R2). split; [eapply still_trans; eassumption|]. split; [congruence|]. auto. Qed.
Lemma rest_on w a f : (forall s, nth_error (w_apis w) a = Some s -> At_rest s -> At_rest (f s)) -> Rest w -> Rest (on_api a f w).
Proof.
  intros F R b s. unfold on_api. destruct (nth_error (w_apis w) a) as [s0|] eqn:E; [|apply R]. wfld. rewrite nth_set.
  destruct (Nat.eqb_spec b a) as [->|]; [|apply R]. rewrite E. intros [= <-]. apply F; [reflexivity|]. eapply R, E.
Qed.
Lemma ops_on w a f : w_ops (on_api a f w) = w_ops w.
Proof. unfold on_api. destruct (nth_error (w_apis w) a); reflexivity. Qed.
(** tasks as before *)
Lemma aside_tasks w a f : (forall s, nth_error (w_apis w) a = Some s -> s_tasks (f s) = s_tasks s) -> aside w (on_api a f w).
Proof.
  intro F. split; [|split; [apply ops_on|]].
  - apply still_on. intros s t k A. unfold get. rewrite (F s A). auto.
  - apply rest_on. intros s A R t k. unfold get. rewrite (F s A). apply R.
Qed.
Lemma aside_spawn w a j : aside w (on_api a (spawn j) w).
Proof.
  split; [|split; [apply ops_on|]].
  - apply still_on. intros s t k _. apply spawn_still.
  - apply rest_on. intros s _. apply spawn_rests.
Qed.
Lemma aside_effect w a e : aside w (world_effect a w e).
Proof.
  unfold world_effect. eapply aside_trans; [apply (aside_refl w (wnote (WEffect a e) w)); reflexivity|].
  destruct e; try (apply aside_refl; reflexivity). destruct (y_cur _); [apply aside_spawn|apply aside_refl; reflexivity].
Qed.
Lemma aside_effects a effs : forall w, aside w (fold_left (world_effect a) effs w).
Proof. induction effs as [|e l IH]; intro w; cbn [fold_left]; [apply aside_refl; reflexivity|]. eapply aside_trans; [apply aside_effect|apply IH]. Qed.
Lemma dispatch_tasks o ws s : s_tasks (fst (fst (dispatch ws o s))) = s_tasks s.
Proof. destruct (dispatch_spec o ws s) as (pre & post & o' & r & _ & -> & _). cbn [fst]. rewrite completes_nf. reflexivity. Qed.
Lemma aside_received w a f : aside w (fst (world_received a w f)).
Proof.
  unfold world_received. destruct (nth_error (w_apis w) a) as [s|] eqn:A; [|apply aside_refl; reflexivity].
  destruct (from_unpi_frame f) as [o|e]; [|apply aside_refl; reflexivity]. cbv zeta.
  pose proof (dispatch_tasks o (s_waiters (note (OReceived o) s)) (note (OReceived o) s)) as T.
  destruct (dispatch (s_waiters (note (OReceived o) s)) o (note (OReceived o) s)) as [[s1 o1] r]. cbn [fst] in T.
  assert (P : aside w (on_api a (fun _ => s1) w)). { apply aside_tasks. intros s0 A0. rewrite A in A0. injection A0 as <-. exact T. }
  destruct r; [|exact P]. destruct (s_app s1); [|exact P]. eapply aside_trans; [exact P|]. unfold world_handle.
  destruct (handle_znp _ _ o1) as [[devs effs] r]. cbn [fst]. eapply aside_trans; [|apply aside_effects]. apply aside_refl; reflexivity.
Qed.
Lemma aside_gw a data : forall b w, aside w (snd (fst (gw_data_received (world_received a) b w data))).
Proof.
  induction data as [|x data IH]; intros b w; cbn [gw_data_received]; [apply aside_refl; reflexivity|].
  destruct (parser_write b x) as [b1 [[f|]|e]]; [|apply IH|apply aside_refl; reflexivity].
  pose proof (aside_received w a f) as P. destruct (world_received a w f) as [w1 [u|e]]; cbn [fst] in P; [|exact P].
  eapply aside_trans; [exact P|apply IH].
Qed.
Lemma aside_receive w a data : aside w (world_receive a data w).
Proof.
  unfold world_receive. destruct (nth_error (w_apis w) a) as [s|]; [|apply aside_refl; reflexivity].
  pose proof (aside_gw a data (s_buf s) w) as P. destruct (gw_data_received (world_received a) (s_buf s) w data) as [[b w1] r]. cbn [fst snd] in P.
  assert (Q : aside w (on_api a (set_buf b) w1)) by (eapply aside_trans; [exact P|]; apply aside_tasks; reflexivity).
  destruct r; [exact Q|]. eapply aside_trans; [exact Q|]. apply aside_refl; reflexivity.
Qed.
Lemma aside_tick w ms : aside w (set_wnow (w_now w + ms) (set_apis (map (fun s => set_now (s_now s + ms) s) (w_apis w)) w)).
Proof.
  split; [|split; [reflexivity|]].
  - intros a s A. wfld. rewrite nth_map, A. eexists. split; [reflexivity|]. auto.
  - intros R a s. wfld. rewrite nth_map. destruct (nth_error (w_apis w) a) as [s0|] eqn:A; [|discriminate]. intros [= <-]. intros t k. apply (R a s0 A).
Qed.
Lemma aside_life w e : Linked w -> aside w (life_event_happens e w).
Proof.
  intro L. split; [|split; [reflexivity|]].
  - intros a s A. unfold life_event_happens. wfld. rewrite sync_nth.
    destruct (nth_error (y_apis (w_life w)) a) as [x|] eqn:X; [|apply nth_lt in A; apply nth_error_None in X; destruct L as (_ & L & _); lia].
    destruct (moves_step e (w_life w) (linked_book w L) a x X) as (y & Y & _). rewrite Y, A. eexists. split; [reflexivity|]. auto.
  - intros R a s. unfold life_event_happens. wfld. rewrite sync_nth. destruct (nth_error _ a) as [x|]; [|discriminate]. intros [= <-].
    destruct (nth_error (w_apis w) a) as [s0|] eqn:A; [apply (R a s0 A)|]. intros t k G. discriminate.
Qed.

(** one operation moves, and requests of others are left alone *)
Lemma fresh_one w w' n : still w w' -> (forall m, m <> n -> the_op w' m = the_op w m) -> (forall o, the_op w' n = Some o -> Fresh1 w' o) -> Hist w -> Fresh w -> Fresh w'.
Proof.
  intros S O X [H _] F m o G. destruct (Nat.eq_dec m n) as [->|Hne]; [apply X, G|]. rewrite O in G by exact Hne. eapply fresh1_still; eauto.
Qed.
Record Inv (w : world) : Prop := mk_Inv { N_good : Good w; N_linked : Linked w; N_hist : Hist w; N_apart : Apart w }.
Lemma inv_p w w' : wprim w w' -> Inv w -> Inv w'.
Proof. intros H [G L Hi A]. constructor; [eapply good_p|eapply linked_p|eapply hist_p|eapply apart_p]; eassumption. Qed.
Lemma inv_ps w w' : wprims w w' -> Inv w -> Inv w'.
Proof. apply wprims_inv, inv_p. Qed.
Lemma inv_init devs : Inv (world_init devs).
Proof. constructor; [apply good_init|apply linked_init|apply hist_init|]. intros n m o p q q' a t G. unfold the_op in G. destruct n; discriminate. Qed.
Lemma call_still o wid s t k : get s t = Some k -> Tids s -> get (call_raw o wid s) t = Some k.
Proof.
  intros G T. rewrite (call_raw_others o wid s t); [exact G|]. intros ->. apply new_task in T. unfold get in G. congruence.
Qed.
Lemma fresh_end w n r : Inv w -> Fresh w -> Rest w -> Fresh (op_end n r w) /\ Rest (op_end n r w).
Proof.
  intros I F R. destruct (end_ops n r w) as (E1 & E2 & E3). split.
  - eapply fresh_one; [apply still_refl, E1|exact E2| |apply I|exact F]. intros o G. destruct (the_op w n) as [p|] eqn:Ho.
    + rewrite (E3 p eq_refl) in G. injection G as <-. intros ? ? ? ? X. discriminate X.
    + exfalso. unfold op_end, op_goto in G. rewrite Ho in G. unfold the_op in *. wfldin G. congruence.
  - intros a s. rewrite E1. apply R.
Qed.
Lemma fresh_leave w n q r : Inv w -> Fresh w -> Rest w -> Fresh (op_leave n q r w) /\ Rest (op_leave n q r w).
Proof.
  intros I F R. destruct (leave_ops n q r w) as (E1 & E0 & E2 & E3). split.
  - eapply fresh_one; [apply still_refl, E1|exact E2| |apply I|exact F]. intros o G. destruct (the_op w n) as [p|] eqn:Ho.
    + rewrite (E3 p eq_refl) in G. injection G as <-. intros ? ? ? ? X. discriminate X.
    + exfalso. unfold the_op in *. apply nth_lt in G. rewrite E0 in G. apply nth_error_None in Ho. lia.
  - intros a s. rewrite E1. apply R.
Qed.
Lemma fresh_after w w' n : still w w' -> (forall m, m <> n -> the_op w' m = the_op w m) -> Hist w -> Fresh w -> Rest w' ->
  Fresh (op_after n w') /\ Rest (op_after n w').
Proof.
  intros S O Hi F R. destruct (after_ops n w') as (A1 & _ & A2 & A3). split.
  - eapply (fresh_one w); [|intros m Hm; rewrite A2, O by exact Hm; reflexivity| |exact Hi|exact F].
    + eapply still_trans; [exact S|apply still_refl, A1].
    + intros o G. eapply fresh1_same; [exact A1|apply A3, G].
  - intros a s. rewrite A1. apply R.
Qed.
Lemma fresh_admitted w n q : Inv w -> Fresh w -> Rest w -> Fresh (op_admitted n q w) /\ Rest (op_admitted n q w).
Proof.
  intros I F R. unfold op_admitted. destruct (the_op w n) as [o|] eqn:Ho; [|apply fresh_end; assumption].
  destruct (y_cur (w_life w)) as [a|]; [|apply fresh_end; assumption].
  destruct (nth_error (w_apis w) a) as [s|] eqn:A; [|auto]. destruct (op_obj o) as [obj|]; [|auto].
  set (v := wnote (WAdmitted n q a) (slot_change q (-1) w)).
  assert (V : w_apis v = w_apis w /\ w_ops v = w_ops w) by (unfold v, slot_change; destruct (nth_error (w_sems w) q); split; reflexivity). destruct V as [V1 V2].
  assert (Av : nth_error (w_apis v) a = Some s) by (rewrite V1; exact A).
  assert (S : still w (on_api a (call_raw obj (option_map snd (op_waiter o))) v)).
  { eapply still_trans; [apply (still_refl w v), V1|]. apply still_on. intros s0 t k A0 K. rewrite Av in A0. injection A0 as <-.
    apply call_still; [exact K|]. apply (V_tids s (proj2 (proj2 (N_good w I)) _ _ A)). }
  apply (fresh_after w).
  - unfold op_goto. destruct (the_op (on_api a _ v) n); exact S.
  - intros m Hm. unfold op_goto. destruct (the_op (on_api a _ v) n) as [p|]; [|rewrite (the_op_eq w) by (rewrite ops_on; exact V2); reflexivity].
    rewrite the_op_put. destruct (Nat.eqb_spec n m); [congruence|]. rewrite (the_op_eq w) by (rewrite ops_on; exact V2). reflexivity.
  - apply I.
  - exact F.
  - assert (X : Rest (on_api a (call_raw obj (option_map snd (op_waiter o))) v)).
    { apply rest_on; [intros s0 _; apply call_raw_rests|]. intros b s0. rewrite V1. apply R. }
    unfold op_goto. destruct (the_op (on_api a _ v) n); exact X.
Qed.
Lemma fresh_put_begin w w' n x : still w w' -> w_ops w' = set_nth n x (w_ops w) -> op_at x = OBegin -> Hist w -> Fresh w -> Fresh w'.
Proof.
  intros S E P Hi F. eapply (fresh_one w _ n); try assumption.
  - intros m Hm. rewrite (the_op_set w w' n x m E). destruct (Nat.eqb_spec n m); [congruence|reflexivity].
  - intros o. rewrite (the_op_set w w' n x n E), Nat.eqb_refl. destruct (the_op w n); [|discriminate]. intros [= <-] ? ? ? ? Y. congruence.
Qed.
Lemma fresh_semaphore w n : Inv w -> Fresh w -> Rest w -> Fresh (op_semaphore n w) /\ Rest (op_semaphore n w).
Proof.
  intros I F R. unfold op_semaphore. destruct (w_sem w) as [q|]; [|apply fresh_end; assumption]. unfold op_acquire.
  destruct (nth_error (w_sems w) q) as [v|]; [|auto]. destruct (0 <? v); [apply fresh_admitted; assumption|].
  unfold op_goto. destruct (the_op w n) as [o|] eqn:Ho; [|auto]. split; [|exact R].
  eapply (fresh_one w _ n); [apply still_refl; reflexivity| | |apply I|exact F].
  - intros m Hm. rewrite the_op_put. destruct (Nat.eqb_spec n m); [congruence|reflexivity].
  - intros p. rewrite the_op_put, Nat.eqb_refl, Ho. intros [= <-] ? ? ? ? Y. discriminate Y.
Qed.
Lemma fresh_begin w n o : Inv w -> Fresh w -> Rest w -> the_op w n = Some o -> op_at o = OBegin -> Fresh (op_begin n o w) /\ Rest (op_begin n o w).
Proof.
  intros I F R Ho Hb. unfold op_begin. destruct (build (op_job o)) as [obj|e] eqn:B; [|apply fresh_end; assumption].
  assert (N : wants_waiter (op_job o) = None \/ (exists sq, wants_waiter (op_job o) = Some sq /\ create_response_waiter obj (Some sq) = Ok None) ->
    Fresh (op_semaphore n (put_op n (with_obj o obj None) w)) /\ Rest (op_semaphore n (put_op n (with_obj o obj None) w))).
  { intro X. apply fresh_semaphore; [eapply inv_p; [eapply T_prepare; eassumption|exact I]| |exact R].
    eapply (fresh_put_begin w); [apply still_refl; reflexivity|reflexivity|reflexivity|apply I|exact F]. }
  destruct (wants_waiter (op_job o)) as [sq|] eqn:W; [|apply N; auto].
  destruct (y_cur (w_life w)) as [a|] eqn:C; [|apply fresh_end; assumption].
  destruct (nth_error (w_apis w) a) as [s|] eqn:A; [|auto].
  destruct (create_response_waiter obj (Some sq)) as [[[m q]|]|e] eqn:Q; [|apply N; eauto|apply fresh_end; assumption].
  assert (X : wprim w (put_op n (with_obj o obj (Some (a, s_next s))) (wnote (WWaiter n a (s_next s)) (on_api a (wait_for m Timeouts_default q) w)))).
  { unfold on_api. rewrite A. eapply T_waiter; eassumption. }
  assert (Y : aside w (on_api a (wait_for m Timeouts_default q) w)) by (apply aside_tasks; reflexivity). destruct Y as (Y1 & Y2 & Y3).
  apply fresh_semaphore; [eapply inv_p; eassumption| |exact (Y3 R)].
  eapply (fresh_put_begin w); [exact Y1|wfld; rewrite ops_on; reflexivity|reflexivity|apply I|exact F].
Qed.
Lemma fresh_cancel w n : Inv w -> Fresh w -> Rest w -> Fresh (op_cancel n w) /\ Rest (op_cancel n w).
Proof.
  intros I F R. unfold op_cancel. destruct (the_op w n) as [o|] eqn:Ho; [|auto].
  destruct (op_at o) as [|q|q a t|q u|r] eqn:E; try (apply fresh_end; assumption); [|apply fresh_leave; assumption|auto].
  assert (R' : Rest (on_api a (Machine.cancel t) w)) by (apply rest_on; [intros s _; apply cancel_rests|exact R]).
  destruct (after_ops n (on_api a (Machine.cancel t) w)) as (A1 & _ & A2 & A3). split; [|intros b s; rewrite A1; apply R'].
  intros m p G. eapply fresh1_same; [exact A1|]. destruct (Nat.eq_dec m n) as [->|Hne]; [apply A3, G|].
  rewrite A2 in G by exact Hne. rewrite (the_op_eq w) in G by apply ops_on.
  intros q' a' t' k P (s' & A' & K'). unfold on_api in A'. destruct (nth_error (w_apis w) a) as [s|] eqn:A; [|eapply F; [exact G|exact P|exists s'; auto]].
  wfldin A'. rewrite nth_set in A'. destruct (Nat.eqb_spec a' a) as [->|]; [|eapply F; [exact G|exact P|exists s'; auto]].
  rewrite A in A'. injection A' as <-. destruct (Z.eq_dec t' t) as [->|Ht].
  - exfalso. apply Hne. eapply (N_apart w I); eassumption.
  - rewrite (cancel_others s t t' Ht) in K'. eapply F; [exact G|exact P|exists s; auto].
Qed.
Lemma fresh_step e w : Inv w -> Fresh w -> Rest w -> Fresh (world_step e w) /\ Rest (world_step e w).
Proof.
  intros I F R.
  assert (AS : forall w', aside w w' -> Fresh w' /\ Rest w').
  { intros w' (S & O & X). split; [eapply fresh_still; try eassumption; apply I|apply X, R]. }
  destruct e; cbn [world_step].
  - destruct (uses_sem j); [|auto]. split; [|exact R]. intros n o. unfold the_op. wfld. rewrite nth_snoc. destruct (Nat.eqb n (length (w_ops w))).
    + intros [= <-] ? ? ? ? X. discriminate X.
    + intro G. eapply fresh1_same; [|apply (F n o G)]. reflexivity.
  - unfold op_run. destruct (the_op w n) as [o|] eqn:Ho; [|auto]. destruct (op_at o) as [|q|q a t|q u|r] eqn:E; auto.
    + apply fresh_begin; assumption.
    + destruct (nth_error (w_sems w) q) as [v|]; [|auto]. destruct (0 <? v); [apply fresh_admitted; assumption|auto].
    + destruct (u <=? w_now w); [apply fresh_leave; assumption|auto].
  - apply fresh_cancel; assumption.
  - destruct (uses_sem j); [auto|]. apply AS, aside_spawn.
  - destruct (ops_after_fresh (on_api a (resume t) w)) as [X E]. split; [exact X|]. intros b s. rewrite E.
    apply rest_on; [|exact R]. intros s0 A0. apply resume_restsW, (V_tasks s0 (proj2 (proj2 (N_good w I)) _ _ A0)).
  - destruct (ops_after_fresh (on_api a (wait_timeout t) w)) as [X E]. split; [exact X|]. intros b s. rewrite E.
    apply rest_on; [|exact R]. intros s0 A0. apply timeout_rests.
  - destruct (ops_after_fresh (on_api a (Machine.cancel t) w)) as [X E]. split; [exact X|]. intros b s. rewrite E.
    apply rest_on; [|exact R]. intros s0 A0. apply cancel_rests.
  - apply AS, aside_tasks. intros s _. destruct (cleanup_nf i s) as [->|[_ ->]]; reflexivity.
  - apply AS, aside_receive.
  - destruct (0 <=? ms); [|auto]. apply AS, aside_tick.
  - apply AS, aside_life, I.
  - destruct (starting w t); [|auto]. apply AS, aside_refl; reflexivity.
  - destruct (starting w t); [|auto]. apply AS, aside_refl; reflexivity.
Qed.
Lemma wreach_fresh w : wreachable w -> Inv w /\ Fresh w /\ Rest w.
Proof.
  intros (devs & es & ->). induction es as [|e es IH] using rev_ind.
  - split; [apply inv_init|]. split; [intros n o G; unfold the_op in G; destruct n; discriminate|intros a s G; destruct a; discriminate].
  - rewrite world_run_snoc. destruct IH as (I & F & R). split; [eapply inv_ps; [apply world_step_p, I|exact I]|]. apply fresh_step; assumption.
Qed.
