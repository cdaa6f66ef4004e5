(** * WorldProgress2: rounds of the world *)
From Coq Require Import ZifyBool ZifyNat.
From Verif Require Import Base Types Uart Buffalo CmdTable Zpi Api App Machine Life World SpecMachine SpecProgress SpecWorld SpecWorldProgress
  MachineBase MachineInv MachineInv2 MachineInv3 MachineInv4 MachineInv5 DispatchProofs MachineProofs MachineProofs2 MachineProofs4
  MachineProgress MachineProgress2 LifeProofs2 WorldInv WorldFace WorldBase WorldLife WorldOps WorldProofs WorldProofs2 WorldFresh WorldProofs4 WorldProgress.

Lemma wreach_run w es : wreachable w -> wreachable (world_run es w).
Proof. intros (d & es0 & ->). exists d, (es0 ++ es). unfold world_run. rewrite fold_left_app. reflexivity. Qed.
Lemma wrun_app a b w : world_run (a ++ b) w = world_run b (world_run a w).
Proof. apply fold_left_app. Qed.
Lemma wstep_alike e w : wreachable w -> wlevel (world_step e w) < wlevel w \/ wlevel (world_step e w) = wlevel w /\ walike w (world_step e w).
Proof. intro R. apply wprims_alike; [apply world_step_p|..]; try apply (wreach_good w R). apply (wreach_linked w R). Qed.
Lemma wrun_alike es : forall w, wreachable w -> wlevel (world_run es w) < wlevel w \/ wlevel (world_run es w) = wlevel w /\ walike w (world_run es w).
Proof.
  induction es as [|e es IH]; intros w R; [right; split; [reflexivity|apply walike_refl]|]. change (world_run (e :: es) w) with (world_run es (world_step e w)).
  destruct (wstep_alike e w R) as [W|[W A]]; destruct (IH (world_step e w) (wreach_run w [e] R)) as [W1|[W1 A1]]; try (left; lia).
  right. split; [lia|eapply walike_trans; eassumption].
Qed.

(** ** an operation that can go on *)
Definition op_ready (w : world) (n : nat) : Prop :=
  match the_op w n with
  | Some o =>
    match op_at o with
    | OBegin => True
    | OSlot q => exists v, nth_error (w_sems w) q = Some v /\ 0 < v
    | OSettling _ u => u <= w_now w
    | _ => False
    end
  | None => False
  end.
Lemma op_ready_alike w w' n : walike w w' -> op_ready w n -> op_ready w' n.
Proof.
  intros (_ & A2 & A3 & A4). unfold op_ready. destruct (the_op w n) as [o|] eqn:G; [|intros []]. destruct (A2 n o G) as (o' & -> & ->).
  destruct (op_at o); try exact (fun H => H); [|lia]. intros (v & V & P). exists v. auto.
Qed.
Definition later (p : op_place) : Prop := match p with OBegin | OSlot _ => False | _ => True end.
Lemma after_later n w o : the_op w n = Some o -> later (op_at o) -> exists o', the_op (op_after n w) n = Some o' /\ later (op_at o').
Proof.
  intros G L. unfold op_after. rewrite G. destruct (op_at o) as [|q|q a t|q u|r] eqn:E; try contradiction; try (exists o; rewrite E; auto; fail).
  assert (K : forall r, exists o', the_op (op_leave n q r w) n = Some o' /\ later (op_at o')).
  { intro r. destruct (leave_ops n q r w) as (_ & _ & _ & X). rewrite (X o G). eexists. split; [reflexivity|exact I]. }
  assert (S : exists o', the_op w n = Some o' /\ later (op_at o')) by (exists o; rewrite E; auto).
  destruct (nth_error (w_apis w) a) as [s|]; [|exact S]. destruct (get s t) as [k|]; [|exact S]. destruct (t_phase k); try exact S.
  destruct r as [x|c|e]; try apply K. destruct (settles (op_job o)); [|apply K].
  unfold op_goto. rewrite G. eexists. rewrite the_op_put, Nat.eqb_refl, G. split; [reflexivity|exact I].
Qed.
Lemma admitted_later w n q o : Linked w -> the_op w n = Some o -> op_obj o <> None -> exists o', the_op (op_admitted n q w) n = Some o' /\ later (op_at o').
Proof.
  intros L G Ho. unfold op_admitted. rewrite G. destruct (y_cur (w_life w)) as [a|] eqn:C.
  - destruct (linked_cur w a L C) as [s A]. rewrite A. destruct (op_obj o) as [obj|]; [|congruence].
    set (v := on_api a _ _). assert (V : w_ops v = w_ops w) by (unfold v; rewrite ops_on; unfold slot_change; destruct (nth_error (w_sems w) q); reflexivity).
    assert (Gv : the_op v n = Some o) by (rewrite (the_op_eq w) by exact V; exact G).
    unfold op_goto. rewrite Gv. eapply after_later; [rewrite the_op_put, Nat.eqb_refl, Gv; reflexivity|exact I].
  - destruct (end_ops n (OExn AttributeError) w) as (_ & _ & X). rewrite (X o G). eexists. split; [reflexivity|exact I].
Qed.
Lemma semaphore_moves w n o : Good w -> Linked w -> the_op w n = Some o -> op_obj o <> None ->
  exists o', the_op (op_semaphore n w) n = Some o' /\ op_at o' <> OBegin.
Proof.
  intros Gd L G Ho. unfold op_semaphore. destruct (w_sem w) as [q|] eqn:Q.
  - unfold op_acquire. pose proof (proj1 (proj1 Gd) q Q) as Lt. destruct (nth_error (w_sems w) q) as [v|] eqn:V; [|apply nth_error_None in V; lia].
    destruct (0 <? v).
    + destruct (admitted_later w n q o L G Ho) as (o' & G' & P). exists o'. split; [exact G'|]. intro C. rewrite C in P. exact P.
    + unfold op_goto. rewrite G. eexists. rewrite the_op_put, Nat.eqb_refl, G. split; [reflexivity|discriminate].
  - destruct (end_ops n (OExn AttributeError) w) as (_ & _ & X). rewrite (X o G). eexists. split; [reflexivity|discriminate].
Qed.
Lemma begin_moves w n o : Good w -> Linked w -> the_op w n = Some o -> op_at o = OBegin ->
  exists o', the_op (op_begin n o w) n = Some o' /\ op_at o' <> OBegin.
Proof.
  intros Gd L G Hb. unfold op_begin.
  assert (E : forall e, exists o', the_op (op_end n (OExn e) w) n = Some o' /\ op_at o' <> OBegin).
  { intro e. destruct (end_ops n (OExn e) w) as (_ & _ & X). rewrite (X o G). eexists. split; [reflexivity|discriminate]. }
  assert (P : forall w', wprim w w' -> forall obj x, the_op w' n = Some (with_obj o obj x) -> exists o', the_op (op_semaphore n w') n = Some o' /\ op_at o' <> OBegin).
  { intros w' H obj x G'. eapply semaphore_moves; [eapply good_p; eassumption|eapply linked_p; eassumption|exact G'|discriminate]. }
  destruct (build (op_job o)) as [obj|e] eqn:B; [|apply E].
  assert (N : wants_waiter (op_job o) = None \/ (exists sq, wants_waiter (op_job o) = Some sq /\ create_response_waiter obj (Some sq) = Ok None) ->
    exists o', the_op (op_semaphore n (put_op n (with_obj o obj None) w)) n = Some o' /\ op_at o' <> OBegin).
  { intro X. eapply P; [eapply T_prepare; eassumption|]. rewrite the_op_put, Nat.eqb_refl, G. reflexivity. }
  destruct (wants_waiter (op_job o)) as [sq|] eqn:W; [|apply N; auto].
  destruct (y_cur (w_life w)) as [a|] eqn:C; [|apply E].
  destruct (linked_cur w a L C) as [s A]. rewrite A.
  destruct (create_response_waiter obj (Some sq)) as [[[m q]|]|e] eqn:Q; [|apply N; eauto|apply E].
  assert (X : wprim w (put_op n (with_obj o obj (Some (a, s_next s))) (wnote (WWaiter n a (s_next s)) (on_api a (wait_for m Timeouts_default q) w)))).
  { unfold on_api. rewrite A. eapply T_waiter; eassumption. }
  eapply P; [exact X|]. rewrite the_op_put, Nat.eqb_refl. unfold the_op. wfld. rewrite ops_on. change (nth_error (w_ops w) n) with (the_op w n). rewrite G. reflexivity.
Qed.
Lemma op_run_lowers w n : wreachable w -> op_ready w n -> wlevel (world_step (VRun n) w) < wlevel w.
Proof.
  intros R H. pose proof (wreach_good w R) as Gd. pose proof (wreach_linked w R) as L.
  destruct (wstep_alike (VRun n) w R) as [W|[_ (_ & A & _)]]; [exact W|]. exfalso. unfold op_ready in H. cbn [world_step] in A. unfold op_run in A.
  destruct (the_op w n) as [o|] eqn:G; [|exact H]. destruct (A n o G) as (o' & G' & E). destruct (op_at o) as [|q|q a t|q u|r] eqn:P; try exact H.
  - destruct (begin_moves w n o Gd L G P) as (x & X & N). congruence.
  - destruct H as (v & V & Hv). rewrite V in G'. replace (0 <? v) with true in G' by lia.
    destruct (admitted_later w n q o L G) as (x & X & N).
    + apply (proj1 (proj2 Gd) n o G). rewrite P. exact I.
    + rewrite G' in X. injection X as <-. rewrite E in N. exact N.
  - replace (u <=? w_now w) with true in G' by lia. destruct (leave_ops n q (outcome_of_result (op_job o) None) w) as (_ & _ & _ & X).
    rewrite (X o G) in G'. injection G' as <-. discriminate E.
Qed.

(** ** a coroutine of an API object that can go on *)
Definition api_ready (w : world) (a : nat) (t : Z) : Prop := exists s, nth_error (w_apis w) a = Some s /\ xready s t.
Lemma wreach_winv w a s : wreachable w -> nth_error (w_apis w) a = Some s -> Winv s.
Proof. intros R. apply (proj2 (proj2 (wreach_good w R))). Qed.
Lemma api_ready_alike w w' a t : wreachable w' -> walike w w' -> api_ready w a t -> api_ready w' a t.
Proof.
  intros R (A1 & _) (s & A & H). destruct (A1 a s A) as (s' & A' & L). exists s'. split; [exact A'|].
  eapply xready_alike; [apply (wreach_winv w' a s' R A')|exact L|exact H].
Qed.
Lemma on_api_lowers w a s f : Good w -> Linked w -> nth_error (w_apis w) a = Some s -> xprims s (f s) -> face (f s) = face s -> shut s (f s) -> level (f s) < level s ->
  wlevel (ops_after (on_api a f w)) < wlevel w.
Proof.
  intros Gd L A X F S H.
  assert (P : wprim w (on_api a f w)) by (unfold on_api; rewrite A; eapply T_api; eassumption).
  assert (W : wlevel (on_api a f w) < wlevel w).
  { unfold on_api. rewrite A. unfold wlevel. wfld. rewrite (zsum_set _ _ _ _ _ A). lia. }
  destruct (wprims_alike _ _ (ops_after_p (on_api a f w) (good_p _ _ P Gd)) (good_p _ _ P Gd) (linked_p _ _ P L)) as [W1|[W1 _]]; lia.
Qed.
Lemma task_lowers w a t s : wreachable w -> nth_error (w_apis w) a = Some s -> run_ready s t = true -> wlevel (world_step (VTask a t) w) < wlevel w.
Proof.
  intros R A H. pose proof (wreach_winv w a s R A) as V. cbn [world_step].
  eapply on_api_lowers; [apply wreach_good, R|apply wreach_linked, R|exact A|apply resume_x|apply face_resume|apply shut_prims, resume_prims|apply xrun_lowers; assumption].
Qed.
Lemma wtimeout_lowers w a t s : wreachable w -> nth_error (w_apis w) a = Some s -> timeout_ready s t = true -> wlevel (world_step (VTimeout a t) w) < wlevel w.
Proof.
  intros R A H. cbn [world_step].
  eapply on_api_lowers; [apply wreach_good, R|apply wreach_linked, R|exact A|apply timeout_x|apply face_timeout|apply shut_prims, wait_timeout_prims|apply lower_timeout, H].
Qed.
Lemma wturn_lowers w a t b : wreachable w -> has_turn a t b -> api_ready w a t -> wlevel (world_run b w) < wlevel w.
Proof.
  intros R (b1 & b2 & b3 & ->) H. rewrite wrun_app. set (w1 := world_run b1 w).
  change (world_run (VTimeout a t :: b2 ++ VTask a t :: b3) w1) with (world_run (b2 ++ VTask a t :: b3) (world_step (VTimeout a t) w1)).
  rewrite wrun_app. set (w2 := world_step (VTimeout a t) w1). set (w3 := world_run b2 w2).
  change (world_run (VTask a t :: b3) w3) with (world_run b3 (world_step (VTask a t) w3)). set (w4 := world_step (VTask a t) w3).
  assert (R1 : wreachable w1) by apply wreach_run, R.
  assert (R2 : wreachable w2) by apply (wreach_run w1 [VTimeout a t] R1).
  assert (R3 : wreachable w3) by apply wreach_run, R2.
  assert (R4 : wreachable w4) by apply (wreach_run w3 [VTask a t] R3).
  destruct (wrun_alike b3 w4 R4) as [L4|[L4 _]].
  all: destruct (wstep_alike (VTask a t) w3 R3) as [L3|[L3 _]]; fold w4 in L3.
  all: destruct (wrun_alike b2 w2 R2) as [L2|[L2 A2]]; fold w3 in L2.
  all: destruct (wstep_alike (VTimeout a t) w1 R1) as [L1|[L1 A1]]; fold w2 in L1.
  all: destruct (wrun_alike b1 w R) as [L0|[L0 A0]]; fold w1 in L0.
  all: try lia.
  fold w1 in A0. fold w2 in A1. fold w3 in A2.
  destruct (api_ready_alike _ _ a t R1 A0 H) as (s1 & B1 & [H1|H1]).
  - destruct A1 as (A1 & _). destruct (A1 a s1 B1) as (s2 & B2 & X2). destruct A2 as (A2 & _). destruct (A2 a s2 B2) as (s3 & B3 & X3).
    pose proof (task_lowers w3 a t s3 R3 B3 (run_ready_alike _ _ _ X3 (run_ready_alike _ _ _ X2 H1))) as L. fold w4 in L. lia.
  - pose proof (wtimeout_lowers w1 a t s1 R1 B1 H1) as L. fold w2 in L. lia.
Qed.
Lemma op_turn_lowers w n b : wreachable w -> In (VRun n) b -> op_ready w n -> wlevel (world_run b w) < wlevel w.
Proof.
  intros R Hin H. apply in_split in Hin. destruct Hin as (b1 & b2 & ->). rewrite wrun_app. set (w1 := world_run b1 w).
  change (world_run (VRun n :: b2) w1) with (world_run b2 (world_step (VRun n) w1)). set (w2 := world_step (VRun n) w1).
  assert (R1 : wreachable w1) by apply wreach_run, R.
  assert (R2 : wreachable w2) by apply (wreach_run w1 [VRun n] R1).
  destruct (wrun_alike b2 w2 R2) as [L2|[L2 _]]; destruct (wstep_alike (VRun n) w1 R1) as [L1|[L1 _]]; fold w2 in L1; destruct (wrun_alike b1 w R) as [L0|[L0 A0]]; fold w1 in L0; try lia.
  pose proof (op_run_lowers w1 n R1 (op_ready_alike _ _ _ A0 H)) as L. fold w2 in L. lia.
Qed.

(** ** somebody can go on *)
Definition wpast (w : world) : Prop :=
  (forall a s, nth_error (w_apis w) a = Some s -> MachineProgress.past s) /\
  (forall n o q u, the_op w n = Some o -> op_at o = OSettling q u -> u <= w_now w).
Definition over (o : op) : bool := match op_at o with OOver _ => true | _ => false end.
Definition wends (w : world) : Prop :=
  (forall a s, nth_error (w_apis w) a = Some s -> ends s) /\ (forall n o, the_op w n = Some o -> over o = true).
Lemma ops_or_some (l : list op) : (forall n o, nth_error l n = Some o -> over o = true) \/ exists n o, nth_error l n = Some o /\ over o = false.
Proof.
  induction l as [|x l IH]; [left; intros [|n] o; discriminate|]. destruct (over x) eqn:E; [|right; exists 0%nat, x; auto].
  destruct IH as [IH|(n & o & G & F)]; [left; intros [|n] o G; [injection G as <-; exact E|eapply IH, G]|right; exists (S n), o; auto].
Qed.
Lemma apis_or_some (l : list st) : (forall n s, nth_error l n = Some s -> Numbered s) ->
  (forall n s, nth_error l n = Some s -> ends s) \/ exists n s t k, nth_error l n = Some s /\ get s t = Some k /\ ended (t_phase k) = false.
Proof.
  induction l as [|x l IH]; intro N; [left; intros [|n] o; discriminate|].
  destruct (all_or_some (s_tasks x)) as [Hall|(t & k & Hin & He)].
  - destruct IH as [IH|(n & s & t & k & G & X)]; [intros n; apply (N (S n))| |right; exists (S n), s, t, k; auto].
    left. intros [|n] s G; [injection G as <-; intros t k K; eapply Hall, in_assoc, K|eapply IH, G].
  - right. exists 0%nat, x, t, k. split; [reflexivity|]. split; [|exact He]. apply assoc_in; [|exact Hin].
    rewrite (proj2 (N 0%nat x eq_refl)). apply upto_nodup.
Qed.
Lemma wnever_stuck w : wreachable w -> wpast w -> wends w \/
  (exists a s t k, nth_error (w_apis w) a = Some s /\ get s t = Some k /\ ended (t_phase k) = false /\ xready s t) \/
  (exists n o, the_op w n = Some o /\ over o = false /\ op_ready w n).
Proof.
  intros R (P1 & P2). destruct (wreach_fresh w R) as (I & F & Re). destruct (wreach_all w R) as [AL AH AW AC AG].
  assert (X : forall a s t k, nth_error (w_apis w) a = Some s -> get s t = Some k -> ended (t_phase k) = false ->
    exists a s t k, nth_error (w_apis w) a = Some s /\ get s t = Some k /\ ended (t_phase k) = false /\ xready s t).
  { intros a s t k A K E. destruct (xnever_stuck s t k (wreach_winv w a s R A) (Re a s A) (P1 a s A) K E) as (t' & k' & K' & E' & H). exists a, s, t', k'. auto. }
  destruct (apis_or_some (w_apis w)) as [E1|(a & s & t & k & A & K & E)]; [intros n s A; apply (wreach_winv w n s R A)| |right; left; eapply X; eassumption].
  destruct (ops_or_some (w_ops w)) as [E2|(n & o & G & E)]; [left; split; [exact E1|exact E2]|]. fold (the_op w n) in G.
  assert (Y : forall n o, the_op w n = Some o -> (exists q a t, op_at o = OInside q a t) \/ (exists q u, op_at o = OSettling q u) ->
     (exists a s t k, nth_error (w_apis w) a = Some s /\ get s t = Some k /\ ended (t_phase k) = false /\ xready s t) \/
     (exists n o, the_op w n = Some o /\ over o = false /\ op_ready w n)).
  { intros m p Gm [(q & a & t & P)|(q & u & P)].
    - left. destruct (proj1 AH m p Gm) as [_ Hm]. rewrite P in Hm. destruct Hm as (k & (s & A & K) & _).
      eapply X; [exact A|exact K|]. eapply (F m p Gm); [exact P|exists s; auto].
    - right. exists m, p. split; [exact Gm|]. unfold over, op_ready. rewrite Gm, P. split; [reflexivity|eapply P2; eassumption]. }
  right. destruct (op_at o) as [|q|q a t|q u|r] eqn:P.
  - right. exists n, o. split; [exact G|]. split; [exact E|]. unfold op_ready. rewrite G, P. exact Logic.I.
  - assert (Q : (q < length (w_sems w))%nat) by (eapply (proj2 (proj1 (wreach_good w R))); [exact G|left; exact P]).
    destruct (nth_error (w_sems w) q) as [v|] eqn:V; [|apply nth_error_None in V; lia].
    destruct (Z_le_gt_dec v 0) as [Hv|Hv].
    + destruct (proj1 AC q v V) as (V0 & c & C1 & C2). destruct (proj1 (proj2 AC) q c C1) as (_ & p & ->). pose proof (concurrent_pos p) as Cp.
      assert (Hw : exists m b, In (m, q, b) (working (w_log w))).
      { assert (0 < with_slot q (w_log w)) as Hs by lia. unfold with_slot in Hs. destruct (filter _ (working (w_log w))) as [|[[m q'] b] r] eqn:Fl; [cbn in Hs; lia|].
        assert (Z : In (m, q', b) ((m, q', b) :: r)) by (left; reflexivity). rewrite <- Fl in Z. apply filter_In in Z. destruct Z as [Z1 Z2]. apply Nat.eqb_eq in Z2. cbn in Z2. subst q'. eauto. }
      destruct Hw as (m & b & Hw). destruct (proj1 (proj2 AW) m q b Hw) as (p' & Gm & [(t & Pm)|(u & Pm)]); apply (Y m p' Gm); eauto.
    + right. exists n, o. split; [exact G|]. split; [exact E|]. unfold op_ready. rewrite G, P. exists v. split; [exact V|lia].
  - apply (Y n o G). eauto.
  - apply (Y n o G). eauto.
  - unfold over in E. rewrite P in E. discriminate.
Qed.

(** ** all API objects, over time *)
Lemma ext_run w es : wreachable w -> ext w (world_run es w).
Proof.
  revert w. induction es as [|e es IH]; intros w R; [apply ext_refl; reflexivity|]. change (world_run (e :: es) w) with (world_run es (world_step e w)).
  eapply ext_trans; [|apply IH, (wreach_run w [e] R)].
  assert (X : forall w w', wprims w w' -> Good w -> Linked w -> ext w w').
  { induction 1 as [v|v1 v2 v3 H Hs IHs]; intros G L; [apply ext_refl; reflexivity|].
    eapply ext_trans; [apply ext_p; eassumption|apply IHs; [eapply good_p; eassumption|eapply linked_p; eassumption]]. }
  apply X; [apply world_step_p, wreach_good, R|apply wreach_good, R|apply wreach_linked, R].
Qed.
Lemma every_api (Q : st -> Prop) : (forall s s', xprims s s' -> Winv s -> Q s -> Q s') -> (forall x now, Q (flags x (new_api now))) ->
  forall w, wreachable w -> forall a s, nth_error (w_apis w) a = Some s -> Q s.
Proof.
  intros Q0 Q1. apply (wreach_ind (fun w => forall a s, nth_error (w_apis w) a = Some s -> Q s)); [intros devs [|a] s; discriminate|].
  intros w w' G H A a0 s0. pose proof (proj2 (proj2 G)) as V.
  destruct H; unfold life_event_happens, got_version in *; wfld; try apply A; try rewrite nth_set.
  - destruct (Nat.eqb_spec a0 a) as [->|]; [|apply A]. rewrite H. intros [= <-]. eapply Q0; [eassumption|eapply V; eassumption|eapply A; eassumption].
  - rewrite nth_map. destruct (nth_error (w_apis w) a0) as [s|] eqn:E; [|discriminate]. intros [= <-]. eapply Q0; [apply tick_x, H|eapply V; eassumption|eapply A; eassumption].
  - rewrite sync_nth. destruct (nth_error (y_apis _) a0) as [x|]; [|discriminate]. intros [= <-].
    destruct (nth_error (w_apis w) a0) as [s|] eqn:E; [|apply Q1].
    eapply (Q0 s); [unfold flags; eapply xprims_cons; [apply X_open|]; apply xprims_one, X_app|eapply V; eassumption|eapply A; eassumption].
  - destruct (Nat.eqb_spec a0 a) as [->|]; [|apply A]. rewrite H4. intros [= <-]. eapply Q0; [apply xprims_one, X_wait|eapply V; eassumption|eapply A; eassumption].
  - destruct (Nat.eqb_spec a0 a) as [->|]; [|apply A]. rewrite H5. intros [= <-]. eapply Q0; [apply call_raw_x, (V _ _ H5)|eapply V; eassumption|eapply A; eassumption].
Qed.
Lemma wreach_pend w a s : wreachable w -> nth_error (w_apis w) a = Some s -> Pend s.
Proof.
  intro R. revert a s. apply (every_api Pend); [exact pend_xs| |exact R]. intros x now. split; [constructor|]. split; [|reflexivity].
  intro t. split; [intros []|intros (k & C & _); discriminate C].
Qed.
Lemma wreach_calls w a s : wreachable w -> nth_error (w_apis w) a = Some s -> s_ntid s = calls (s_log s).
Proof.
  intro R. revert a s. apply (every_api (fun s => s_ntid s = calls (s_log s))); [|reflexivity|exact R].
  intros s s' H _ E. pose proof (calls_xs _ _ H). lia.
Qed.
Lemma now_run w es : wreachable w -> w_now w + passing es <= w_now (world_run es w).
Proof.
  revert w. induction es as [|e es IH]; intros w R; [cbn; lia|]. change (world_run (e :: es) w) with (world_run es (world_step e w)).
  specialize (IH _ (wreach_run w [e] R)). change (world_run [e] w) with (world_step e w) in IH.
  assert (M : w_now w <= w_now (world_step e w)).
  { assert (X : forall w w', wprims w w' -> w_now w <= w_now w').
    { induction 1 as [v|v1 v2 v3 H Hs IHs]; [lia|]. enough (w_now v1 <= w_now v2) by lia. destruct H; unfold life_event_happens, got_version; wfld; lia. }
    apply X, world_step_p, wreach_good, R. }
  destruct e; cbn [passing fold_right]; fold (passing es); try lia.
  cbn [world_step] in *. destruct (Z.leb_spec 0 ms); wfldin IH; lia.
Qed.
Lemma api_now w a s : wreachable w -> nth_error (w_apis w) a = Some s -> s_now s = w_now w.
Proof.
  intros R A. destruct (wreach_linked w R) as (_ & L2 & L3).
  destruct (nth_error (y_apis (w_life w)) a) as [x|] eqn:X; [|apply nth_lt in A; apply nth_error_None in X; lia].
  specialize (L3 a x s X A). unfold face in L3. congruence.
Qed.

(** ** a round *)
Definition all_waits (T : Z) (w : world) : Prop := forall a s, nth_error (w_apis w) a = Some s -> waits_at_most T s.
Lemma all_waits_before T w es : wreachable w -> all_waits T (world_run es w) -> all_waits T w.
Proof.
  intros R H a s A t k m to G J. destruct (ext_run w es R a s A) as (s' & A' & X).
  assert (Y : forall s s', xprims s s' -> same_job s s').
  { induction 1 as [v|v1 v2 v3 Hx Hs IHs]; [intros u x Gu; eauto|]. intros u x Gu. destruct (job_x _ _ Hx u x Gu) as (x1 & G1 & E1). destruct (IHs u x1 G1) as (x2 & G2 & E2). exists x2. split; [exact G2|congruence]. }
  destruct (Y s s' X t k G) as (k' & G' & E). apply (H a s' A' t k' m to G'). congruence.
Qed.
Lemma is_unfinished w n : wreachable w -> In n (unfinished_ops (w_log w)) <-> exists o, the_op w n = Some o /\ over o = false.
Proof.
  intro R. destruct (wreach_all w R) as [AL AH AW AC AG]. unfold unfinished_ops. rewrite filter_In, (G_called _ AG), in_seq.
  assert (E : existsb (Nat.eqb n) (ended_ops (w_log w)) = true <-> exists r, In (WEnded n r) (w_log w)).
  { rewrite existsb_exists, <- in_ended. split; [intros (m & Hm & E); apply Nat.eqb_eq in E as ->; exact Hm|intro H; exists n; split; [exact H|apply Nat.eqb_refl]]. }
  split.
  - intros [Hn Hf]. destruct (the_op w n) as [o|] eqn:G; [|unfold the_op in G; apply nth_error_None in G; lia].
    exists o. split; [reflexivity|]. unfold over. destruct (op_at o) eqn:P; try reflexivity. destruct (proj1 AH n o G) as [_ Hr]. rewrite P in Hr.
    rewrite (proj2 E) in Hf; [discriminate|exists r; apply Hr].
  - intros (o & G & F). split; [unfold the_op in G; apply nth_lt in G; lia|]. destruct (existsb (Nat.eqb n) (ended_ops (w_log w))); [|reflexivity].
    destruct (proj1 E eq_refl) as [r Hr]. destruct (proj2 AH n r Hr) as (o' & G' & P). rewrite G in G'. injection G' as <-. unfold over in F. rewrite P in F. discriminate.
Qed.
Lemma wserving_lowers w T es : wreachable w -> 30000 <= T -> all_waits T w -> wserving T w es -> wends w \/ wlevel (world_run es w) < wlevel w.
Proof.
  intros R HT Hw (a & b & -> & Hel & Ho & Ht). rewrite wrun_app. pose proof (wreach_run w a R) as Ra.
  destruct (wrun_alike b _ Ra) as [Lb|[Lb _]]; destruct (wrun_alike a w R) as [La|[La Aa]]; try (right; lia).
  set (w1 := world_step (VTick T) w). assert (R1 : wreachable w1) by apply (wreach_run w [VTick T] R).
  assert (E1 : w1 = set_wnow (w_now w + T) (set_apis (map (fun s => set_now (s_now s + T) s) (w_apis w)) w))
    by (unfold w1; cbn [world_step]; replace (0 <=? T) with true by lia; reflexivity).
  assert (P : wpast w1).
  { split.
    - intros c s1 A t k G. rewrite E1 in A. wfldin A. rewrite nth_map in A. destruct (nth_error (w_apis w) c) as [s|] eqn:B; [|discriminate A]. injection A as <-.
      change (get s t = Some k) in G. fld. pose proof (V_due _ (wreach_winv w c s R B) t k G) as D.
      destruct (t_phase k); try exact I; try lia. destruct D as (m & to & Hj & D). specialize (Hw c s B t k m to G Hj). lia.
    - intros n o q u G Pn. rewrite E1 in G |- *. change (the_op w n = Some o) in G. wfld.
      destruct (wreach_all w R) as [_ AH _ _ _]. destruct (proj1 AH n o G) as [_ Hn]. rewrite Pn in Hn. lia. }
  pose proof (now_run w a R) as Hnow.
  assert (A1 : walike w1 (world_run a w)).
  { destruct Aa as (X1 & X2 & X3 & X4). rewrite E1. split; [|split; [exact X2|split; [exact X3|wfld; lia]]].
    intros c s1 A. wfldin A. rewrite nth_map in A. destruct (nth_error (w_apis w) c) as [s|] eqn:B; [|discriminate A]. injection A as <-.
    destruct (X1 c s B) as (s' & B' & (Y1 & Y2 & Y3 & Y4 & Y5 & Y6)). exists s'. split; [exact B'|]. repeat split; auto. fld.
    rewrite (api_now w c s R B), (api_now _ c s' Ra B'). lia. }
  destruct (wnever_stuck w1 R1 P) as [[E E']|[(c & s1 & t & k & A & G & He & H)|(n & o & G & He & H)]].
  - left. split; [|intros n o G; apply (E' n o); rewrite E1; exact G].
    intros c s B t k G. apply (E c (set_now (s_now s + T) s)) with (t := t); [|exact G]. rewrite E1. wfld. rewrite nth_map, B. reflexivity.
  - right. assert (A' := A). rewrite E1 in A'. wfldin A'. rewrite nth_map in A'. destruct (nth_error (w_apis w) c) as [s|] eqn:B; [|discriminate A']. injection A' as <-.
    assert (Hin : In t (pending (s_log s))) by (apply (wreach_pend w c s R B); exists k; auto).
    pose proof (wturn_lowers _ c t b Ra (Ht c s t B Hin) (api_ready_alike _ _ c t Ra A1 (ex_intro _ _ (conj A H)))). lia.
  - right. assert (Hin : In n (unfinished_ops (w_log w))) by (apply is_unfinished; [exact R|]; exists o; split; [rewrite E1 in G; exact G|exact He]).
    pose proof (op_turn_lowers _ n b Ra (Ho n Hin) (op_ready_alike _ _ n A1 H)). lia.
Qed.

(** ** several rounds *)
Definition wwork (w : world) : Z := zsum work (w_apis w) + zsum oweight (w_ops w).
Definition ntids (w : world) : Z := zsum s_ntid (w_apis w).
Lemma zsum_level l : zsum level l = zsum work l - 7 * zsum s_ntid l.
Proof. induction l as [|s l IH]; cbn [zsum]; [reflexivity|]. unfold level at 1. lia. Qed.
Lemma zsum_nonneg {A} (f : A -> Z) l : (forall x, 0 <= f x) -> 0 <= zsum f l.
Proof. intro H. induction l as [|x l IH]; cbn [zsum]; [lia|]. specialize (H x). lia. Qed.
Lemma zsum_zero {A} (f : A -> Z) l : (forall x, 0 <= f x) -> zsum f l <= 0 -> forall n x, nth_error l n = Some x -> f x <= 0.
Proof.
  intro H. induction l as [|y l IH]; intros Hs [|n] x G; cbn [zsum nth_error] in *; try discriminate;
    pose proof (zsum_nonneg f l H); [injection G as <-; lia|]. apply (IH ltac:(specialize (H y); lia) n x G).
Qed.
Lemma oweight_nonneg o : 0 <= oweight o.
Proof. unfold oweight. destruct (op_at o); cbn; lia. Qed.
Lemma no_wwork w : wwork w <= 0 -> wends w.
Proof.
  unfold wwork. intro H. pose proof (zsum_nonneg work (w_apis w) work_nonneg). pose proof (zsum_nonneg oweight (w_ops w) oweight_nonneg). split.
  - intros a s A. apply no_work. eapply (zsum_zero work); [exact work_nonneg| |exact A]. lia.
  - intros n o G. assert (X : oweight o <= 0) by (eapply (zsum_zero oweight); [exact oweight_nonneg| |exact G]; lia).
    unfold oweight in X. unfold over. destruct (op_at o); cbn in X; try lia; reflexivity.
Qed.
Definition others_called (w : world) : Z := ntids w - Z.of_nat (length (admitted_ops (w_log w))).
Lemma wlevel_wwork w : wlevel w = wwork w - 9 * Z.of_nat (length (w_ops w)) - 7 * others_called w.
Proof. unfold wlevel, wwork, others_called, ntids. rewrite zsum_level. lia. Qed.
Lemma wrounds_reach_end T rs : forall w, wreachable w -> 30000 <= T -> all_waits T (world_run (concat rs) w) -> wserving_rounds T w rs ->
  let e := world_run (concat rs) w in
  wwork w + 9 * (Z.of_nat (length (w_ops e)) - Z.of_nat (length (w_ops w))) + 7 * (others_called e - others_called w) <= Z.of_nat (length rs) ->
  exists r1 r2, rs = r1 ++ r2 /\ wends (world_run (concat r1) w).
Proof.
  induction rs as [|r rs IH]; intros w R HT Hw HF e Hlen; subst e.
  - exists [], []. split; [reflexivity|]. cbn [concat world_run fold_left length] in *. apply no_wwork. lia.
  - cbn [wserving_rounds] in HF. destruct HF as [H1 H2]. cbn [concat] in *. rewrite wrun_app in Hw, Hlen.
    pose proof (wreach_run w r R) as R1.
    pose proof (all_waits_before T _ _ R1 Hw) as Hw1. pose proof (all_waits_before T _ _ R Hw1) as Hw0.
    destruct (wserving_lowers w T r R HT Hw0 H1) as [E|L].
    + exists [], (r :: rs). split; [reflexivity|exact E].
    + destruct (IH (world_run r w) R1 HT Hw H2) as (r1 & r2 & E & En).
      * rewrite !wlevel_wwork in L. cbn [length] in Hlen. lia.
      * exists (r :: r1), r2. split; [rewrite E; reflexivity|]. cbn [concat]. rewrite wrun_app. exact En.
Qed.

(** ** as the log tells it *)
Lemma wends_over w : wreachable w -> wends w -> all_over w.
Proof.
  intros R (E1 & E2). split.
  - destruct (unfinished_ops (w_log w)) as [|n l] eqn:E; [reflexivity|]. exfalso.
    assert (H : In n (unfinished_ops (w_log w))) by (rewrite E; left; reflexivity). apply is_unfinished in H; [|exact R]. destruct H as (o & G & F).
    rewrite (E2 n o G) in F. discriminate.
  - intros a s A. destruct (wreach_pend w a s R A) as (_ & Hi & _). destruct (pending (s_log s)) as [|t l]; [reflexivity|]. exfalso.
    destruct (proj1 (Hi t) (or_introl eq_refl)) as (k & G & He). specialize (E1 a s A t k G). congruence.
Qed.
Lemma work_waiting w : wreachable w -> zsum work (w_apis w) <= 7 * waiting_tasks w.
Proof.
  intro R. unfold waiting_tasks. assert (H : forall a s, nth_error (w_apis w) a = Some s -> Pend s) by (intros a s; apply wreach_pend, R).
  clear R. induction (w_apis w) as [|s l IH]; cbn [zsum fold_right]; [lia|]. specialize (IH (fun a => H (S a))).
  destruct (H 0%nat s eq_refl) as (_ & _ & E). enough (work s <= 7 * Z.of_nat (length (pending (s_log s)))) by lia. rewrite <- E. unfold work. clear.
  induction (s_tasks s) as [|[t k] ts IH]; cbn [total]; [lia|].
  assert (wt k <= 7 * open_ k) by (unfold wt, open_; destruct (t_phase k); cbn; lia). lia.
Qed.
Lemma oweight_bound (f : nat -> bool) l : forall k, (forall n o, nth_error l n = Some o -> over o = false -> f (k + n)%nat = true) ->
  zsum oweight l <= 9 * Z.of_nat (length (filter f (seq k (length l)))).
Proof.
  induction l as [|o l IH]; intros k H; cbn [zsum length seq filter]; [cbn; lia|].
  assert (H' : forall n p, nth_error l n = Some p -> over p = false -> f (S k + n)%nat = true) by (intros n p G F; rewrite Nat.add_succ_comm; apply (H (S n) p G F)).
  specialize (IH (S k) H'). pose proof (H 0%nat o eq_refl) as H0. rewrite Nat.add_0_r in H0.
  destruct (over o) eqn:E.
  - assert (X : oweight o = 0) by (unfold over in E; unfold oweight; destruct (op_at o); try discriminate; reflexivity).
    destruct (f k); cbn [length]; lia.
  - rewrite (H0 eq_refl). cbn [length]. assert (X : oweight o <= 9) by (unfold oweight; destruct (op_at o); cbn; lia). lia.
Qed.
Lemma ops_unfinished w : wreachable w -> zsum oweight (w_ops w) <= 9 * Z.of_nat (length (unfinished_ops (w_log w))).
Proof.
  intro R. pose proof (fun n => is_unfinished w n R) as U. destruct (wreach_all w R) as [_ _ _ _ AG]. unfold unfinished_ops in *. rewrite (G_called _ AG) in *.
  apply oweight_bound. intros n o G F. pose proof (proj2 (U n) (ex_intro _ o (conj G F))) as H. apply filter_In in H. apply H.
Qed.
Lemma other_calls_ntid w : wreachable w -> other_calls w = others_called w.
Proof.
  intro R. unfold other_calls, others_called, ntids. f_equal.
  assert (H : forall a s, nth_error (w_apis w) a = Some s -> s_ntid s = calls (s_log s)) by (intros a s; apply wreach_calls, R). clear R.
  induction (w_apis w) as [|s l IH]; cbn [zsum fold_right]; [reflexivity|]. rewrite (IH (fun a => H (S a))), (H 0%nat s eq_refl). reflexivity.
Qed.
Lemma called_ops_length w : wreachable w -> length (called_ops (w_log w)) = length (w_ops w).
Proof. intro R. destruct (wreach_all w R) as [_ _ _ _ AG]. rewrite (G_called _ AG). apply seq_length. Qed.
Lemma world_comes_to_an_end T w rs : wreachable w -> 30000 <= T ->
  (forall a s t k m to, nth_error (w_apis (world_run (concat rs) w)) a = Some s -> get s t = Some k -> t_job k = JWaitFor m to -> to <= T) ->
  wserving_rounds T w rs ->
  let e := world_run (concat rs) w in
  9 * (Z.of_nat (length (unfinished_ops (w_log w))) + (Z.of_nat (length (called_ops (w_log e))) - Z.of_nat (length (called_ops (w_log w)))))
    + 7 * (waiting_tasks w + (other_calls e - other_calls w)) <= Z.of_nat (length rs) ->
  (exists r1 r2, rs = r1 ++ r2 /\ all_over (world_run (concat r1) w)) /\
  (forall n, In n (unfinished_ops (w_log w)) -> exists r, In (WEnded n r) (w_log e)) /\
  (forall a s t, nth_error (w_apis w) a = Some s -> In t (pending (s_log s)) -> exists s' r, nth_error (w_apis e) a = Some s' /\ In (OEnded t r) (s_log s')).
Proof.
  intros R HT Hw HF e Hlen. subst e. pose proof (wreach_run w (concat rs) R) as Re.
  rewrite !called_ops_length, !other_calls_ntid in Hlen by assumption.
  pose proof (work_waiting w R) as B1. pose proof (ops_unfinished w R) as B2.
  destruct (wrounds_reach_end T rs w R HT) as (r1 & r2 & -> & E); [intros a s A t k m to; apply (Hw a s t k m to A)|exact HF|unfold wwork; lia|].
  pose proof (wreach_run w (concat r1) R) as R1. set (w1 := world_run (concat r1) w) in *.
  split; [exists r1, r2; split; [reflexivity|apply wends_over; assumption]|]. rewrite concat_app, wrun_app. fold w1. split.
  - intros n Hn. apply is_unfinished in Hn; [|exact R]. destruct Hn as (o & G & _).
    assert (C : In n (called_ops (w_log w))) by (eapply is_called; [apply wreach_all, R|exact G]). apply in_called in C.
    destruct (log_run w (concat r1) R) as [l El]. fold w1 in El.
    assert (C1 : In n (called_ops (w_log w1))) by (apply in_called; rewrite El; apply in_or_app; left; exact C).
    assert (U : ~ In n (unfinished_ops (w_log w1))) by (rewrite (proj1 (wends_over w1 R1 E)); intros []).
    destruct (existsb (Nat.eqb n) (ended_ops (w_log w1))) eqn:X.
    + apply existsb_exists in X. destruct X as (m & Hm & Em). apply Nat.eqb_eq in Em. subst m. apply in_ended in Hm. destruct Hm as [r Hr].
      exists r. destruct (log_run w1 (concat r2) R1) as [l2 ->]. apply in_or_app. left. exact Hr.
    + exfalso. apply U. unfold unfinished_ops. apply filter_In. split; [exact C1|]. rewrite X. reflexivity.
  - intros a s t A Ht. destruct (ext_run w (concat r1) R a s A) as (s1 & A1 & X1). fold w1 in A1.
    destruct (ext_run w1 (concat r2) R1 a s1 A1) as (s2 & A2 & X2).
    destruct (wreach_pend w a s R A) as (_ & Hi & _). apply Hi in Ht. destruct Ht as (k & G & _). fold (get s t) in G.
    assert (Y : forall s s', xprims s s' -> forall k, get s t = Some k -> exists k', get s' t = Some k').
    { induction 1 as [v|v1 v2 v3 Hx Hs IHs]; intros x Gu; [eauto|]. destruct (job_x _ _ Hx t x Gu) as (x1 & G1 & _). eapply IHs, G1. }
    destruct (Y s s1 X1 k G) as (k1 & G1). pose proof (proj1 E a s1 A1 t k1 G1) as Ed. destruct (t_phase k1) eqn:Hp1; try discriminate Ed.
    exists s2, r. split; [exact A2|]. eapply grows_in; [apply log_xs, X2|].
    destruct (V_life _ (wreach_winv w1 a s1 R1 A1)) as [L _]. specialize (L t k1 G1). rewrite Hp1 in L.
    assert (H : In (OEnded t r) (trace t (s_log s1))).
    { destruct L as [->|[->|[(l0 & _ & ->)|(l0 & at_ & bs & _ & ->)]]]; [right; left; reflexivity|right|..]; apply in_or_app; right; cbn [In]; tauto. }
    apply filter_In in H. apply H.
Qed.
