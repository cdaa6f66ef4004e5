(** * WorldBase: every step of the world is a sequence of small transitions *)
From Coq Require Import ZifyBool ZifyNat.
From Verif Require Import Base Types Uart Buffalo CmdTable Zpi Api App Machine Life World SpecMachine SpecWorld
  MachineBase MachineInv MachineInv2 MachineInv3 MachineInv4 MachineInv5 DispatchProofs MachineProofs MachineProofs4 MachineProgress
  LifeProofs2 WorldInv WorldFace.

(** observations that concern neither operations nor semaphores *)
Definition plain (o : wobs) : bool :=
  match o with WEffect _ _ | WRaised _ _ | WAdded _ _ => true | _ => false end.
Definition with_obj (o : op) (obj : zpi) (x : option (nat * Z)) : op := mk_op (op_job o) (Some obj) x OBegin.
Definition moved (o : op) (p : op_place) : op := mk_op (op_job o) (op_obj o) (op_waiter o) p.
(** the task of an operation inside API object [a] *)
Definition task_of (w : world) (a : nat) (t : Z) (k : task) : Prop :=
  exists s, nth_error (w_apis w) a = Some s /\ get s t = Some k.
(** why an operation may end while it has a slot of [q] *)
Definition may_leave (w : world) (o : op) (q : nat) (r : outcome) : Prop :=
  (exists a t k x, op_at o = OInside q a t /\ task_of w a t k /\ t_phase k = PDone (ORet x) /\ settles (op_job o) = false /\
     r = outcome_of_result (op_job o) x) \/
  (exists a t k e, op_at o = OInside q a t /\ task_of w a t k /\ t_phase k = PDone (OExn e) /\ r = outcome_of_exn (op_job o) e) \/
  (exists a t k c, op_at o = OInside q a t /\ task_of w a t k /\ t_phase k = PDone (OStatus c) /\ r = OStatus c) \/
  (exists u, op_at o = OSettling q u /\ u <= w_now w /\ r = outcome_of_result (op_job o) None) \/
  (exists u, op_at o = OSettling q u /\ r = OExn CancelledError).
(** why an operation may end without a slot *)
Definition may_fail (w : world) (o : op) (e : exn) : Prop :=
  (op_at o = OBegin /\ build (op_job o) = Err e) \/
  (op_at o = OBegin /\ e = AttributeError /\ (w_sem w = None \/ y_cur (w_life w) = None)) \/
  (op_at o = OBegin /\ exists obj sq, build (op_job o) = Ok obj /\ wants_waiter (op_job o) = Some sq /\ create_response_waiter obj (Some sq) = Err e) \/
  ((exists q, op_at o = OSlot q) /\ e = AttributeError /\ y_cur (w_life w) = None) \/
  ((op_at o = OBegin \/ exists q, op_at o = OSlot q) /\ e = CancelledError).

Inductive wprim : world -> world -> Prop :=
| T_api w a s s' : nth_error (w_apis w) a = Some s -> xprims s s' -> face s' = face s -> shut s s' -> wprim w (set_apis (set_nth a s' (w_apis w)) w)
| T_tick w ms : 0 <= ms -> wprim w (set_wnow (w_now w + ms) (set_apis (map (fun s => set_now (s_now s + ms) s) (w_apis w)) w))
| T_life w e : wprim w (life_event_happens e w)
| T_note w o : plain o = true -> wprim w (wnote o w)
| T_devs w d : wprim w (set_wdevs d w)
| T_version w p : wprim w (got_version p w)
| T_call w j : uses_sem j = true ->
    wprim w (wnote (WCalled (length (w_ops w))) (set_ops (w_ops w ++ [mk_op j None None OBegin]) w))
| T_prepare w n o obj : the_op w n = Some o -> op_at o = OBegin -> build (op_job o) = Ok obj ->
    (wants_waiter (op_job o) = None \/ exists sq, wants_waiter (op_job o) = Some sq /\ create_response_waiter obj (Some sq) = Ok None) ->
    wprim w (put_op n (with_obj o obj None) w)
| T_waiter w n o obj a s m q sq : the_op w n = Some o -> op_at o = OBegin -> build (op_job o) = Ok obj ->
    wants_waiter (op_job o) = Some sq -> y_cur (w_life w) = Some a -> nth_error (w_apis w) a = Some s ->
    create_response_waiter obj (Some sq) = Ok (Some (m, q)) ->
    wprim w (put_op n (with_obj o obj (Some (a, s_next s)))
      (wnote (WWaiter n a (s_next s)) (set_apis (set_nth a (wait_for m Timeouts_default q s) (w_apis w)) w)))
| T_slot w n o obj q v : the_op w n = Some o -> op_at o = OBegin -> op_obj o = Some obj -> w_sem w = Some q ->
    nth_error (w_sems w) q = Some v -> v <= 0 -> wprim w (put_op n (moved o (OSlot q)) w)
| T_admit w n o obj q v a s : the_op w n = Some o -> op_obj o = Some obj ->
    (op_at o = OBegin /\ w_sem w = Some q \/ op_at o = OSlot q) -> nth_error (w_sems w) q = Some v -> 0 < v ->
    y_cur (w_life w) = Some a -> nth_error (w_apis w) a = Some s ->
    wprim w (put_op n (moved o (OInside q a (s_ntid s)))
      (set_apis (set_nth a (call_raw obj (option_map snd (op_waiter o)) s) (w_apis w))
        (wnote (WAdmitted n q a) (set_sems (set_nth q (v - 1) (w_sems w)) w))))
| T_fail w n o e : the_op w n = Some o -> may_fail w o e ->
    wprim w (wnote (WEnded n (OExn e)) (put_op n (moved o (OOver (OExn e))) w))
| T_settle w n o q a t k x : the_op w n = Some o -> op_at o = OInside q a t -> task_of w a t k ->
    t_phase k = PDone (ORet x) -> settles (op_job o) = true ->
    wprim w (put_op n (moved o (OSettling q (w_now w + 200))) w)
| T_leave w n o q v r : the_op w n = Some o -> may_leave w o q r -> nth_error (w_sems w) q = Some v ->
    wprim w (wnote (WEnded n r) (put_op n (moved o (OOver r)) (set_sems (set_nth q (v + 1) (w_sems w)) w))).
Inductive wprims : world -> world -> Prop :=
| wprims_nil w : wprims w w
| wprims_cons w1 w2 w3 : wprim w1 w2 -> wprims w2 w3 -> wprims w1 w3.
Lemma wprims_one w w' : wprim w w' -> wprims w w'.
Proof. intro H. econstructor; [exact H|constructor]. Qed.
Lemma wprims_app a b c : wprims a b -> wprims b c -> wprims a c.
Proof. induction 1; [auto|]. intro. econstructor; eauto. Qed.
Lemma wprims_inv (P : world -> Prop) : (forall w w', wprim w w' -> P w -> P w') -> forall w w', wprims w w' -> P w -> P w'.
Proof. intros H w w'. induction 1; eauto. Qed.

(** ** the pieces *)
Ltac wfld := cbn [w_life w_apis w_sems w_sem w_version w_devs w_ops w_now w_log set_life set_apis set_sems set_wsem set_wversion
  set_wdevs set_ops set_wnow wnote put_op op_job op_obj op_waiter op_at moved with_obj].
Ltac wfldin H := cbn [w_life w_apis w_sems w_sem w_version w_devs w_ops w_now w_log set_life set_apis set_sems set_wsem set_wversion
  set_wdevs set_ops set_wnow wnote put_op op_job op_obj op_waiter op_at moved with_obj] in H.

Lemma on_api_p w a f : (forall s, nth_error (w_apis w) a = Some s -> xprims s (f s) /\ face (f s) = face s /\ shut s (f s)) -> wprims w (on_api a f w).
Proof.
  intro H. unfold on_api. destruct (nth_error (w_apis w) a) as [s|] eqn:E; [|constructor]. apply wprims_one. destruct (H s eq_refl) as (? & ? & ?). eapply T_api; eassumption.
Qed.
Lemma set_same {A} (l : list A) n x : nth_error l n = Some x -> set_nth n x l = l.
Proof. revert n. induction l as [|y l IH]; intros [|n] H; cbn [nth_error set_nth] in *; try discriminate; [injection H as <-; reflexivity|]. rewrite IH by exact H. reflexivity. Qed.
Lemma set_set {A} (l : list A) n x y : set_nth n x (set_nth n y l) = set_nth n x l.
Proof. revert n. induction l as [|z l IH]; intros [|n]; cbn [set_nth]; try reflexivity. rewrite IH. reflexivity. Qed.
Lemma op_fail_p w n o e : the_op w n = Some o -> may_fail w o e -> wprims w (op_end n (OExn e) w).
Proof. intros G H. unfold op_end, op_goto. rewrite G. apply wprims_one. eapply T_fail; eassumption. Qed.

(** what the slot of an operation refers to exists *)
Definition Slots (w : world) : Prop :=
  (forall q, w_sem w = Some q -> (q < length (w_sems w))%nat) /\
  forall n o q, the_op w n = Some o -> op_at o = OSlot q \/ (exists a t, op_at o = OInside q a t) \/ (exists u, op_at o = OSettling q u) -> (q < length (w_sems w))%nat.
Lemma the_op_put w n o m : the_op (put_op n o w) m = if Nat.eqb n m then (match the_op w n with Some _ => Some o | None => None end) else the_op w m.
Proof.
  unfold the_op, put_op. wfld. rewrite nth_set, (Nat.eqb_sym m n). reflexivity.
Qed.
Lemma slots_p w w' : wprim w w' -> Slots w -> Slots w'.
Proof.
  intros H [S0 S]. destruct H; unfold Slots, life_event_happens, got_version in *; wfld; try (split; [exact S0|exact S]); try rewrite len_set.
  - rewrite app_length. cbn [length]. split; [intros q [= <-]; lia|]. intros n o q G Hq. specialize (S n o q G Hq). lia.
  - split; [exact S0|]. intros n o q. unfold the_op. wfld. rewrite nth_snoc. destruct (Nat.eqb n (length (w_ops w))); [|apply S].
    intros [= <-]. wfld. intros [E|[(a & t & E)|(u & E)]]; discriminate.
  - split; [exact S0|]. intros m p q G. rewrite the_op_put, H in G. destruct (Nat.eqb_spec n m) as [->|]; [|apply (S _ _ _ G)].
    injection G as <-. wfld. intros [E|[(a & t & E)|(u & E)]]; discriminate.
  - split; [exact S0|]. intros m' p q' G. rewrite the_op_put in G. unfold the_op in G. wfldin G. unfold the_op in H. rewrite H in G. destruct (Nat.eqb_spec n m') as [->|]; [|apply (S _ _ _ G)].
    injection G as <-. wfld. intros [E|[(x & t & E)|(u & E)]]; discriminate.
  - split; [exact S0|]. intros m p q' G. rewrite the_op_put, H in G. destruct (Nat.eqb_spec n m) as [->|]; [|apply (S _ _ _ G)].
    injection G as <-. wfld. intros [[= <-]|[(a & t & E)|(u & E)]]; try discriminate. apply S0, H2.
  - split; [exact S0|]. intros m p q' G. rewrite the_op_put in G. unfold the_op in G. wfldin G. unfold the_op in H. rewrite H in G. destruct (Nat.eqb_spec n m) as [->|]; [|apply (S _ _ _ G)].
    injection G as <-. wfld. intros [E|[(x & t & [= -> _ _])|(u & E)]]; try discriminate. eapply nth_lt; eassumption.
  - split; [exact S0|]. intros m p q' G. change (the_op (put_op n (moved o (OOver (OExn e))) w) m = Some p) in G. rewrite the_op_put, H in G. destruct (Nat.eqb_spec n m) as [->|]; [|apply (S _ _ _ G)].
    injection G as <-. wfld. intros [E|[(x & t & E)|(u & E)]]; discriminate.
  - split; [exact S0|]. intros m p q' G. rewrite the_op_put, H in G. destruct (Nat.eqb_spec n m) as [->|]; [|apply (S _ _ _ G)].
    injection G as <-. wfld. intros [E|[(x' & t' & E)|(u & [= -> _])]]; try discriminate. apply (S _ _ q' H). right. left. eauto.
  - split; [exact S0|]. intros m p q' G. change (the_op (put_op n (moved o (OOver r)) w) m = Some p) in G. rewrite the_op_put, H in G. destruct (Nat.eqb_spec n m) as [->|]; [|apply (S _ _ _ G)].
    injection G as <-. wfld. intros [E|[(x & t & E)|(u & E)]]; discriminate.
Qed.

(** ** API objects keep their invariant *)
Definition Apis (w : world) : Prop := forall a s, nth_error (w_apis w) a = Some s -> Winv s.
Lemma winv_flags x s : Winv s -> Winv (flags x s).
Proof. intro H. unfold flags. eapply winv_x; [apply X_app|]. eapply winv_x; [apply X_open|]. exact H. Qed.
Lemma sync_nth now l : forall ms a, nth_error (sync now l ms) a = match nth_error l a with
  | Some x => Some (flags x (match nth_error ms a with Some s => s | None => new_api now end)) | None => None end.
Proof.
  induction l as [|x l IH]; intros ms a; [destruct a; reflexivity|].
  destruct ms as [|s ms]; destruct a as [|a]; cbn [sync nth_error]; try reflexivity; rewrite IH; [destruct a|]; reflexivity.
Qed.
Lemma tick_x s ms : 0 <= ms -> xprims s (set_now (s_now s + ms) s).
Proof. intro H. apply prims_x; [apply prims_one; constructor; exact H|reflexivity]. Qed.
Lemma nth_map {A B} (f : A -> B) l n : nth_error (map f l) n = option_map f (nth_error l n).
Proof. apply nth_error_map. Qed.
Lemma apis_p w w' : wprim w w' -> Apis w -> Apis w'.
Proof.
  intros H A a0 s0. destruct H; unfold life_event_happens, got_version in *; wfld; try apply A; try rewrite nth_set.
  - destruct (Nat.eqb_spec a0 a) as [->|]; [|apply A]. rewrite H. intros [= <-]. eapply winv_xs; [eassumption|]. eapply A; eassumption.
  - rewrite nth_map. destruct (nth_error (w_apis w) a0) as [s|] eqn:E; [|discriminate]. intros [= <-]. eapply winv_xs; [apply tick_x, H|]. eapply A; eassumption.
  - rewrite sync_nth. destruct (nth_error (y_apis _) a0); [|discriminate]. intros [= <-]. apply winv_flags.
    destruct (nth_error (w_apis w) a0) as [s|] eqn:E; [eapply A; eassumption|apply winv_new].
  - destruct (Nat.eqb_spec a0 a) as [->|]; [|apply A]. rewrite H4. intros [= <-]. eapply winv_x; [apply X_wait|]. eapply A; eassumption.
  - destruct (Nat.eqb_spec a0 a) as [->|]; [|apply A]. rewrite H5. intros [= <-]. eapply winv_xs; [apply call_raw_x|]; [apply (A _ _ H5)|eapply A; eassumption].
Qed.

(** the object of an operation *)
Definition in_place (p : op_place) : Prop := match p with OBegin | OOver _ => False | _ => True end.
Definition Built1 (o : op) : Prop :=
  uses_sem (op_job o) = true /\ (forall obj, op_obj o = Some obj -> build (op_job o) = Ok obj) /\ (in_place (op_at o) -> op_obj o <> None).
Definition Built (w : world) : Prop := forall n o, the_op w n = Some o -> Built1 o.
Lemma built_p w w' : wprim w w' -> Built w -> Built w'.
Proof.
  intros H B m o'.
  assert (U : forall v n o x, the_op w n = Some o -> Built1 x -> v = put_op n x (set_ops (w_ops w) v) -> the_op v m = Some o' -> Built1 o').
  { intros v n o x G X -> E. rewrite the_op_put in E. unfold the_op in *. wfldin E. rewrite G in E. destruct (Nat.eqb n m); [congruence|apply (B _ _ E)]. }
  destruct H; unfold life_event_happens, got_version in *; try exact (B m o').
  - unfold the_op. wfld. rewrite nth_snoc. destruct (Nat.eqb m (length (w_ops w))); [|apply B]. intros [= <-]. split; [exact H|split; [discriminate|intros []]].
  - eapply U; [exact H| |reflexivity]. split; [apply (B _ _ H)|]. split; [intros x [= <-]; exact H1|]. intros [].
  - eapply U; [exact H| |reflexivity]. split; [apply (B _ _ H)|]. split; [intros x [= <-]; exact H1|]. intros [].
  - eapply U; [exact H| |reflexivity]. split; [apply (B _ _ H)|]. split; [apply (B _ _ H)|]. intros _. wfld. congruence.
  - eapply U; [exact H| |reflexivity]. split; [apply (B _ _ H)|]. split; [apply (B _ _ H)|]. intros _. wfld. congruence.
  - eapply U; [exact H| |reflexivity]. split; [apply (B _ _ H)|]. split; [apply (B _ _ H)|]. intros [].
  - eapply U; [exact H| |reflexivity]. split; [apply (B _ _ H)|]. split; [apply (B _ _ H)|]. intros _. apply (B _ _ H). rewrite H0. exact I.
  - eapply U; [exact H| |reflexivity]. split; [apply (B _ _ H)|]. split; [apply (B _ _ H)|]. intros [].
Qed.

Definition Good (w : world) : Prop := Slots w /\ Built w /\ Apis w.
Lemma good_p w w' : wprim w w' -> Good w -> Good w'.
Proof. intros H (G1 & G2 & G3). split; [eapply slots_p|split; [eapply built_p|eapply apis_p]]; eassumption. Qed.
Lemma good_ps w w' : wprims w w' -> Good w -> Good w'.
Proof. apply wprims_inv. apply good_p. Qed.
Lemma good_init devs : Good (world_init devs).
Proof.
  split; [split|split].
  - discriminate.
  - intros n o q G. unfold the_op in G. destruct n; discriminate.
  - intros n o G. unfold the_op in G. destruct n; discriminate.
  - intros a s G. destruct a; discriminate.
Qed.

(** ** decomposition *)
Lemma has_slot w q : (q < length (w_sems w))%nat -> exists v, nth_error (w_sems w) q = Some v.
Proof. intro H. destruct (nth_error (w_sems w) q) eqn:E; [eauto|]. apply nth_error_None in E. lia. Qed.
Lemma op_leave_p w n o q r : Slots w -> the_op w n = Some o -> may_leave w o q r -> wprims w (op_leave n q r w).
Proof.
  intros [_ S] G M.
  assert (Hq : (q < length (w_sems w))%nat).
  { apply (S n o q G). destruct M as [(a & t & k & x & M & _)|[(a & t & k & x & M & _)|[(a & t & k & x & M & _)|[(u & M & _)|(u & M & _)]]]]; eauto. }
  destruct (has_slot w q Hq) as [v Hv]. unfold op_leave, op_end, slot_change, op_goto. rewrite Hv. unfold the_op in *. wfld. rewrite G.
  apply wprims_one. eapply T_leave; eassumption.
Qed.
Lemma op_after_p w n : Slots w -> wprims w (op_after n w).
Proof.
  intro S. unfold op_after. destruct (the_op w n) as [o|] eqn:G; [|constructor]. destruct (op_at o) as [|q|q a t|q u|r] eqn:E; try constructor.
  destruct (nth_error (w_apis w) a) as [s|] eqn:A; [|constructor]. destruct (get s t) as [k|] eqn:K; [|constructor].
  assert (T : task_of w a t k) by (exists s; split; assumption).
  destruct (t_phase k) as [| | | | | | | | | |r] eqn:P; try constructor. destruct r as [x|c|e].
  - destruct (settles (op_job o)) eqn:Hs.
    + unfold op_goto. rewrite G. apply wprims_one. eapply T_settle; eassumption.
    + eapply op_leave_p; [exact S|exact G|]. left. exists a, t, k, x. auto.
  - eapply op_leave_p; [exact S|exact G|]. right. right. left. exists a, t, k, c. auto.
  - eapply op_leave_p; [exact S|exact G|]. right. left. exists a, t, k, e. auto.
Qed.
Lemma fold_p {A} (f : world -> A -> world) l : (forall w x, Good w -> wprims w (f w x)) -> forall w, Good w -> wprims w (fold_left f l w).
Proof.
  intro H. induction l as [|x l IH]; intros w G; [constructor|]. cbn [fold_left]. specialize (H w x G).
  eapply wprims_app; [exact H|]. apply IH. eapply good_ps; eassumption.
Qed.
Lemma ops_after_p w : Good w -> wprims w (ops_after w).
Proof. apply fold_p. intros v x G. apply op_after_p, G. Qed.
Lemma op_admitted_p w n o q v : Good w -> the_op w n = Some o -> op_obj o <> None ->
  (op_at o = OBegin /\ w_sem w = Some q \/ op_at o = OSlot q) -> nth_error (w_sems w) q = Some v -> 0 < v -> wprims w (op_admitted n q w).
Proof.
  intros G Ho Hob Hat Hq Hv. unfold op_admitted. rewrite Ho. destruct (y_cur (w_life w)) as [a|] eqn:C.
  2:{ eapply op_fail_p; [exact Ho|]. destruct Hat as [[Ha _]|Ha]; [right; left; auto|right; right; right; left; eauto]. }
  destruct (nth_error (w_apis w) a) as [s|] eqn:A; [|constructor]. destruct (op_obj o) as [obj|] eqn:B; [|constructor].
  assert (P : wprim w (op_goto n (OInside q a (s_ntid s))
          (on_api a (call_raw obj (option_map snd (op_waiter o))) (wnote (WAdmitted n q a) (slot_change q (-1) w))))).
  { unfold slot_change. rewrite Hq. unfold on_api. wfld. rewrite A. unfold op_goto, the_op in *. wfld. rewrite Ho. eapply T_admit; eassumption. }
  eapply wprims_cons; [exact P|]. apply op_after_p. eapply slots_p; [exact P|apply G].
Qed.
Lemma op_semaphore_p w n o : Good w -> the_op w n = Some o -> op_obj o <> None -> op_at o = OBegin -> wprims w (op_semaphore n w).
Proof.
  intros G Ho Hob Hat. unfold op_semaphore. destruct (w_sem w) as [q|] eqn:Q.
  - unfold op_acquire. destruct (nth_error (w_sems w) q) as [v|] eqn:V; [|constructor]. destruct (0 <? v) eqn:Hv.
    + eapply op_admitted_p; eauto. lia.
    + unfold op_goto. rewrite Ho. destruct (op_obj o) as [obj|] eqn:B; [|congruence]. apply wprims_one. rewrite <- B.
      eapply (T_slot w n o obj q v); try eassumption. lia.
  - eapply op_fail_p; [exact Ho|]. right. left. auto.
Qed.
Lemma op_begin_p w n o : Good w -> the_op w n = Some o -> op_at o = OBegin -> wprims w (op_begin n o w).
Proof.
  intros G Ho Hat. unfold op_begin. destruct (build (op_job o)) as [obj|e] eqn:B; [|eapply op_fail_p; [exact Ho|left; auto]].
  assert (N : forall x w1, wprim w w1 -> w1 = put_op n (with_obj o obj x) (set_ops (w_ops w) w1) -> wprims w (op_semaphore n w1)).
  { intros x w1 P E. eapply wprims_cons; [exact P|]. eapply (op_semaphore_p w1 n (with_obj o obj x)); try reflexivity; [eapply good_p; eassumption| |discriminate].
    rewrite E, the_op_put, Nat.eqb_refl. unfold the_op in *. wfld. rewrite Ho. reflexivity. }
  destruct (wants_waiter (op_job o)) as [sq|] eqn:W.
  - destruct (y_cur (w_life w)) as [a|] eqn:C; [|eapply op_fail_p; [exact Ho|right; left; auto]].
    destruct (nth_error (w_apis w) a) as [s|] eqn:A; [|constructor].
    destruct (create_response_waiter obj (Some sq)) as [[[m q]|]|e] eqn:R.
    + eapply N; [|unfold on_api; rewrite A; reflexivity]. unfold on_api. rewrite A. eapply T_waiter; eassumption.
    + eapply N; [|reflexivity]. eapply T_prepare; eauto.
    + eapply op_fail_p; [exact Ho|]. right. right. left. split; [exact Hat|]. exists obj, sq. auto.
  - eapply N; [|reflexivity]. eapply T_prepare; eauto.
Qed.
Lemma op_run_p w n : Good w -> wprims w (op_run n w).
Proof.
  intro G. unfold op_run. destruct (the_op w n) as [o|] eqn:Ho; [|constructor]. destruct (op_at o) as [|q|q a t|q u|r] eqn:E; try constructor.
  - apply op_begin_p; assumption.
  - destruct (nth_error (w_sems w) q) as [v|] eqn:V; [|constructor]. destruct (0 <? v) eqn:Hv; [|constructor].
    eapply op_admitted_p; eauto; [|lia]. apply (proj1 (proj2 G) _ _ Ho). rewrite E. exact I.
  - destruct (u <=? w_now w) eqn:Hu; [|constructor]. eapply op_leave_p; [apply G|exact Ho|]. right. right. right. left. exists u. repeat split; [exact E|lia].
Qed.
Lemma op_cancel_p w n : Good w -> wprims w (op_cancel n w).
Proof.
  intro G. unfold op_cancel. destruct (the_op w n) as [o|] eqn:Ho; [|constructor]. destruct (op_at o) as [|q|q a t|q u|r] eqn:E; try constructor.
  - eapply op_fail_p; [exact Ho|]. repeat right. auto.
  - eapply op_fail_p; [exact Ho|]. repeat right. eauto.
  - assert (P : wprims w (on_api a (Machine.cancel t) w)) by (apply on_api_p; intros; split; [apply cancel_x|split; [apply face_cancel|apply shut_prims, cancel_prims]]).
    eapply wprims_app; [exact P|]. apply op_after_p. eapply good_ps; eassumption.
  - eapply op_leave_p; [apply G|exact Ho|]. repeat right. eauto.
Qed.

(** receiving *)
Lemma world_effect_p w a e : wprims w (world_effect a w e).
Proof.
  unfold world_effect. eapply wprims_cons; [apply (T_note w (WEffect a e)); reflexivity|].
  destruct e; try constructor. destruct (y_cur _); [|constructor]. apply on_api_p. intros s _. split; [apply xprims_one, X_spawn; reflexivity|split; [reflexivity|apply shut_same; reflexivity]].
Qed.
Lemma effects_p a effs : forall w, wprims w (fold_left (world_effect a) effs w).
Proof. induction effs as [|e l IH]; intro w; [constructor|]. cbn [fold_left]. eapply wprims_app; [apply world_effect_p|apply IH]. Qed.
Lemma world_handle_p w a o : wprims w (fst (world_handle a o w)).
Proof.
  unfold world_handle. destruct (handle_znp (w_version w) (w_devs w) o) as [[devs effs] r]. cbn [fst].
  eapply wprims_cons; [apply T_devs|apply effects_p].
Qed.
Lemma ntid_dispatch o ws s : s_ntid (fst (fst (dispatch ws o s))) = s_ntid s.
Proof. destruct (dispatch_spec o ws s) as (pre & post & o' & r & _ & -> & _). cbn [fst]. rewrite completes_nf. reflexivity. Qed.
Lemma received_dispatch_x s f o : Winv s -> from_unpi_frame f = Ok o ->
  xprims s (fst (fst (dispatch (s_waiters (note (OReceived o) s)) o (note (OReceived o) s)))).
Proof.
  intros W F. eapply xprims_cons; [apply X_prim; [eapply P_received, F|reflexivity]|]. apply prims_x; [|apply ntid_dispatch].
  apply dispatch_prims; [apply recent_note| |auto]. apply increasing_nodup, (V_ids s W).
Qed.
Lemma world_received_p w a f : Good w -> wprims w (fst (world_received a w f)).
Proof.
  intros G. unfold world_received. destruct (nth_error (w_apis w) a) as [s|] eqn:A; [|constructor].
  destruct (from_unpi_frame f) as [o|e] eqn:F; [|constructor].
  pose proof (received_dispatch_x s f o (proj2 (proj2 G) _ _ A) F) as X. cbv zeta.
  pose proof (face_dispatch o (s_waiters (note (OReceived o) s)) (note (OReceived o) s)) as F1. change (face (note (OReceived o) s)) with (face s) in F1.
  assert (D1 : shut s (fst (fst (dispatch (s_waiters (note (OReceived o) s)) o (note (OReceived o) s))))).
  { destruct (dispatch_spec o (s_waiters (note (OReceived o) s)) (note (OReceived o) s)) as (pre & post & o' & r & _ & -> & _). cbn [fst]. rewrite completes_nf. apply shut_same; reflexivity. }
  destruct (dispatch (s_waiters (note (OReceived o) s)) o (note (OReceived o) s)) as [[s1 o1] r]. cbn [fst] in X, F1, D1.
  assert (P : wprims w (on_api a (fun _ => s1) w)). { apply on_api_p. intros s2 E. rewrite A in E. injection E as <-. split; [exact X|split; [exact F1|exact D1]]. }
  destruct r; [|exact P]. destruct (s_app s1); [|exact P]. eapply wprims_app; [exact P|apply world_handle_p].
Qed.
Lemma gw_received_p a data : forall b w, Good w -> wprims w (snd (fst (gw_data_received (world_received a) b w data))).
Proof.
  induction data as [|x data IH]; intros b w G; cbn [gw_data_received]; [constructor|].
  destruct (parser_write b x) as [b1 [[f|]|e]]; [|apply IH, G|constructor].
  pose proof (world_received_p w a f G) as P. destruct (world_received a w f) as [w1 [u|e]]; cbn [fst] in P; [|exact P].
  eapply wprims_app; [exact P|]. apply IH. eapply good_ps; eassumption.
Qed.
Lemma world_receive_p w a data : Good w -> wprims w (world_receive a data w).
Proof.
  intro G. unfold world_receive. destruct (nth_error (w_apis w) a) as [s|]; [|constructor].
  pose proof (gw_received_p a data (s_buf s) w G) as P. destruct (gw_data_received (world_received a) (s_buf s) w data) as [[b w1] r]. cbn [fst snd] in P.
  assert (Q : wprims w (on_api a (set_buf b) w1)).
  { eapply wprims_app; [exact P|]. apply on_api_p. intros s2 _. split; [apply xprims_one, X_prim; [apply P_buf|reflexivity]|split; [reflexivity|apply shut_same; reflexivity]]. }
  destruct r; [exact Q|]. eapply wprims_app; [exact Q|]. apply wprims_one, T_note. reflexivity.
Qed.
Lemma api_then_p w a f : (forall s, xprims s (f s) /\ face (f s) = face s /\ shut s (f s)) -> Good w -> wprims w (ops_after (on_api a f w)).
Proof.
  intros F G. assert (P : wprims w (on_api a f w)) by (apply on_api_p; intros; apply F).
  eapply wprims_app; [exact P|]. apply ops_after_p. eapply good_ps; eassumption.
Qed.
Lemma world_step_p e w : Good w -> wprims w (world_step e w).
Proof.
  intro G. destruct e; cbn [world_step].
  - destruct (uses_sem j) eqn:J; [|constructor]. apply wprims_one, T_call, J.
  - apply op_run_p, G.
  - apply op_cancel_p, G.
  - destruct (uses_sem j) eqn:J; [constructor|]. apply on_api_p. intros. split; [apply xprims_one, X_spawn, J|split; [reflexivity|apply shut_same; reflexivity]].
  - apply api_then_p; [|exact G]. intro. split; [apply resume_x|split; [apply face_resume|apply shut_prims, resume_prims]].
  - apply api_then_p; [|exact G]. intro. split; [apply timeout_x|split; [apply face_timeout|apply shut_prims, wait_timeout_prims]].
  - apply api_then_p; [|exact G]. intro. split; [apply cancel_x|split; [apply face_cancel|apply shut_prims, cancel_prims]].
  - apply on_api_p. intros. split; [apply cleanup_x|split; [apply face_cleanup|apply shut_prim, P_cleanup]].
  - apply world_receive_p, G.
  - destruct (0 <=? ms) eqn:M; [|constructor]. apply wprims_one, T_tick. lia.
  - apply wprims_one, T_life.
  - destruct (starting w t); [|constructor]. apply wprims_one, T_version.
  - destruct (starting w t); [|constructor]. unfold got_device. eapply wprims_cons; [apply T_devs|]. apply wprims_one, T_note. reflexivity.
Qed.
Lemma world_run_snoc es e w : world_run (es ++ [e]) w = world_step e (world_run es w).
Proof. unfold world_run. rewrite fold_left_app. reflexivity. Qed.
Lemma wreach_good w : wreachable w -> Good w.
Proof.
  intros (devs & es & ->). induction es as [|e es IH] using rev_ind; [apply good_init|].
  rewrite world_run_snoc. eapply good_ps; [apply world_step_p, IH|exact IH].
Qed.
(** invariants of the small transitions hold in every reachable world *)
Lemma wreach_ind (P : world -> Prop) : (forall devs, P (world_init devs)) -> (forall w w', Good w -> wprim w w' -> P w -> P w') ->
  forall w, wreachable w -> P w.
Proof.
  intros H0 HS w (devs & es & ->). enough (X : Good (world_run es (world_init devs)) /\ P (world_run es (world_init devs))) by apply X.
  induction es as [|e es IH] using rev_ind; [split; [apply good_init|apply H0]|].
  rewrite world_run_snoc. destruct IH as [G HP]. pose proof (world_step_p e _ G) as W. revert G HP.
  induction W as [v|v1 v2 v3 H1 H2 IH2]; intros G HP; [auto|]. apply IH2; [eapply good_p; eassumption|eapply HS; eassumption].
Qed.
