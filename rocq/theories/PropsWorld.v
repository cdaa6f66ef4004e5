(** * PropsWorld: properties of the application with all its API objects, across losses of the connection (C111-C121) *)
From Verif Require Import Base Types Uart Buffalo CmdTable Zpi Api App Machine Life World SpecWire SpecMachine SpecLife SpecWorld PropsApp PropsMachine
  MachineBase MachineInv3 MachineInv5 MachineProofs WorldInv WorldBase WorldProofs WorldLife WorldProofs2 WorldProofs3 WorldProofs4 WorldProofs5 AppProofs.

(** ** Literal histories used in the examples *)
(** started with a stick that takes two requests at a time; the stick is lost and start-up succeeds again *)
Definition lit_up : list wevent := [VLife (VStartup (Ok tt)); VLife (VGo 0 (Ok tt)); VGotVersion 0 0; VLife (VGo 0 (Ok tt))].
Definition lit_down : list wevent := [VLife (VLost 0); VLife (VGo 1 (Ok tt))].
Definition lit_back : list wevent := [VLife (VGo 1 (Ok tt)); VLife (VGo 1 (Ok tt)); VGotVersion 1 0; VLife (VGo 1 (Ok tt))].
Definition lit_from (a : nat) (f : frame) : wevent := VReceive a (wire_of f).
Definition lit_world (es : list wevent) : world := world_run es (world_init lit_devices).
Lemma lit_world_reachable es : wreachable (lit_world es).
Proof. exists lit_devices, es. reflexivity. Qed.
Ltac member := first [left; reflexivity | right; member].
Ltac shown := repeat match goal with |- _ /\ _ => split end; first [reflexivity | exact I | member].
(** a request that awaits no reply *)
Definition lit_send (q : Z) : job := JRequest 4660 0 2 0 0 q [q; 52; 18] false.

(** ** C111 *)
(** Until the first version answer nobody gets a slot; an operation that runs ends in that step with an
    exception: that of building its object, that of making its reply waiter, or AttributeError.  Nothing is
    written or started in any API object; at most the reply waiter is left behind. *)
Theorem C111_before_the_version : forall w n o, wreachable w -> (forall q c, ~ In (WNewSem q c) (w_log w)) -> the_op w n = Some o ->
  (forall q a, ~ In (WAdmitted n q a) (w_log w)) /\
  (op_at o = OBegin \/ exists e, op_at o = OOver (OExn e)) /\
  (op_at o = OBegin ->
   let w' := world_step (VRun n) w in
   exists e l, w_log w' = w_log w ++ l ++ [WEnded n (OExn e)] /\ (l = [] \/ exists a i, l = [WWaiter n a i]) /\
    (exists o', the_op w' n = Some o' /\ op_at o' = OOver (OExn e)) /\
    (build (op_job o) = Err e \/
     (exists obj sq, build (op_job o) = Ok obj /\ wants_waiter (op_job o) = Some sq /\ create_response_waiter obj (Some sq) = Err e) \/ e = AttributeError) /\
    forall a s, nth_error (w_apis w) a = Some s -> exists s', nth_error (w_apis w') a = Some s' /\
      s_wire s' = s_wire s /\ s_tasks s' = s_tasks s /\ s_lock s' = s_lock s /\ s_queue s' = s_queue s /\
      (s_waiters s' = s_waiters s \/ exists x, s_waiters s' = s_waiters s ++ [x])).
Proof.
  intros w n o R N G. split; [intros q a; apply none_admitted; assumption|]. split; [eapply no_places; eassumption|].
  intro P. exact (unready w n o R N G P).
Qed.
Print Assumptions C111_before_the_version.
(** the port is open and handed over, the version answer has not come yet *)
Example C111_inhabited :
  let w := lit_world [VLife (VStartup (Ok tt)); VLife (VGo 0 (Ok tt)); VCall (lit_desc_req 7)] in
  w_log w = [WCalled 0] /\ w_log (world_step (VRun 0) w) = [WCalled 0; WWaiter 0 0 0; WEnded 0 (OExn AttributeError)] /\
  map (fun s => map w_id (s_waiters s)) (w_apis (world_step (VRun 0) w)) = [[0]].
Proof. vm_compute. shown. Qed.

(** ** C112 *)
(** At every moment of every history: an operation is admitted only while its semaphore object has a slot left, as many
    have slots as are taken, and each semaphore object is made once, with the number of slots its product has. *)
Theorem C112_slots_at_every_moment : forall w l1 l2, wreachable w -> w_log w = l1 ++ l2 ->
  (forall q c, In (WNewSem q c) l1 -> (exists p, c = concurrent p) /\ 0 <= with_slot q l1 <= c) /\
  Z.of_nat (length (working l1)) <= all_slots l1.
Proof. intros w l1 l2 R. apply slots_moment, R. Qed.
Print Assumptions C112_slots_at_every_moment.
Theorem C112_no_slot_twice : forall w l1 n q a l2, wreachable w -> w_log w = l1 ++ WAdmitted n q a :: l2 ->
  exists c p, In (WNewSem q c) l1 /\ c = concurrent p /\ with_slot q l1 < c.
Proof. exact slots_taken. Qed.
Print Assumptions C112_no_slot_twice.
Theorem C112_made_once : forall w q c l1 l2, wreachable w -> w_log w = l1 ++ WNewSem q c :: l2 -> forall c', ~ In (WNewSem q c') l2.
Proof. exact sems_once. Qed.
Print Assumptions C112_made_once.
(** and no slot is lost: what is not taken is free *)
Theorem C112_none_lost : forall w q c, wreachable w -> In (WNewSem q c) (w_log w) ->
  exists v, nth_error (w_sems w) q = Some v /\ 0 <= v /\ with_slot q (w_log w) + v = c.
Proof.
  intros w q c R X. destruct (L_caps w (wreach_all w R)) as (C1 & C2 & _). destruct (C2 q c X) as [(v & V & E) _].
  exists v. split; [exact V|]. split; [apply (C1 q v V)|exact E].
Qed.
Print Assumptions C112_none_lost.
Example C112_inhabited :
  let w := lit_world (lit_up ++ [VCall (lit_send 1); VCall (lit_send 2); VCall (lit_send 3); VRun 0; VRun 1; VRun 2] ++ lit_down ++ lit_back) in
  In (WNewSem 0 2) (w_log w) /\ In (WNewSem 1 2) (w_log w) /\ with_slot 0 (w_log w) = 2 /\ with_slot 1 (w_log w) = 0 /\
  w_sems w = [0; 2] /\ map op_at (w_ops w) = [OInside 0 0 0; OInside 0 0 1; OSlot 0].
Proof. vm_compute. shown. Qed.

Definition lit_over : world := lit_world (lit_up ++ [VCall (lit_send 1); VCall (lit_send 2); VCall (lit_send 3); VRun 0; VRun 1; VRun 2] ++ lit_down ++ lit_back ++
    [VCall (lit_send 4); VCall (lit_send 5); VRun 3; VRun 4; VTick 6000; VTimeout 0 0; VRun 2]).
(** ** C113.  False: after a reconnect more operations than the product takes can be at the new stick. *)
Theorem C113_more_after_reconnect_refuted : exists w a, wreachable w /\ y_cur (w_life w) = Some a /\
  (forall q c, In (WNewSem q c) (w_log w) -> c = 2) /\ at_stick a (w_log w) = 3.
Proof.
  exists lit_over, 1%nat.
  split; [apply lit_world_reachable|]. split; [vm_compute; reflexivity|]. split; [|vm_compute; reflexivity].
  assert (E : forallb (fun o => match o with WNewSem _ c => c =? 2 | _ => true end) (w_log lit_over) = true) by (vm_compute; reflexivity).
  rewrite forallb_forall in E. intros q c H. apply Z.eqb_eq, (E _ H).
Qed.
Print Assumptions C113_more_after_reconnect_refuted.
(** True for the operations with slots of one semaphore object, and hence if only one was ever made; in general all slots
    ever made bound the number. *)
Theorem C113_per_semaphore_partial : forall w l1 l2, wreachable w -> w_log w = l1 ++ l2 ->
  (forall a q c, In (WNewSem q c) l1 -> at_stick_with a q l1 <= c) /\ (forall a, at_stick a l1 <= all_slots l1).
Proof. intros w l1 l2 R. apply at_stick_bounds, R. Qed.
Print Assumptions C113_per_semaphore_partial.
Example C113_inhabited :
  let l := w_log (lit_world (lit_up ++ [VCall (lit_send 1); VCall (lit_send 2); VCall (lit_send 3); VRun 0; VRun 1; VRun 2])) in
  at_stick_with 0 0 l = 2 /\ at_stick 0 l = 2 /\ all_slots l = 2.
Proof. vm_compute. shown. Qed.

(** ** C114.  Who can be too many: an operation that has a slot of an older semaphore object was called before the newer one was made. *)
Theorem C114_latecomers_were_called_before : forall w n q a l1 q' c l2, wreachable w -> In (n, q, a) (working (w_log w)) ->
  w_log w = l1 ++ WNewSem q' c :: l2 -> (q < q')%nat -> In (WCalled n) l1.
Proof. exact older_called. Qed.
Print Assumptions C114_latecomers_were_called_before.
Theorem C114_called_later_within_limit : forall w l1 q' c l2 a, wreachable w -> w_log w = l1 ++ WNewSem q' c :: l2 -> (forall q c, ~ In (WNewSem q c) l2) ->
  Z.of_nat (length (filter (fun x => (Nat.eqb (snd x) a && negb (existsb (Nat.eqb (fst (fst x))) (called_ops l1)))%bool) (working (w_log w)))) <= c.
Proof. exact later_within. Qed.
Print Assumptions C114_called_later_within_limit.
Example C114_inhabited :
  let w := lit_over in
  In (2%nat, 0%nat, 1%nat) (working (w_log w)) /\ exists l1 l2, w_log w = l1 ++ WNewSem 1 2 :: l2 /\ called_ops l1 = [0; 1; 2]%nat.
Proof.
  vm_compute. split; [member|]. exists [WNewSem 0 2; WCalled 0; WCalled 1; WCalled 2; WAdmitted 0 0 0; WAdmitted 1 0 0]. eexists. split; reflexivity.
Qed.

(** ** C115 *)
Theorem C115_bytes_concern_one_api : forall w a data, let w' := world_step (VReceive a data) w in
  w_life w' = w_life w /\ w_sems w' = w_sems w /\ w_sem w' = w_sem w /\ w_version w' = w_version w /\ w_ops w' = w_ops w /\ w_now w' = w_now w /\
  map s_wire (w_apis w') = map s_wire (w_apis w) /\
  (exists l, w_log w' = w_log w ++ l /\ forall o, In o l -> (exists e, o = WEffect a e) \/ exists e, o = WRaised a e) /\
  (forall b, b <> a -> y_cur (w_life w) <> Some b -> nth_error (w_apis w') b = nth_error (w_apis w) b) /\
  (forall b s, b <> a -> nth_error (w_apis w) b = Some s -> exists modes, nth_error (w_apis w') b = Some (with_leds modes s)).
Proof. intros w a data. destruct (heard_receive w a data). auto 12. Qed.
Print Assumptions C115_bytes_concern_one_api.
Theorem C115_operations_use_the_current_api : forall w n b, y_cur (w_life w) <> Some b ->
  nth_error (w_apis (world_step (VRun n) w)) b = nth_error (w_apis w) b.
Proof. intros w n b H. apply run_elsewhere, H. Qed.
Print Assumptions C115_operations_use_the_current_api.
(** a late answer from the old stick, after a reconnect *)
Example C115_inhabited :
  let w := lit_world (lit_up ++ [VCall (lit_send 1); VRun 0] ++ lit_down ++ lit_back ++ [VCall (lit_send 2); VRun 1]) in
  let w' := world_step (lit_from 0 lit_accepted) w in
  y_cur (w_life w) = Some 1%nat /\ map (fun s => length (s_log s)) (w_apis w) = [4; 4]%nat /\ map (fun s => length (s_log s)) (w_apis w') = [6; 4]%nat.
Proof. vm_compute. shown. Qed.

(** ** C116 *)
Theorem C116_one_holder : forall w a s x y z, wreachable w -> nth_error (w_apis w) a = Some s -> s_log s = x ++ y :: z ->
  match y with
  | OGranted _ => holder x = None
  | OWritten t _ _ | OFreed t => holder x = Some t
  | OEnded t _ => holder x <> Some t
  | _ => True
  end.
Proof.
  intros w a s x y z R A E. destruct (V_link s (proj2 (proj2 (wreach_good w R)) a s A)) as [_ H]. specialize (H x y z E). destruct y; try exact I; exact H.
Qed.
Print Assumptions C116_one_holder.
Theorem C116_frames_do_not_interleave : forall w a s x t at1 bs1 y u at2 bs2 z, wreachable w -> nth_error (w_apis w) a = Some s ->
  s_log s = x ++ OWritten t at1 bs1 :: y ++ OWritten u at2 bs2 :: z -> u <> t /\ In (OFreed t) y.
Proof.
  intros w a s x t at1 bs1 y u at2 bs2 z R A E. pose proof (proj2 (proj2 (wreach_good w R)) a s A) as V.
  destruct (Z.eq_dec u t) as [->|Hn]; [exfalso; eapply written_once; [exact (V_life s V)|exact E]|].
  split; [exact Hn|]. eapply (link_excl (s_log s)); [exact (proj2 (V_link s V))|exact E|right; eauto|right; eauto].
Qed.
Print Assumptions C116_frames_do_not_interleave.
(** a request of the first connection is admitted on the second and waits for the link there *)
Example C116_inhabited :
  let w := lit_world (lit_up ++ [VCall (lit_send 1); VCall (lit_send 2); VCall (lit_send 3); VRun 0; VRun 1; VRun 2] ++ lit_down ++ lit_back ++
    [VCall (lit_send 4); VRun 3; VTick 6000; VTimeout 0 0; VRun 2; VTimeout 1 0; VTask 1 1]) in
  exists s x bs1 y bs2, nth_error (w_apis w) 1 = Some s /\ s_log s = x ++ OWritten 0 0 bs1 :: y ++ OWritten 1 6000 bs2 :: [] /\ In (OQueued 1) y.
Proof.
  vm_compute. eexists. exists [OCalled 0; OGranted 0; ORegistered 0 0 6000]. eexists.
  exists [OCalled 1; OQueued 1; OFreed 0; OEnded 0 (OExn TimeoutError); OGranted 1; ORegistered 1 6000 6000]. eexists.
  split; [reflexivity|]. split; [reflexivity|]. member.
Qed.

(** ** C117 *)
Theorem C117_closed_for_good : forall w a x s, wreachable w -> nth_error (y_apis (w_life w)) a = Some x -> a_uart x = None -> a_app x = true ->
  nth_error (w_apis w) a = Some s -> forall es, exists s', nth_error (w_apis (world_run es w)) a = Some s' /\ s_wire s' = s_wire s.
Proof. exact closed_silent. Qed.
Print Assumptions C117_closed_for_good.
Theorem C117_no_writes_while_down : forall w a x n, wreachable w -> y_cur (w_life w) = Some a -> nth_error (y_apis (w_life w)) a = Some x ->
  a_uart x = None -> a_app x = true -> map s_wire (w_apis (world_step (VRun n) w)) = map s_wire (w_apis w).
Proof. exact down_writes_nothing. Qed.
Print Assumptions C117_no_writes_while_down.
(** with a slot and the link free, such an operation ends at once with an exception *)
Theorem C117_ends_while_down : forall w n o a x s q v, wreachable w -> the_op w n = Some o -> op_at o = OBegin -> y_cur (w_life w) = Some a ->
  nth_error (y_apis (w_life w)) a = Some x -> a_uart x = None -> nth_error (w_apis w) a = Some s -> s_lock s = None -> s_queue s = [] ->
  w_sem w = Some q -> nth_error (w_sems w) q = Some v -> 0 < v ->
  exists o' e, the_op (world_step (VRun n) w) n = Some o' /\ op_at o' = OOver (OExn e).
Proof. exact down_ends. Qed.
Print Assumptions C117_ends_while_down.
Example C117_inhabited :
  let w := lit_world (lit_up ++ lit_down ++ [VCall (lit_send 1)]) in
  let w' := world_run ([VRun 0] ++ lit_back ++ [VCall (lit_send 2); VRun 1]) w in
  y_cur (w_life w) = Some 0%nat /\ nth_error (y_apis (w_life w)) 0 = Some (mk_api_obj None true) /\
  map s_lock (w_apis w) = [None] /\ w_sem w = Some 0%nat /\ w_sems w = [2] /\
  map s_wire (w_apis w') = [[]; [[254; 4; 37; 2; 52; 18; 52; 18; 35]]] /\ In (WEnded 0 (OExn AttributeError)) (w_log w').
Proof. vm_compute. shown. Qed.

(** ** C118 *)
Theorem C118_success_across_reconnects : forall w n o, wreachable w -> the_op w n = Some o -> sends (op_job o) -> In (WEnded n (OStatus 0)) (w_log w) ->
  exists q a s obj t at_ bs lb, In (WAdmitted n q a) (w_log w) /\ nth_error (w_apis w) a = Some s /\ build (op_job o) = Ok obj /\
    frame_bytes obj bs /\ outstanding t at_ bs lb (s_log s) /\
    (z_type obj = SREQ -> exists r, In (OReceived r) lb /\ response_to obj r /\ forall v, status_of r = Some v -> v = VInt 0).
Proof. exact world_success. Qed.
Print Assumptions C118_success_across_reconnects.
Example C118_inhabited :
  let w := lit_world (lit_up ++ lit_down ++ lit_back ++ [VCall (lit_desc_req 5); VRun 0; lit_from 1 lit_accepted; VTask 1 0]) in
  exists o, the_op w 0 = Some o /\ sends (op_job o) /\ In (WEnded 0 (OStatus 0)) (w_log w).
Proof. vm_compute. eexists. split; [reflexivity|]. shown. Qed.

(** ** C119 *)
Theorem C119_once : forall w, wreachable w ->
  called_ops (w_log w) = seq 0 (length (w_ops w)) /\ NoDup (admitted_ops (w_log w)) /\ NoDup (ended_ops (w_log w)) /\
  (forall l1 n r l2, w_log w = l1 ++ WEnded n r :: l2 -> In (WCalled n) l1 /\ forall q a, ~ In (WAdmitted n q a) l2) /\
  (forall l1 n q a l2, w_log w = l1 ++ WAdmitted n q a :: l2 -> In (WCalled n) l1 /\ exists c, In (WNewSem q c) l1).
Proof.
  intros w R. destruct (L_log w (wreach_all w R)) as [G1 G2 _ G4 G5 G6 _ _]. repeat (split; [assumption|]). split.
  - intros l1 n r l2 E. destruct (G5 _ _ _ _ E) as [X Y]. split; [apply in_called, X|]. intros q a Z. apply Y. apply in_flat_map. exists (WAdmitted n q a). split; [exact Z|left; reflexivity].
  - intros l1 n q a l2 E. destruct (G6 _ _ _ _ _ E) as [X Y]. split; [apply in_called, X|exact Y].
Qed.
Print Assumptions C119_once.
(** the log is kept: what was told stays told *)
Theorem C119_log_grows : forall w es, wreachable w -> exists l, w_log (world_run es w) = w_log w ++ l.
Proof. exact log_run. Qed.
Print Assumptions C119_log_grows.
Example C119_inhabited :
  let w := lit_world (lit_up ++ [VCall (lit_send 1); VRun 0; VCall (lit_send 2)] ++ lit_down ++ lit_back ++ [VRun 1; VTick 6000; VTimeout 0 0; VCancel 1]) in
  called_ops (w_log w) = [0; 1]%nat /\ admitted_ops (w_log w) = [0; 1]%nat /\ ended_ops (w_log w) = [0; 1]%nat.
Proof. vm_compute. shown. Qed.

(** ** C120.  False: after a reconnect the refusal of one request completes the reply waiter of another. *)
Definition lit_mixed : world := lit_world (lit_up ++ [VCall (lit_send 1); VCall (lit_send 2); VCall (lit_desc_req 3); VRun 0; VRun 1; VRun 2] ++
  lit_down ++ [VLife (VGo 1 (Ok tt)); VLife (VGo 1 (Ok tt)); VApiCall 1 lit_ping; VTask 1 0; lit_from 1 lit_pong; VTask 1 0; VGotVersion 1 0; VLife (VGo 1 (Ok tt))] ++
  [VCall (lit_desc_req 9); VRun 3; lit_from 1 lit_accepted; VTask 1 1; VTick 6000; VTimeout 0 0; VRun 2; lit_from 1 lit_denied]).
(** Request 2 (sequence number 3) is refused: the waiter of request 3 (sequence number 9) is gone, and the reply to
    request 3, which would have been handed over, is dropped. *)
Theorem C120_wrong_waiter_refuted : wreachable lit_mixed /\
  (exists o, the_op lit_mixed 2 = Some o /\ op_waiter o = Some (0%nat, 1) /\ op_at o = OInside 0 1 2) /\
  In (WWaiter 3 1 1) (w_log lit_mixed) /\ In (WEnded 3 (OStatus 0)) (w_log lit_mixed) /\
  let w' := world_step (VTask 1 2) lit_mixed in
  In (WEnded 2 (OStatus 194)) (w_log w') /\
  (exists s s', nth_error (w_apis lit_mixed) 1 = Some s /\ nth_error (w_apis w') 1 = Some s' /\ map w_id (s_waiters s) = [1] /\ s_waiters s' = []) /\
  (exists data, w_log (world_step (lit_from 1 lit_desc) lit_mixed) = w_log lit_mixed ++ [WEffect 1 (EMsg [1; 2; 3; 4; 5; 6; 7; 8] 0 0 260 32770 0 0 (9 :: data))]) /\
  w_log (world_step (lit_from 1 lit_desc) w') = w_log w'.
Proof.
  split; [apply lit_world_reachable|]. vm_compute. split; [eexists; shown|]. split; [member|]. split; [member|]. split; [member|].
  split; [do 2 eexists; repeat (split; [reflexivity|]); reflexivity|]. split; [eexists; reflexivity|reflexivity].
Qed.
Print Assumptions C120_wrong_waiter_refuted.
(** True while the request is at the API object that its reply waiter was made for, or has none: what is completed is its own
    waiter, and nobody else made that one. *)
Theorem C120_own_waiter_partial : forall w n o q a t s k i0 u r obj c, wreachable w -> the_op w n = Some o -> sends (op_job o) -> op_at o = OInside q a t ->
  nth_error (w_apis w) a = Some s -> get s t = Some k -> t_phase k = PWait i0 u -> s_futs s i0 = FDone r -> op_obj o = Some obj -> z_type obj = SREQ ->
  status_of r = Some (VInt c) -> c <> 0 -> (forall b i, op_waiter o = Some (b, i) -> b = a) ->
  exists s', nth_error (w_apis (world_step (VTask a t) w)) a = Some s' /\
  forall i, In i (map w_id (s_waiters s)) -> ~ In i (map w_id (s_waiters s')) -> In (WWaiter n a i) (w_log w) /\ forall m, In (WWaiter m a i) (w_log w) -> m = n.
Proof.
  intros w n o q a t s k i0 u r obj c R G Hs P A K Pk F O Ty St Hc Own.
  destruct (refused w n o q a t s k i0 u r obj c R G Hs P A K Pk F O Ty St Hc) as (s' & A' & H). exists s'. split; [exact A'|].
  intros i X Y. destruct (op_waiter o) as [[b j]|] eqn:W; [|destruct H as (_ & H & _); rewrite H in Y; contradiction].
  assert (b = a) by (eapply Own; reflexivity). subst b.
  assert (M : In (WWaiter n a j) (w_log w)) by (apply (proj1 (proj1 (L_hist w (wreach_all w R)) n o G)), W).
  destruct (in_dec Z.eq_dec j (map w_id (s_waiters s))) as [D|D]; [|destruct (proj2 H D) as (_ & E & _); rewrite E in Y; contradiction].
  destruct (proj1 H D) as (_ & E & _). rewrite E, filter_In in Y. destruct (Z.eqb_spec i j) as [->|]; [|exfalso; apply Y; auto].
  split; [exact M|]. intros m Z. apply (proj2 (wreach_marks w R) m n a j Z M).
Qed.
Print Assumptions C120_own_waiter_partial.
Example C120_inhabited :
  let w := lit_world (lit_up ++ [VCall (lit_desc_req 3); VRun 0; lit_from 0 lit_denied]) in
  exists o s k r obj, the_op w 0 = Some o /\ sends (op_job o) /\ op_at o = OInside 0 0 0 /\ nth_error (w_apis w) 0 = Some s /\ get s 0 = Some k /\
    t_phase k = PWait 1 6000 /\ s_futs s 1 = FDone r /\ op_obj o = Some obj /\ z_type obj = SREQ /\ status_of r = Some (VInt 194) /\ op_waiter o = Some (0%nat, 0).
Proof. vm_compute. do 5 eexists. shown. Qed.

(** ** C121.  Exactly: the number of its reply waiter, wherever it was made, is looked up in the API object that the request was sent to. *)
Theorem C121_refusal_exact : forall w n o q a t s k i0 u r obj c, wreachable w -> the_op w n = Some o -> sends (op_job o) -> op_at o = OInside q a t ->
  nth_error (w_apis w) a = Some s -> get s t = Some k -> t_phase k = PWait i0 u -> s_futs s i0 = FDone r -> op_obj o = Some obj -> z_type obj = SREQ ->
  status_of r = Some (VInt c) -> c <> 0 ->
  let w' := world_step (VTask a t) w in
  exists s', nth_error (w_apis w') a = Some s' /\
    match op_waiter o with
    | None => In (WEnded n (OStatus c)) (w_log w') /\ s_waiters s' = s_waiters s /\ completions (s_log s') = completions (s_log s)
    | Some (b, i) =>
        (In i (map w_id (s_waiters s)) -> In (WEnded n (OStatus c)) (w_log w') /\
           map w_id (s_waiters s') = filter (fun j => negb (j =? i)) (map w_id (s_waiters s)) /\ completions (s_log s') = completions (s_log s) ++ [i]) /\
        (~ In i (map w_id (s_waiters s)) -> In (WEnded n (OExn KeyError)) (w_log w') /\
           s_waiters s' = s_waiters s /\ completions (s_log s') = completions (s_log s))
    end.
Proof. exact refused. Qed.
Print Assumptions C121_refusal_exact.
Example C121_inhabited :
  exists o s k r obj, the_op lit_mixed 2 = Some o /\ sends (op_job o) /\ op_at o = OInside 0 1 2 /\ nth_error (w_apis lit_mixed) 1 = Some s /\ get s 2 = Some k /\
    t_phase k = PWait 3 12000 /\ s_futs s 3 = FDone r /\ op_obj o = Some obj /\ z_type obj = SREQ /\ status_of r = Some (VInt 194) /\ op_waiter o = Some (0%nat, 1).
Proof. vm_compute. do 5 eexists. shown. Qed.

(** ** C122 *)
Theorem C122_table_follows_the_log : forall devs es i, let w := world_run es (world_init devs) in
  lookup (w_devs w) i = told i (lookup devs i) (w_log w).
Proof. exact table_told. Qed.
Print Assumptions C122_table_follows_the_log.
(** and whoever joined was announced to the API object that is named *)
Theorem C122_joined_was_announced : forall w a n i, wreachable w -> In (WEffect a (EJoin n i)) (w_log w) ->
  exists s o, nth_error (w_apis w) a = Some s /\ In (OReceived o) (s_log s) /\ announces o n i.
Proof. exact joins_announced. Qed.
Print Assumptions C122_joined_was_announced.
(** a device is announced by the first stick, and with another short address by the second *)
Example C122_inhabited :
  let w := lit_world (lit_up ++ [lit_from 0 (mk_frame AREQ ZDO 193 [52; 18; 52; 18; 9; 2; 3; 4; 5; 6; 7; 8; 142] None None)] ++ lit_down ++ lit_back ++
    [lit_from 1 (mk_frame AREQ ZDO 193 [53; 18; 53; 18; 9; 2; 3; 4; 5; 6; 7; 8; 142] None None)]) in
  In (WEffect 0 (EJoin 4660 [9;2;3;4;5;6;7;8])) (w_log w) /\ In (WEffect 1 (EJoin 4661 [9;2;3;4;5;6;7;8])) (w_log w) /\
  lookup lit_devices [9;2;3;4;5;6;7;8] = None /\ lookup (w_devs w) [9;2;3;4;5;6;7;8] = Some 4661 /\
  lookup (w_devs w) [1;2;3;4;5;6;7;8] = Some 4660.
Proof. vm_compute. shown. Qed.
