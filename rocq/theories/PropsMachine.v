(** * PropsMachine: properties of waiters, reply attribution, clean-up and the link *)
From Verif Require Import Base Types Uart Buffalo CmdTable Zpi Api App Machine SpecWire SpecCodec SpecApi SpecMachine
  ApiProofs AppProofs PropsApp
  MachineBase MachineInv3 MachineInv5 DispatchProofs MachineProofs MachineProofs2 MachineProofs3 MachineProofs4 MachineProofs5 MachineProofs6.

(** ** Literal requests, frames and a literal start state used in the examples. *)
Definition lit_start : st := init 2 (Some 1) lit_devices true.
Definition lit_frame ty sub id data : frame := mk_frame ty sub id data None None.
Definition lit_ping : job := JCommand SYS "ping" [] [0].
Definition lit_pong : frame := lit_frame SRSP SYS 1 [121; 1].
Definition lit_desc_req (q : Z) : job := JRequest 4660 0 2 0 0 q [q; 52; 18] true.
Definition lit_accepted : frame := lit_frame SRSP ZDO 2 [0].
Definition lit_denied : frame := lit_frame SRSP ZDO 2 [194].
Definition lit_desc : frame := lit_frame AREQ ZDO 130 [52; 18; 0; 52; 18; 1; 64; 142; 0; 0; 80; 128; 0; 0; 0; 128; 0; 0].
Definition lit_got (f : frame) : event := ERecv (wire_of f).
Lemma lit_reachable es : reachable 2 (run es lit_start).
Proof. exists (Some 1), lit_devices, true, es. reflexivity. Qed.

(** ** C25 *)
Theorem C25_waiter_ids_unique : forall cap s, 0 <= cap -> reachable cap s -> NoDup (registrations (s_log s)).
Proof. exact registrations_nodup. Qed.
Print Assumptions C25_waiter_ids_unique.
Theorem C25_completed_once : forall cap s, 0 <= cap -> reachable cap s -> NoDup (completions (s_log s)) /\
  forall i o, In (OCompleted i o) (s_log s) ->
    In i (registrations (s_log s)) /\ (forall w, In w (s_waiters s) -> w_id w <> i) /\
    (s_futs s i = FDone o \/ s_futs s i = FCancelled).
Proof. exact completions_once. Qed.
Print Assumptions C25_completed_once.
Theorem C25_message_kept : forall cap s i o es, 0 <= cap -> reachable cap s -> s_futs s i = FDone o ->
  s_futs (run es s) i = FDone o.
Proof. exact done_stays. Qed.
Print Assumptions C25_message_kept.
Theorem C25_completing_never_raises : forall i o s, snd (complete i o s) = Ok tt.
Proof. exact complete_ok. Qed.
Print Assumptions C25_completing_never_raises.
(** two waiters, one completed after its cancellation *)
Example C25_inhabited :
  let s := run [ECall lit_ping; ERun 0; ETick 6000; ETimeout 0; ECall lit_ping; ERun 1; lit_got lit_pong] lit_start in
  registrations (s_log s) = [0; 1] /\ completions (s_log s) = [0; 1] /\ s_futs s 0 = FCancelled /\
  exists o, s_futs s 1 = FDone o.
Proof. vm_compute. repeat split. eexists. reflexivity. Qed.

(** ** C26.  True if sequence number 0 counts as none ([carries]); false otherwise. *)
Theorem C26_completes_exactly_the_answered_partial : forall cap s f o, 0 <= cap -> reachable cap s -> from_unpi_frame f = Ok o ->
  (forall w, In w (s_waiters s) -> has_fields (w_matcher w) o) ->
  let s' := fst (data_received s f) in
  exists pre post keep,
    offered o (s_waiters s) pre post /\
    s_waiters s' = filter keep (s_waiters s) /\
    (forall w, In w (s_waiters s) -> keep w = false <-> In w pre /\ answers (w_matcher w) o) /\
    (forall w, In w pre -> answers (w_matcher w) o -> s_futs s' (w_id w) =
       match s_futs s (w_id w) with FPending => FDone o | FDone x => FDone x | FCancelled => FCancelled end) /\
    (forall i, (forall w, In w pre -> answers (w_matcher w) o -> w_id w <> i) -> s_futs s' i = s_futs s i) /\
    exists ids, completions (s_log s') = completions (s_log s) ++ ids /\ increasing ids /\
      forall i, In i ids <-> exists w, In w pre /\ answers (w_matcher w) o /\ w_id w = i.
Proof. exact message_completes. Qed.
Print Assumptions C26_completes_exactly_the_answered_partial.
(** One message completes a waiter with sequence number 0 and the next one too. *)
Theorem C26_zero_does_not_stop_refuted : exists s, reachable 2 s /\
  map w_seq (s_waiters s) = [Some 0; None; Some 8] /\ map w_seq (s_waiters (fst (data_received s lit_desc))) = [None] /\
  completions (s_log (fst (data_received s lit_desc))) = [0; 2].
Proof.
  exists (run [ECall (lit_desc_req 0); ERun 0; ECall (lit_desc_req 8); ERun 1] lit_start).
  split; [apply lit_reachable|]. vm_compute. repeat split.
Qed.
Print Assumptions C26_zero_does_not_stop_refuted.
Example C26_inhabited :
  let s := run [ECall (lit_desc_req 7); ERun 0; ECall (lit_desc_req 8); ERun 1] lit_start in
  exists o, from_unpi_frame lit_desc = Ok o /\
    Forall (fun w => answers (w_matcher w) o /\ carries w) (filter (fun w => match w_seq w with Some _ => true | None => false end) (s_waiters s)) /\
    map w_seq (s_waiters s) = [Some 7; None; Some 8] /\
    map w_seq (s_waiters (fst (data_received s lit_desc))) = [None; Some 8].
Proof.
  eexists. split; [vm_compute; reflexivity|]. split.
  - vm_compute. constructor; [|constructor; [|constructor]].
    + split; [repeat split; constructor; [eexists; split; [reflexivity|constructor]|constructor]|exists 7; split; [reflexivity|discriminate]].
    + split; [repeat split; constructor; [eexists; split; [reflexivity|constructor]|constructor]|exists 8; split; [reflexivity|discriminate]].
  - vm_compute. split; reflexivity.
Qed.

(** ** C27 *)
Theorem C27_nth_reply_nth_request : forall rsp cluster nwk v ieee cap fs rs ws rest s,
  In (rsp, cluster) passed_replies ->
  0 <= cap -> reachable cap s -> s_app s = true -> s_version s = Some v -> first_with nwk ieee (s_devs s) ->
  (* everybody waiting for such a reply is a request with a sequence number in 1..255 *)
  (forall w, In w (s_waiters s) -> m_type (w_matcher w) = AREQ -> m_sub (w_matcher w) = ZDO -> m_cmd (w_matcher w) = rsp ->
     (exists a, m_payload (w_matcher w) = [("srcaddr", VInt a)]) /\ exists q, w_seq w = Some q /\ 1 <= q <= 255) ->
  Forall2 (fun f r => bytes_ok (f_data f) /\ from_unpi_frame f = Ok r /\ replies rsp nwk r) fs rs ->
  filter (asks_for rsp nwk) (s_waiters s) = ws ++ rest -> length ws = length fs ->
  let s' := frames_received fs s in
  filter (asks_for rsp nwk) (s_waiters s') = rest /\
  (forall j, ~ In j (map w_id ws) -> s_futs s' j = s_futs s j) /\
  Forall2 (fun w r => s_futs s (w_id w) = FPending -> s_futs s' (w_id w) = FDone r) ws rs /\
  exists msgs, messages (s_log s') = messages (s_log s) ++ msgs /\
    Forall2 (fun fw m => exists q n body, w_seq (snd fw) = Some q /\ m = q :: skipn 2 body /\
      Forall2 masked (firstn n (f_data (fst fw))) body /\ (rsp <> "mgmtLqiRsp" -> body = firstn n (f_data (fst fw))))
      (combine fs ws) msgs.
Proof.
  intros rsp cluster nwk v ieee cap fs rs ws rest s Hp Hc Hr Ha Hv Hd Hw.
  apply (replies_in_order rsp cluster nwk v ieee Hp).
  split; [exact (I_core _ _ (reachable_inv cap s Hc Hr))|]. repeat (split; [assumption|]). exact Hw.
Qed.
Print Assumptions C27_nth_reply_nth_request.
Example C27_inhabited :
  let s := run [ECall (lit_desc_req 7); ERun 0; ECall (lit_desc_req 8); ERun 1] lit_start in
  map w_seq (filter (asks_for "nodeDescRsp" 4660) (s_waiters s)) = [Some 7; Some 8] /\
  map (@hd Z 0) (messages (s_log (frames_received [lit_desc; lit_desc] s))) = [7; 8].
Proof. vm_compute. split; reflexivity. Qed.

(** ** C28.  True for 1..255; false for 0. *)
Theorem C28_delivered_partial : forall rsp cluster nwk v ieee cap f r w rest s,
  In (rsp, cluster) passed_replies ->
  0 <= cap -> reachable cap s -> s_app s = true -> s_version s = Some v -> first_with nwk ieee (s_devs s) ->
  (forall w, In w (s_waiters s) -> m_type (w_matcher w) = AREQ -> m_sub (w_matcher w) = ZDO -> m_cmd (w_matcher w) = rsp ->
     (exists a, m_payload (w_matcher w) = [("srcaddr", VInt a)]) /\ exists q, w_seq w = Some q /\ 1 <= q <= 255) ->
  bytes_ok (f_data f) -> from_unpi_frame f = Ok r -> replies rsp nwk r ->
  filter (asks_for rsp nwk) (s_waiters s) = w :: rest ->
  exists q m, w_seq w = Some q /\ messages (s_log (fst (data_received s f))) = messages (s_log s) ++ [q :: m].
Proof.
  intros rsp cluster nwk v ieee cap f r w rest s Hp Hc Hr Ha Hv Hd Hw Hok Hf Hm Hl.
  destruct (C27_nth_reply_nth_request rsp cluster nwk v ieee cap [f] [r] [w] rest s Hp Hc Hr Ha Hv Hd Hw) as (_ & _ & _ & msgs & E & F);
    [constructor; [auto|constructor]|exact Hl|reflexivity|].
  cbn [combine] in F. inversion F as [|? m ? l (q & n & body & Hq & Em & _) F' ]; subst. inversion F'; subst.
  exists q, (skipn 2 body). split; [exact Hq|exact E].
Qed.
Print Assumptions C28_delivered_partial.
(** With sequence number 0 the stick accepts the request, the reply arrives and completes the waiter, but
    nothing is handed to the application. *)
Theorem C28_zero_lost_refuted : exists s, reachable 2 s /\
  In (OEnded 0 (OStatus 0)) (s_log s) /\ (exists o, z_cmd o = "nodeDescRsp" /\ In (OCompleted 0 o) (s_log s)) /\
  messages (s_log s) = [] /\ s_waiters s = [].
Proof.
  exists (run [ECall (lit_desc_req 0); ERun 0; lit_got lit_accepted; ERun 0; lit_got lit_desc] lit_start).
  split; [apply lit_reachable|]. vm_compute. split; [tauto|]. split; [|split; reflexivity].
  eexists. split; [|right; right; right; right; right; right; right; right; right; right; right; left; reflexivity]. reflexivity.
Qed.
Print Assumptions C28_zero_lost_refuted.
Example C28_inhabited :
  let s := run [ECall (lit_desc_req 7); ERun 0; lit_got lit_accepted; ERun 0] lit_start in
  map w_seq (filter (asks_for "nodeDescRsp" 4660) (s_waiters s)) = [Some 7] /\
  messages (s_log (step (lit_got lit_desc) s)) = [[7; 0; 52; 18; 1; 64; 142; 0; 0; 80; 128; 0; 0; 0; 128; 0; 0]].
Proof. vm_compute. split; reflexivity. Qed.

(** ** C29 *)
Theorem C29_timer_pending : forall cap s w, 0 <= cap -> reachable cap s -> In w (s_waiters s) ->
  exists at_, In (ORegistered (w_id w) at_ (w_timeout w)) (s_log s) /\ at_ <= s_now s /\
    In (at_ + w_timeout w + 100, w_id w) (s_timers s).
Proof. exact waiter_timer. Qed.
Print Assumptions C29_timer_pending.
Theorem C29_no_leak : forall cap s w at_ to, 0 <= cap -> reachable cap s ->
  In w (s_waiters (run (map ECleanup (map snd (s_timers s))) s)) -> In (ORegistered (w_id w) at_ to) (s_log s) ->
  s_now s < at_ + to + 100.
Proof. exact no_leak. Qed.
Print Assumptions C29_no_leak.
Example C29_inhabited :
  let s := run [ECall (lit_desc_req 7); ERun 0; ETick 7000; ECall lit_ping; ERun 1] lit_start in
  map w_id (s_waiters s) = [0; 1] /\ s_timers s = [(10100, 0); (6100, 1)] /\
  map w_id (s_waiters (run (map ECleanup (map snd (s_timers s))) s)) = [0].
Proof. vm_compute. repeat split. Qed.

(** ** C30 *)
Theorem C30_cleanup_touches_own : forall i s, let s' := step (ECleanup i) s in
  (s_waiters s' = s_waiters s \/ s_waiters s' = filter (fun w => negb (w_id w =? i)) (s_waiters s)) /\
  s_futs s' = s_futs s /\ s_tasks s' = s_tasks s /\ s_log s' = s_log s /\ s_lock s' = s_lock s /\
  s_queue s' = s_queue s /\ s_sem s' = s_sem s /\ s_wire s' = s_wire s /\ s_now s' = s_now s /\
  forall d j, j <> i -> In (d, j) (s_timers s) -> In (d, j) (s_timers s').
Proof. exact cleanup_only. Qed.
Print Assumptions C30_cleanup_touches_own.
(** A registered waiter is still registered later, or a matching message arrived, or its time is over, or
    its own request failed with an error status. *)
Theorem C30_why_removed : forall cap s w es, 0 <= cap -> reachable cap s -> In w (s_waiters s) ->
  let s' := run es s in
  In w (s_waiters s') \/
  (exists la r lb, s_log s' = s_log s ++ la ++ OCompleted (w_id w) r :: lb /\ In (OReceived r) la /\ answers (w_matcher w) r) \/
  (forall at_ to, In (ORegistered (w_id w) at_ to) (s_log s) -> at_ + to + 100 <= s_now s') \/
  (exists t k c, get s' t = Some k /\ t_wid k = Some (w_id w) /\ t_phase k = PDone (reported (t_job k) c)).
Proof.
  intros cap s w es Hc Hr Hin s'. destruct (run_gone cap es s w (reachable_inv cap s Hc Hr) Hin) as [H|[H|[H|H]]]; auto.
  right; right; right. destruct H as (t & k & c & H1 & H2 & H3). exists t, k, c. split; [exact H1|]. split; [exact H2|].
  rewrite H3. f_equal. destruct (t_job k); reflexivity.
Qed.
Print Assumptions C30_why_removed.
Example C30_inhabited :
  let s := run [ECall (lit_desc_req 7); ERun 0] lit_start in
  map w_id (s_waiters s) = [0; 1] /\
  map w_id (s_waiters (run [lit_got lit_denied; ERun 0] s)) = [] /\
  map w_id (s_waiters (run [lit_got lit_accepted; ERun 0; ETick 10099; ECleanup 0; ECleanup 1] s)) = [0] /\
  map w_id (s_waiters (run [lit_got lit_accepted; ERun 0; ETick 10100; ECleanup 0; ECleanup 1] s)) = [].
Proof. vm_compute. repeat split. Qed.

(** ** C31 *)
(** [holder] is read off grants and releases; only the holder writes, and nobody else is granted the link. *)
Theorem C31_one_holder : forall cap s a x b, 0 <= cap -> reachable cap s -> s_log s = a ++ x :: b ->
  match x with
  | OGranted _ => holder a = None
  | OWritten t _ _ | OFreed t => holder a = Some t
  | OEnded t _ => holder a <> Some t
  | _ => True
  end.
Proof.
  intros cap s a x b Hc Hr E. destruct (I_link _ _ (reachable_inv cap s Hc Hr)) as [_ H]. specialize (H a x b E).
  destruct x; try exact I; exact H.
Qed.
Print Assumptions C31_one_holder.
Theorem C31_frames_do_not_interleave : forall cap s a t at1 bs1 b u at2 bs2 c, 0 <= cap -> reachable cap s ->
  s_log s = a ++ OWritten t at1 bs1 :: b ++ OWritten u at2 bs2 :: c ->
  u <> t /\ In (OFreed t) b.
Proof.
  intros cap s a t at1 bs1 b u at2 bs2 c Hc Hr E. pose proof (reachable_inv cap s Hc Hr) as HI.
  destruct (Z.eq_dec u t) as [->|Hn].
  - exfalso. eapply written_once; [exact (I_life _ _ HI)|exact E].
  - split; [exact Hn|]. eapply (link_excl (s_log s)); [exact (proj2 (I_link _ _ HI))|exact E|right; eauto|right; eauto].
Qed.
Print Assumptions C31_frames_do_not_interleave.
(** A request that lets go of the link has finished, except multicasts and broadcasts, which only wait
    200 ms more. *)
Theorem C31_released_when_finished : forall cap s a t b, 0 <= cap -> reachable cap s -> s_log s = a ++ OFreed t :: b ->
  (exists r b', b = OEnded t r :: b') \/ exists k, get s t = Some k /\ settles (t_job k) = true.
Proof. intros cap s a t b _ Hr. apply (reachable_freed cap s Hr). Qed.
Print Assumptions C31_released_when_finished.
Example C31_inhabited :
  let s := run [ECall lit_ping; ERun 0; ECall (lit_desc_req 7); ERun 1; ERun 1; lit_got lit_pong; ERun 1; ERun 0; ERun 1] lit_start in
  exists a bs1 b bs2 c, s_log s = a ++ OWritten 0 0 bs1 :: b ++ OWritten 1 0 bs2 :: c /\ c = [].
Proof.
  vm_compute. exists [OCalled 0; OGranted 0; ORegistered 0 0 6000]. eexists.
  match goal with |- exists b bs2 c, ?l = _ /\ _ =>
    match eval cbv [rev app] in (rev l) with OWritten 1 0 ?w :: ?r =>
      let r' := eval cbv [rev app] in (skipn 4 (rev r)) in let r'' := eval vm_compute in r' in exists r'', w, [] end end.
  split; reflexivity.
Qed.

(** ** C32 *)
(** Nobody ends while holding the link, whatever the reason. *)
Theorem C32_released : forall cap s t r, 0 <= cap -> reachable cap s -> In (OEnded t r) (s_log s) -> holder (s_log s) <> Some t.
Proof.
  intros cap s t r Hc Hr Hin C. pose proof (reachable_inv cap s Hc Hr) as HI.
  destruct (I_link _ _ HI) as [E _]. rewrite E in C. destruct (holder_waits cap s t Hc Hr C) as (k & i & d & Hk & Hp).
  destruct (life_of s t (I_life _ _ HI)) as (_ & _ & H). destruct (H r Hin) as (k' & Hk' & Hp'). rewrite Hk in Hk'.
  injection Hk' as <-. rewrite Hp in Hp'. discriminate.
Qed.
Print Assumptions C32_released.
(** Who queued first is granted first, unless it ended before. *)
Theorem C32_first_come_first_served : forall cap s t u a b c, 0 <= cap -> reachable cap s ->
  s_log s = a ++ OQueued t :: b ++ OGranted u :: c -> ~ In (OQueued u) a -> u <> t ->
  In (OGranted t) b \/ exists r, In (OEnded t r) b.
Proof.
  intros cap s t u a b c Hc Hr. pose proof (reachable_inv cap s Hc Hr) as HI.
  apply served_in_order; [exact (I_life _ _ HI)|exact (proj2 (I_waiting _ _ HI))].
Qed.
Print Assumptions C32_first_come_first_served.
(** As soon as the link is free, the longest-waiting request gets it when it runs. *)
Theorem C32_next_is_granted : forall cap s t q, 0 <= cap -> reachable cap s ->
  holder (s_log s) = None -> waiting (s_log s) = t :: q -> exists l, s_log (step (ERun t) s) = s_log s ++ OGranted t :: l.
Proof. exact next_granted. Qed.
Print Assumptions C32_next_is_granted.
(** Whoever holds the link loses it within 30 s once the clock runs and its timer and its coroutine run. *)
Theorem C32_comes_free : forall cap s h, 0 <= cap -> reachable cap s -> holder (s_log s) = Some h ->
  exists ms, 0 <= ms <= 30000 /\ holder (s_log (run [ETick ms; ETimeout h; ERun h] s)) = None.
Proof. exact link_comes_free. Qed.
Print Assumptions C32_comes_free.
Example C32_inhabited :
  let s := run [ECall lit_ping; ERun 0; ECall lit_ping; ERun 1; ECall (lit_desc_req 7); ERun 2] lit_start in
  holder (s_log s) = Some 0 /\ waiting (s_log s) = [1; 2] /\
  holder (s_log (step (ECancel 0) s)) = None /\ waiting (s_log (step (ECancel 0) s)) = [1; 2] /\
  holder (s_log (run [ECancel 0; ERun 2] s)) = None /\ holder (s_log (run [ECancel 0; ERun 2; ERun 1] s)) = Some 1.
Proof. vm_compute. repeat split. Qed.
