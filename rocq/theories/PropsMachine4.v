(** * PropsMachine4: from the operations of the application to the link and back (C20-C22, C27, C41, C88, C89) *)
From Verif Require Import Base Types Uart Buffalo CmdTable Zpi Api App Machine SpecWire SpecCodec SpecApi SpecMachine
  MachineInv5 MachineProofs8 MachineProofs9 MachineProgress PropsApp PropsMachine.

(** ** C20.  What a request of a profile other than 260 puts on the link. *)
Theorem C20_request_written : forall cap s t k nwk profile c ps src_ep dst_ep sequence data reply at_ bs,
  0 <= cap -> reachable cap s -> get s t = Some k ->
  t_job k = JRequest nwk profile (c_ID c) src_ep dst_ep sequence data reply -> profile <> 260 ->
  In c def_ZDO -> c_type c = SREQ -> c_request c = Some ps -> bytes_ok data -> In (OWritten t at_ bs) (s_log s) ->
  0 <= nwk < 65536 /\
  exists n pl, let body := firstn n (zdo_body (String.eqb (c_name c) "mgmtPermitJoinReq") nwk data) in
    payload_wire None ps pl body /\ bs = wire 1 5 (c_ID c) body.
Proof. exact zdo_written. Qed.
Print Assumptions C20_request_written.
Example C20_request_inhabited :
  let s := run [ECall (lit_desc_req 7); ERun 0] lit_start in
  (exists k, get s 0 = Some k /\ t_job k = lit_desc_req 7) /\ In (OWritten 0 0 [254; 4; 37; 2; 52; 18; 52; 18; 35]) (s_log s) /\
  wire 1 5 2 (zdo_body false 4660 [7; 52; 18]) = [254; 4; 37; 2; 52; 18; 52; 18; 35].
Proof. vm_compute. split; [eexists; split; reflexivity|]. split; [repeat (first [left; reflexivity|right])|reflexivity]. Qed.

(** ** C21.  What a request of profile 260 puts on the link. *)
Theorem C21_request_written : forall cap s t k nwk cluster src_ep dst_ep sequence data reply at_ bs,
  0 <= cap -> reachable cap s -> get s t = Some k ->
  t_job k = JRequest nwk 260 cluster src_ep dst_ep sequence data reply -> bytes_ok data -> In (OWritten t at_ bs) (s_log s) ->
  af_fields_ok nwk cluster src_ep dst_ep sequence 30 data /\
  bs = wire 1 4 1 (le2 nwk ++ [dst_ep; src_ep] ++ le2 cluster ++ [sequence; 0; 30; Z.of_nat (length data)] ++ data).
Proof. exact unicast_written. Qed.
Print Assumptions C21_request_written.
Example C21_request_inhabited :
  let s := run [ECall (JRequest 53322 260 6 1 1 7 [1; 7; 0] true); ERun 0] lit_start in
  In (OWritten 0 0 [254; 13; 36; 1; 74; 208; 1; 1; 6; 0; 7; 0; 30; 3; 1; 7; 0; 168]) (s_log s).
Proof. vm_compute. repeat (first [left; reflexivity|right]). Qed.

(** ** C22.  What multicasts and broadcasts put on the link. *)
Theorem C22_multicast_written : forall cap s t k group cluster src_ep sequence data at_ bs,
  0 <= cap -> reachable cap s -> get s t = Some k ->
  t_job k = JMulticast group 260 cluster src_ep sequence data -> bytes_ok data -> In (OWritten t at_ bs) (s_log s) ->
  let src := if src_ep =? 0 then 1 else src_ep in
  af_ext_fields_ok 1 group cluster src 255 sequence 30 data /\
  exists addr, bytes_ok addr /\ length addr = 8%nat /\ le_value addr = group /\
    bs = wire 1 4 2 ([1] ++ addr ++ [255; 0; 0; src] ++ le2 cluster ++ [sequence; 0; 30] ++ le2 (Z.of_nat (length data)) ++ data).
Proof. exact multicast_written. Qed.
Print Assumptions C22_multicast_written.
Theorem C22_broadcast_written : forall cap s t k cluster src_ep dst_ep radius sequence data a at_ bs,
  0 <= cap -> reachable cap s -> get s t = Some k ->
  t_job k = JBroadcast 260 cluster src_ep dst_ep radius sequence data a -> bytes_ok data -> In (OWritten t at_ bs) (s_log s) ->
  af_ext_fields_ok 2 a cluster src_ep dst_ep sequence radius data /\
  exists addr, bytes_ok addr /\ length addr = 8%nat /\ le_value addr = a /\
    bs = wire 1 4 2 ([2] ++ addr ++ [dst_ep; 0; 0; src_ep] ++ le2 cluster ++ [sequence; 0; radius] ++ le2 (Z.of_nat (length data)) ++ data).
Proof. exact broadcast_written. Qed.
Print Assumptions C22_broadcast_written.
Example C22_written_inhabited :
  let s := run [ECall (JMulticast 5 260 6 0 9 [1; 9; 2]); ERun 0; ECall (JBroadcast 260 6 1 255 3 10 [1; 10; 2] 65533); ERun 1; ECancel 0; ERun 1] lit_start in
  s_wire s = [wire 1 4 2 ([1] ++ [5; 0; 0; 0; 0; 0; 0; 0] ++ [255; 0; 0; 1] ++ [6; 0] ++ [9; 0; 30] ++ [3; 0] ++ [1; 9; 2]);
              wire 1 4 2 ([2] ++ [253; 255; 0; 0; 0; 0; 0; 0] ++ [255; 0; 0; 1] ++ [6; 0] ++ [10; 0; 3] ++ [3; 0] ++ [1; 10; 2])].
Proof. vm_compute. reflexivity. Qed.

(** ** C27.  The waiter that a request registers carries the request's sequence number and is last in line. *)
Theorem C27_request_registers : forall s t k nwk profile cluster rsp src_ep dst_ep sequence data,
  get s t = Some k -> t_phase k = PStart -> t_job k = JRequest nwk profile cluster src_ep dst_ep sequence data true ->
  profile <> 260 -> In (cluster, rsp) addressed_requests -> 0 <= nwk < 65536 -> bytes_ok data ->
  (exists o, build (t_job k) = Ok o) ->
  exists w, w_seq w = Some sequence /\
    filter (asks_for rsp nwk) (s_waiters (step (ERun t) s)) = filter (asks_for rsp nwk) (s_waiters s) ++ [w] /\
    forall rsp' nwk', (rsp', nwk') <> (rsp, nwk) ->
      filter (asks_for rsp' nwk') (s_waiters (step (ERun t) s)) = filter (asks_for rsp' nwk') (s_waiters s).
Proof. exact request_registers. Qed.
Print Assumptions C27_request_registers.
Example C27_registers_inhabited :
  let s := run [ECall (lit_desc_req 7); ERun 0; ECall (lit_desc_req 8)] lit_start in
  (exists k, get s 1 = Some k /\ t_phase k = PStart /\ t_job k = lit_desc_req 8) /\ (exists o, build (lit_desc_req 8) = Ok o) /\
  In (2, "nodeDescRsp"%string) addressed_requests /\
  map w_seq (filter (asks_for "nodeDescRsp" 4660) (s_waiters (step (ERun 1) s))) = [Some 7; Some 8].
Proof.
  split; [vm_compute; eexists; repeat split|]. split; [eexists; vm_compute; reflexivity|]. split; [|vm_compute; reflexivity].
  unfold addressed_requests. repeat (first [left; reflexivity|right]).
Qed.

(** ** C41.  From the request to the delivery of its reply, whatever happens in between.  Missing from the
    full claim: as for [C41_reply_delivered_partial]. *)
Theorem C41_request_answered_partial : forall cap s t k nwk profile cluster rsp rcluster src_ep dst_ep sequence data,
  0 <= cap -> reachable cap s ->
  get s t = Some k -> t_phase k = PStart -> t_job k = JRequest nwk profile cluster src_ep dst_ep sequence data true ->
  profile <> 260 -> In (cluster, rsp) addressed_requests -> In (rsp, rcluster) passed_replies -> 0 <= nwk < 65536 -> bytes_ok data ->
  (exists o, build (t_job k) = Ok o) ->
  exists w, filter (asks_for rsp nwk) (s_waiters (step (ERun t) s)) = filter (asks_for rsp nwk) (s_waiters s) ++ [w] /\
    forall es f r v ieee rest, let s2 := run es (step (ERun t) s) in
      s_app s2 = true -> s_version s2 = Some v -> first_with nwk ieee (s_devs s2) ->
      (forall w, In w (s_waiters s2) -> m_type (w_matcher w) = AREQ -> m_sub (w_matcher w) = ZDO -> m_cmd (w_matcher w) = rsp ->
         (exists a, m_payload (w_matcher w) = [("srcaddr"%string, VInt a)]) /\ exists q, w_seq w = Some q /\ 1 <= q <= 255) ->
      filter (asks_for rsp nwk) (s_waiters s2) = w :: rest ->
      bytes_ok (f_data f) -> from_unpi_frame f = Ok r -> replies rsp nwk r ->
      exists n body, Forall2 masked (firstn n (f_data f)) body /\ (rsp <> "mgmtLqiRsp"%string -> body = firstn n (f_data f)) /\
        (forall m, (m < n)%nat -> read_parameters (firstn m (f_data f)) (z_params r) = Err OverflowError) /\
        messages (s_log (fst (data_received s2 f))) = messages (s_log s2) ++ [sequence :: skipn 2 body].
Proof. exact request_to_delivery. Qed.
Print Assumptions C41_request_answered_partial.
Example C41_answered_inhabited :
  let s2 := run [lit_got lit_accepted; ERun 0] (step (ERun 0) (run [ECall (lit_desc_req 7)] lit_start)) in
  map w_seq (filter (asks_for "nodeDescRsp" 4660) (s_waiters s2)) = [Some 7] /\
  messages (s_log (fst (data_received s2 lit_desc))) = [[7; 0; 52; 18; 1; 64; 142; 0; 0; 80; 128; 0; 0; 0; 128; 0; 0]].
Proof. vm_compute. split; reflexivity. Qed.

(** ** C88.  Nothing hangs.  In each of the rounds at least [T] ms pass, [T] being at least every time limit,
    and then everybody unfinished gets the chance to go on and to notice that its time is up.  Nothing new
    is called and the stick says nothing; cancellations, cleaning up, losing the port may happen. *)
Theorem C88_nothing_hangs : forall cap s T rs, 0 < cap -> reachable cap s -> 30000 <= T ->
  (forall t k m to, get s t = Some k -> t_job k = JWaitFor m to -> to <= T) ->
  Forall (fair_round T (pending (s_log s))) rs -> 7 * Z.of_nat (length (pending (s_log s))) <= Z.of_nat (length rs) ->
  pending (s_log (run (concat rs) s)) = [].
Proof. exact everything_ends. Qed.
Print Assumptions C88_nothing_hangs.
(** What is unfinished according to the history is what the state has as unfinished. *)
Theorem C88_pending_is_unfinished : forall cap s, reachable cap s ->
  NoDup (pending (s_log s)) /\
  forall t, In t (pending (s_log s)) <-> exists k, get s t = Some k /\ forall r, t_phase k <> PDone r.
Proof.
  intros cap s Hr. destruct (reachable_pend cap s Hr) as (Nd & Hi & _). split; [exact Nd|].
  intro t. rewrite Hi. unfold get. split; intros (k & G & E); exists k; (split; [exact G|]); destruct (t_phase k); cbn [ended] in *; try congruence; try reflexivity; exfalso; eapply E; reflexivity.
Qed.
Print Assumptions C88_pending_is_unfinished.
(** 3 requests and a permission on a stick that takes 2 at a time and never answers *)
Definition lit_busy : st :=
  run [ECall (lit_desc_req 7); ERun 0; ECall (lit_desc_req 8); ERun 1; ECall (JPermit 60); ERun 2; ECall lit_ping; ERun 3] lit_start.
Definition lit_round : list event := [ETick 30000; ERun 3; ETimeout 3; ERun 2; ETimeout 2; ERun 1; ETimeout 1; ERun 0; ETimeout 0].
Example C88_inhabited : pending (s_log lit_busy) = [0; 1; 2; 3] /\ fair_round 30000 (pending (s_log lit_busy)) lit_round /\
  pending (s_log (run (concat (repeat lit_round 1)) lit_busy)) = [1; 2; 3] /\
  pending (s_log (run (concat (repeat lit_round 28)) lit_busy)) = [].
Proof.
  split; [vm_compute; reflexivity|]. split; [|split; vm_compute; reflexivity]. split; [repeat constructor|].
  exists [ETick 30000], (skipn 1 lit_round). split; [reflexivity|]. split; [vm_compute; discriminate|].
  replace (pending (s_log lit_busy)) with [0; 1; 2; 3] by (vm_compute; reflexivity). cbn. intuition (subst; tauto).
Qed.

(** ** C89.  Success is reported only after exactly this message was written and the stick accepted it. *)
Theorem C89_success_means_accepted : forall cap s t k, 0 <= cap -> reachable cap s -> get s t = Some k -> sends (t_job k) ->
  In (OEnded t (OStatus 0)) (s_log s) ->
  exists o at_ bs lb, build (t_job k) = Ok o /\ frame_bytes o bs /\ outstanding t at_ bs lb (s_log s) /\
    (z_type o = SREQ -> exists r, In (OReceived r) lb /\ response_to o r /\ forall v, status_of r = Some v -> v = VInt 0).
Proof. exact success_means. Qed.
Print Assumptions C89_success_means_accepted.
Example C89_inhabited :
  let s := run [ECall (lit_desc_req 7); ERun 0; lit_got lit_accepted; ERun 0] lit_start in
  In (OEnded 0 (OStatus 0)) (s_log s) /\ (exists k, get s 0 = Some k /\ t_job k = lit_desc_req 7) /\
  exists o, build (lit_desc_req 7) = Ok o /\ z_type o = SREQ.
Proof.
  split; [vm_compute; repeat (first [left; reflexivity|right])|]. split; [vm_compute; eexists; split; reflexivity|].
  eexists. split; [vm_compute; reflexivity|]. reflexivity.
Qed.
