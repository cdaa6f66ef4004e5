(** * PropsExact: properties C104-C110, exact behaviour where C11, C23, C24, C28, C41, C44 and C64 fail in corners *)
From Coq Require Import ZifyBool ZifyNat.
From Verif Require Import Base Types Uart Buffalo CmdTable Zpi Api App Machine SpecWire SpecCodec SpecApi SpecMachine SpecReply SpecExact MachineBase MachineInv MachineInv5 PropsApp PropsMachine
  AppProofs MachineReply ExactProofs.

(** ** C104.  Which of the requests that wait for the same reply gets it, and under which number it is handed over. *)
Theorem C104_reply_attribution : forall cap s rsp cluster nwk v ieee f r,
  0 <= cap -> reachable cap s -> s_app s = true -> s_version s = Some v -> first_with nwk ieee (s_devs s) -> node_named rsp s ->
  In (rsp, cluster) passed_replies -> bytes_ok (f_data f) -> from_unpi_frame f = Ok r -> replies rsp nwk r ->
  let s' := fst (data_received s f) in let ws := filter (asks_for rsp nwk) (s_waiters s) in
  filter (asks_for rsp nwk) (s_waiters s') = left_waiting ws /\
  filter (fun w => negb (asks_for rsp nwk w)) (s_waiters s') = filter (fun w => negb (asks_for rsp nwk w)) (s_waiters s) /\
  (forall w, In w (served ws) -> s_futs s (w_id w) = FPending -> s_futs s' (w_id w) = FDone r) /\
  (forall j, ~ In j (map w_id (served ws)) -> s_futs s' j = s_futs s j) /\
  match number ws with
  | None => messages (s_log s') = messages (s_log s)
  | Some q => exists n body, Forall2 masked (firstn n (f_data f)) body /\ (rsp <> "mgmtLqiRsp" -> body = firstn n (f_data f)) /\
      (forall m, (m < n)%nat -> read_parameters (firstn m (f_data f)) (z_params r) = Err OverflowError) /\
      messages (s_log s') = messages (s_log s) ++ [q :: skipn 2 body]
  end.
Proof.
  intros cap s rsp cluster nwk v ieee f r Hc Hr Ha Hv Hd Hn Hin Hok Hf Hrep. cbv zeta.
  assert (Hs : set_up rsp nwk v ieee s) by (split; [exact (I_core _ _ (reachable_inv cap s Hc Hr))|]; auto).
  destruct (attributed rsp cluster nwk v ieee Hin s f r Hs Hok Hf Hrep) as (_ & H). exact H.
Qed.
Print Assumptions C104_reply_attribution.
(** Replies in a row. *)
Theorem C104_replies_in_a_row : forall cap s rsp cluster nwk v ieee fs rs,
  0 <= cap -> reachable cap s -> s_app s = true -> s_version s = Some v -> first_with nwk ieee (s_devs s) -> node_named rsp s ->
  In (rsp, cluster) passed_replies -> Forall2 (fun f r => bytes_ok (f_data f) /\ from_unpi_frame f = Ok r /\ replies rsp nwk r) fs rs ->
  exists msgs, messages (s_log (frames_received fs s)) = messages (s_log s) ++ msgs /\
    map (hd 0) msgs = numbers (length fs) (filter (asks_for rsp nwk) (s_waiters s)).
Proof.
  intros cap s rsp cluster nwk v ieee fs rs Hc Hr Ha Hv Hd Hn Hin HF.
  apply (in_a_row rsp cluster nwk v ieee Hin fs rs s); [|exact HF].
  split; [exact (I_core _ _ (reachable_inv cap s Hc Hr))|]. auto.
Qed.
Print Assumptions C104_replies_in_a_row.
(** Of two requests with the numbers 0 and 8 one reply completes both and is handed over under the number 8. *)
Definition lit_zero_eight : st := run [ECall (lit_desc_req 0); ERun 0; ECall (lit_desc_req 8); ERun 1] lit_start.
Example C104_inhabited : reachable 2 lit_zero_eight /\ s_app lit_zero_eight = true /\ s_version lit_zero_eight = Some 1 /\
  first_with 4660 [1;2;3;4;5;6;7;8] (s_devs lit_zero_eight) /\ node_named "nodeDescRsp" lit_zero_eight /\ In ("nodeDescRsp", 32770) passed_replies /\
  (exists r, from_unpi_frame lit_desc = Ok r /\ replies "nodeDescRsp" 4660 r) /\
  map w_seq (filter (asks_for "nodeDescRsp" 4660) (s_waiters lit_zero_eight)) = [Some 0; Some 8] /\
  number (filter (asks_for "nodeDescRsp" 4660) (s_waiters lit_zero_eight)) = Some 8 /\
  length (served (filter (asks_for "nodeDescRsp" 4660) (s_waiters lit_zero_eight))) = 2%nat /\
  map (hd 0) (messages (s_log (fst (data_received lit_zero_eight lit_desc)))) = [8].
Proof.
  split; [unfold lit_zero_eight; apply lit_reachable|]. split; [vm_compute; reflexivity|]. split; [vm_compute; reflexivity|].
  split; [exists [], [([8;7;6;5;4;3;2;1], 22136)]; split; [vm_compute; reflexivity|constructor]|].
  split; [|split; [left; reflexivity|split; [eexists; split; [vm_compute; reflexivity|repeat split]|vm_compute; repeat split; reflexivity]]].
  unfold node_named. assert (W : map (fun w => (w_matcher w, w_seq w)) (s_waiters lit_zero_eight) =
    [(mk_matcher AREQ ZDO "nodeDescRsp" [("srcaddr", VInt 4660)], Some 0); (mk_matcher SRSP ZDO "nodeDescReq" [], None);
     (mk_matcher AREQ ZDO "nodeDescRsp" [("srcaddr", VInt 4660)], Some 8)]) by (vm_compute; reflexivity).
  intros w Hw T S C. apply (in_map (fun w => (w_matcher w, w_seq w))) in Hw. rewrite W in Hw. cbn [In] in Hw.
  destruct Hw as [E|[E|[E|[]]]]; injection E as E1 E2; rewrite <- E1, <- E2 in *; try discriminate T;
    (split; [eexists; reflexivity|intros q Hq; injection Hq as <-; lia]).
Qed.

(** ** C105.  Neighbour tables, byte for byte: which frames are accepted and what is handed over. *)
Theorem C105_neighbour_table_accepted : forall nwk status total start entries rest,
  0 <= nwk < 65536 -> byte_ok status -> byte_ok total -> byte_ok start -> lqi_entries entries ->
  exists r, from_unpi_frame (mk_frame AREQ ZDO 177 (lqi_reply nwk status total start entries rest) None None) = Ok r.
Proof. exact lqi_decodes. Qed.
Print Assumptions C105_neighbour_table_accepted.
Theorem C105_neighbour_table_delivered : forall f r, bytes_ok (f_data f) -> f_type f = AREQ -> f_sub f = ZDO -> f_id f = 177 -> from_unpi_frame f = Ok r ->
  exists nwk status total start entries rest, f_data f = lqi_reply nwk status total start entries rest /\ 0 <= nwk < 65536 /\ lqi_entries entries /\
  forall version devs sequence ieee, byte_ok sequence -> first_with nwk ieee devs ->
    handle_znp (Some version) devs (with_seq r (Some sequence)) =
    (devs, [EMsg ieee 0 0 260 32817 0 0 (sequence :: [status; total; start; Z.of_nat (length entries)] ++ concat (map entry_kept entries))], Ok tt).
Proof. exact lqi_delivered. Qed.
Print Assumptions C105_neighbour_table_delivered.
Definition lit_entry : list Z := [1;1;1;1;1;1;1;1; 2;2;2;2;2;2;2;2; 120; 86; 165; 252; 15; 255].
Example C105_inhabited : lqi_entries [lit_entry] /\ lqi_reply 4660 0 1 0 [lit_entry] [] = lit_lqi_body /\
  entry_kept lit_entry = [1;1;1;1;1;1;1;1; 2;2;2;2;2;2;2;2; 120; 86; 37; 0; 15; 255] /\
  exists r, from_unpi_frame (mk_frame AREQ ZDO 177 (lit_lqi_body ++ [9]) None None) = Ok r.
Proof.
  split; [split; [cbn [length]; lia|]|split; [reflexivity|split; [reflexivity|eexists; vm_compute; reflexivity]]].
  constructor; [|constructor]. split; [reflexivity|]. unfold lit_entry, bytes_ok. repeat (apply Forall_cons; [unfold byte_ok; lia|]). apply Forall_nil.
Qed.

(** ** C106.  Outside profile 260 neither the profile nor the endpoints, the radius or the address mode have any influence. *)
Theorem C106_profile_ignored : forall nwk profile profile' cluster src src' dst dst' sequence sequence' data radius radius' mode mode',
  profile <> 260 -> profile' <> 260 ->
  same_but_seq (from_cluster nwk profile cluster src dst sequence data radius mode) (from_cluster nwk profile' cluster src' dst' sequence' data radius' mode').
Proof. exact (fun nwk p p' cluster s s' d d' q q' data r r' m m' => profile_irrelevant nwk p p' cluster s s' d d' q q' data r r' m m'). Qed.
Print Assumptions C106_profile_ignored.
Example C106_inhabited : exists o, from_cluster 4660 49246 5 1 11 7 [7; 52; 18] 30 None = Ok o /\ z_cmd o = "activeEpReq" /\
  from_cluster 4660 0 5 0 0 9 [7; 52; 18] 1 (Some 15) = Ok (with_seq o (Some 9)).
Proof. eexists. split; [vm_compute; reflexivity|]. split; vm_compute; reflexivity. Qed.

(** ** C107.  Address look-ups and server discoveries that await a reply end at once and change nothing else. *)
Theorem C107_lookup_fails_at_once : forall s t k nwk profile cluster src_ep dst_ep sequence data,
  get s t = Some k -> t_phase k = PStart -> t_job k = JRequest nwk profile cluster src_ep dst_ep sequence data true ->
  profile <> 260 -> In cluster unaddressed_requests -> bytes_ok data ->
  let s' := step (ERun t) s in
  (exists e, s_log s' = s_log s ++ [OEnded t (OExn e)]) /\ s_wire s' = s_wire s /\ s_waiters s' = s_waiters s /\ s_sem s' = s_sem s /\ s_lock s' = s_lock s /\ s_queue s' = s_queue s /\
  (0 <= nwk < 65536 -> forall o, build (t_job k) = Ok o -> s_log s' = s_log s ++ [OEnded t (OExn KeyError)]).
Proof. exact lookup_fails. Qed.
Print Assumptions C107_lookup_fails_at_once.
Definition lit_lookup : job := JRequest 4660 0 1 0 0 7 [7; 52; 18; 0; 0] true.
Example C107_inhabited : let s := run [ECall lit_lookup] lit_start in
  (exists k, get s 0 = Some k /\ t_phase k = PStart /\ t_job k = lit_lookup) /\ In 1 unaddressed_requests /\ (exists o, build lit_lookup = Ok o) /\
  s_wire (step (ERun 0) s) = [] /\ s_log (step (ERun 0) s) = s_log s ++ [OEnded 0 (OExn KeyError)].
Proof. vm_compute. split; [eexists; repeat split|]. split; [right; left; reflexivity|]. split; [eexists; reflexivity|]. split; reflexivity. Qed.

(** ** C108.  An extended incoming message is noted, completes waits made for it, and that is all. *)
Theorem C108_extended_only_noted : forall s f r,
  bytes_ok (f_data f) -> f_type f = AREQ -> f_sub f = AF -> f_id f = 130 -> from_unpi_frame f = Ok r ->
  let s' := fst (data_received s f) in
  s_devs s' = s_devs s /\ s_tasks s' = s_tasks s /\ s_wire s' = s_wire s /\
  exists ids, s_log s' = s_log s ++ OReceived r :: map (fun i => OCompleted i r) ids.
Proof. exact ext_dropped. Qed.
Print Assumptions C108_extended_only_noted.
(** All waits made for it are completed, and no others. *)
Theorem C108_waits_completed : forall cap s f r, 0 <= cap -> reachable cap s ->
  bytes_ok (f_data f) -> f_type f = AREQ -> f_sub f = AF -> f_id f = 130 -> from_unpi_frame f = Ok r ->
  (forall t k m to, get s t = Some k -> t_job k = JWaitFor m to -> has_fields m r) ->
  let s' := fst (data_received s f) in
  (forall w, In w (s_waiters s') <-> In w (s_waiters s) /\ ~ answers (w_matcher w) r) /\
  (forall w, In w (s_waiters s) -> answers (w_matcher w) r -> s_futs s' (w_id w) = match s_futs s (w_id w) with FPending => FDone r | x => x end) /\
  (forall i, (forall w, In w (s_waiters s) -> answers (w_matcher w) r -> w_id w <> i) -> s_futs s' i = s_futs s i) /\
  exists ids, completions (s_log s') = completions (s_log s) ++ ids /\ forall i, In i ids <-> exists w, In w (s_waiters s) /\ answers (w_matcher w) r /\ w_id w = i.
Proof. exact ext_completes. Qed.
Print Assumptions C108_waits_completed.
Definition lit_ext : frame :=
  lit_frame AREQ AF 130 [0; 0; 6; 0; 3; 1; 2; 3; 4; 5; 6; 7; 8; 1; 0; 0; 1; 0; 120; 0; 0; 0; 0; 0; 5; 2; 0; 24; 1].
Definition lit_ext_wait : st := run [ECall (JWaitFor (mk_matcher AREQ AF "incomingMsgExt" []) 5000); ERun 0] lit_start.
Example C108_inhabited : exists r, from_unpi_frame lit_ext = Ok r /\
  s_log (fst (data_received lit_ext_wait lit_ext)) = s_log lit_ext_wait ++ [OReceived r; OCompleted 0 r].
Proof. eexists. split; vm_compute; reflexivity. Qed.
Definition lit_ext_waits : list event :=
  [ECall (JWaitFor (mk_matcher AREQ AF "incomingMsgExt" []) 5000); ERun 0; ECall (JWaitFor (mk_matcher AREQ AF "dataConfirm" []) 5000); ERun 1].
Example C108_waits_inhabited : let s := run lit_ext_waits lit_start in
  reachable 2 s /\ (exists r, from_unpi_frame lit_ext = Ok r /\ forall t k m to, get s t = Some k -> t_job k = JWaitFor m to -> has_fields m r) /\
  map w_id (s_waiters s) = [0; 1] /\ map w_id (s_waiters (fst (data_received s lit_ext))) = [1].
Proof.
  split; [apply lit_reachable|]. split; [|split; vm_compute; reflexivity].
  eexists. split; [vm_compute; reflexivity|]. intros t k m to H E _ _ _.
  assert (Hm : m_payload m = []); [|rewrite Hm; constructor].
  unfold get in H. set (l := s_tasks _) in H. vm_compute in l. subst l. cbn [assoc] in H.
  destruct (_ =? t) in H; [injection H as <-; cbn [t_job] in E; injection E as <- _; reflexivity|].
  destruct (_ =? t) in H; [injection H as <-; cbn [t_job] in E; injection E as <- _; reflexivity|discriminate].
Qed.

(** ** C109.  Sizes: exactly which messages of profile 260 have a frame, and how long it is. *)
Theorem C109_unicast_size : forall nwk cluster src_ep dst_ep sequence data reply, bytes_ok data ->
  exists o, build (JRequest nwk 260 cluster src_ep dst_ep sequence data reply) = Ok o /\
    ((exists bs, frame_bytes o bs) <-> af_fields_ok nwk cluster src_ep dst_ep sequence 30 data) /\
    forall bs, frame_bytes o bs -> nth 1 bs 0 = 10 + Z.of_nat (length data) /\ length bs = (15 + length data)%nat.
Proof. exact unicast_size. Qed.
Print Assumptions C109_unicast_size.
Theorem C109_multicast_size : forall group cluster src_ep sequence data, bytes_ok data ->
  exists o, build (JMulticast group 260 cluster src_ep sequence data) = Ok o /\
    ((exists bs, frame_bytes o bs) <-> af_ext_fields_ok 1 group cluster (if src_ep =? 0 then 1 else src_ep) 255 sequence 30 data) /\
    forall bs, frame_bytes o bs -> nth 1 bs 0 = 20 + Z.of_nat (length data) /\ length bs = (25 + length data)%nat.
Proof. exact multicast_size. Qed.
Print Assumptions C109_multicast_size.
Theorem C109_broadcast_size : forall cluster src_ep dst_ep radius sequence data a, bytes_ok data ->
  exists o, build (JBroadcast 260 cluster src_ep dst_ep radius sequence data a) = Ok o /\
    ((exists bs, frame_bytes o bs) <-> af_ext_fields_ok 2 a cluster src_ep dst_ep sequence radius data) /\
    forall bs, frame_bytes o bs -> nth 1 bs 0 = 20 + Z.of_nat (length data) /\ length bs = (25 + length data)%nat.
Proof. exact broadcast_size. Qed.
Print Assumptions C109_broadcast_size.
(** The largest message that respects the limit of 250 bytes, the largest that is sent, and the first that is refused. *)
Example C109_inhabited : af_fields_ok 4660 6 1 1 7 30 (repeat 0 240) /\ af_fields_ok 4660 6 1 1 7 30 (repeat 0 245) /\
  ~ af_fields_ok 4660 6 1 1 7 30 (repeat 0 246) /\ af_ext_fields_ok 2 65533 6 1 255 7 30 (repeat 0 235) /\ ~ af_ext_fields_ok 2 65533 6 1 255 7 30 (repeat 0 236).
Proof. unfold af_fields_ok, af_ext_fields_ok, byte_ok. rewrite !repeat_length. repeat split; lia. Qed.

(** ** C110.  The bytes of the two address look-ups: the address of the node to be asked stands where the address asked for belongs. *)
Theorem C110_short_address_lookup : forall nwk a rest seq e1 e2 s r m w, 0 <= nwk < 65536 -> length a = 8%nat -> bytes_ok a ->
  exists o f, from_cluster nwk 0 0 e1 e2 s (seq :: a ++ rest) r m = Ok o /\ to_unpi_frame o = Ok f /\
    gw_send w f = (w ++ [wire 1 5 0 (le2 nwk ++ a)], Ok tt).
Proof. exact nwk_lookup_bytes. Qed.
Print Assumptions C110_short_address_lookup.
Theorem C110_ieee_address_lookup : forall nwk lo hi rest seq e1 e2 s r m w, 0 <= nwk < 65536 -> byte_ok lo -> byte_ok hi ->
  exists o f, from_cluster nwk 0 1 e1 e2 s (seq :: [lo; hi] ++ rest) r m = Ok o /\ to_unpi_frame o = Ok f /\
    gw_send w f = (w ++ [wire 1 5 1 (le2 nwk ++ [lo; hi])], Ok tt).
Proof. exact ieee_lookup_bytes. Qed.
Print Assumptions C110_ieee_address_lookup.
(** A request to node 0x0000 for the short address of 01..08 asks for the address of another device. *)
Example C110_inhabited : wire 1 5 0 (le2 0 ++ [1; 2; 3; 4; 5; 6; 7; 8]) = [254; 10; 37; 0; 0; 0; 1; 2; 3; 4; 5; 6; 7; 8; 39] /\
  (exists o f, from_cluster 0 0 0 0 0 7 [7; 1; 2; 3; 4; 5; 6; 7; 8; 0; 0] 30 None = Ok o /\ to_unpi_frame o = Ok f /\ f_data f = [0; 0; 1; 2; 3; 4; 5; 6; 7; 8]).
Proof. split; [reflexivity|]. do 2 eexists. split; [vm_compute; reflexivity|]. split; vm_compute; reflexivity. Qed.
