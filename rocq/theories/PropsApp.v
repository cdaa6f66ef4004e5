(** * Properties of reply matching and of the application's handling of messages *)
From Verif Require Import Base Types Uart Buffalo CmdTable Zpi Api App SpecCodec SpecApi CodecProofs2 RequestProofs ApiProofs AppProofs.

(** A few literal requests and messages used as examples. *)
Definition lit_devices : devices := [([1;2;3;4;5;6;7;8], 4660); ([8;7;6;5;4;3;2;1], 22136)].

(** ** C24.  Missing from the full claim: for the three requests without destination field the waiter
    cannot be created (see the refutation). *)
Theorem C24_data_confirmation_partial : forall nwk cluster src_ep dst_ep sequence data radius mode o s,
  from_cluster nwk 260 cluster src_ep dst_ep sequence data radius mode = Ok o ->
  exists m, create_response_waiter o s = Ok (Some (m, None)) /\
    forall f r, bytes_ok (f_data f) -> from_unpi_frame f = Ok r ->
      exists b, waiter_match m r = Ok b /\ (b = true <-> confirms sequence r).
Proof. exact data_waiter. Qed.
Print Assumptions C24_data_confirmation_partial.
Theorem C24_zdo_reply_partial : forall nwk profile cluster rsp src_ep dst_ep sequence data radius mode o s,
  profile <> 260 -> In (cluster, rsp) addressed_requests -> 0 <= nwk < 65536 -> bytes_ok data ->
  from_cluster nwk profile cluster src_ep dst_ep sequence data radius mode = Ok o ->
  exists m, create_response_waiter o s = Ok (Some (m, s)) /\
    forall f r, bytes_ok (f_data f) -> from_unpi_frame f = Ok r ->
      exists b, waiter_match m r = Ok b /\ (b = true <-> replies rsp nwk r).
Proof. exact zdo_waiter. Qed.
Print Assumptions C24_zdo_reply_partial.
Theorem C24_no_reply_no_waiter_partial : forall nwk profile cluster src_ep dst_ep sequence data radius mode o s,
  profile <> 260 -> ~ In cluster (map fst addressed_requests) -> ~ In cluster unaddressed_requests ->
  from_cluster nwk profile cluster src_ep dst_ep sequence data radius mode = Ok o ->
  create_response_waiter o s = Ok None.
Proof. exact no_waiter. Qed.
Print Assumptions C24_no_reply_no_waiter_partial.
(** Every address look-up or server discovery that the application can build fails. *)
Theorem C24_creation_fails_refuted : forall nwk profile cluster src_ep dst_ep sequence data radius mode o s,
  profile <> 260 -> In cluster unaddressed_requests -> 0 <= nwk < 65536 -> bytes_ok data ->
  from_cluster nwk profile cluster src_ep dst_ep sequence data radius mode = Ok o ->
  create_response_waiter o s = Err KeyError.
Proof. exact waiter_fails. Qed.
Print Assumptions C24_creation_fails_refuted.
Example C24_inhabited :
  (exists o, from_cluster 4660 0 2 0 0 7 [7; 52; 18] 30 None = Ok o /\
     create_response_waiter o (Some 7) = Ok (Some (mk_matcher AREQ ZDO "nodeDescRsp" [("srcaddr", VInt 4660)], Some 7))) /\
  (exists o, from_cluster 4660 260 6 1 1 9 [1; 9; 0] 30 None = Ok o /\
     create_response_waiter o (Some 9) = Ok (Some (mk_matcher AREQ AF "dataConfirm" [("transid", VInt 9)], None))) /\
  (exists o, from_cluster 4660 0 1 0 0 7 [7; 52; 18; 0; 0] 30 None = Ok o /\
     create_response_waiter o (Some 7) = Err KeyError) /\
  (exists r, from_unpi_frame (mk_frame AREQ ZDO 133 [52; 18; 0; 52; 18; 1; 11] None None) = Ok r /\
     waiter_match (mk_matcher AREQ ZDO "activeEpRsp" [("srcaddr", VInt 4660)]) r = Ok true /\
     waiter_match (mk_matcher AREQ ZDO "activeEpRsp" [("srcaddr", VInt 4661)]) r = Ok false).
Proof. repeat split; eexists; (split; [reflexivity|]); try reflexivity. split; reflexivity. Qed.

(** ** C39 *)
Theorem C39_responses_and_requests_silent : forall version devs o,
  z_type o <> AREQ -> handle_znp version devs o = (devs, [], Ok tt).
Proof. exact not_areq. Qed.
Print Assumptions C39_responses_and_requests_silent.
Theorem C39_ignored_silent : forall version devs f o,
  bytes_ok (f_data f) -> from_unpi_frame f = Ok o -> In (z_cmd o) ignored_names ->
  handle_znp version devs o = (devs, [], Ok tt).
Proof.
  intros version devs f o Hok H Hin. destruct (ct_eqb_spec (z_type o) AREQ) as [Ht|Ht]; [|apply not_areq, Ht].
  destruct (ignored_silent version devs o Hin) as (r & E & Hr).
  rewrite E, Hr; [reflexivity|]. eapply ignored_writable; eassumption.
Qed.
Print Assumptions C39_ignored_silent.
Example C39_inhabited : exists o,
  from_unpi_frame (mk_frame AREQ AF 128 [0; 1; 7] None None) = Ok o /\ In (z_cmd o) ignored_names /\ z_type o = AREQ.
Proof. eexists. split; [reflexivity|]. split; [cbn; tauto|reflexivity]. Qed.

(** ** C40 *)
Theorem C40_incoming_delivered :
  forall version devs group cluster src src_ep dst_ep bcast lqi sec time tsn data trailing len fcs ieee,
  incoming_ok group cluster src src_ep dst_ep bcast lqi sec time tsn data -> first_with src ieee devs ->
  exists o, from_unpi_frame (mk_frame AREQ AF 129
      (incoming_body group cluster src src_ep dst_ep bcast lqi sec time tsn data ++ trailing) len fcs) = Ok o /\
    handle_znp version devs o = (devs, [EMsg ieee lqi 0 260 cluster src_ep dst_ep data], Ok tt).
Proof. exact incoming_delivered. Qed.
Print Assumptions C40_incoming_delivered.
Theorem C40_unknown_sender_dropped :
  forall version devs group cluster src src_ep dst_ep bcast lqi sec time tsn data trailing len fcs,
  incoming_ok group cluster src src_ep dst_ep bcast lqi sec time tsn data -> none_with src devs ->
  exists o, from_unpi_frame (mk_frame AREQ AF 129
      (incoming_body group cluster src src_ep dst_ep bcast lqi sec time tsn data ++ trailing) len fcs) = Ok o /\
    handle_znp version devs o = (devs, [], Ok tt).
Proof. exact incoming_unknown. Qed.
Print Assumptions C40_unknown_sender_dropped.
Example C40_inhabited :
  incoming_ok 0 6 22136 1 2 0 120 0 1000 5 [24; 1; 10] /\ first_with 22136 [8;7;6;5;4;3;2;1] lit_devices /\
  none_with 9 lit_devices.
Proof.
  split. { unfold incoming_ok, byte_ok, bytes_ok. repeat (split || constructor); try (cbn; lia); try discriminate. }
  split. { exists [([1;2;3;4;5;6;7;8], 4660)], []. split; [reflexivity|]. repeat constructor. discriminate. }
  repeat constructor; discriminate.
Qed.

(** ** C41.  Missing from the full claim: a neighbour table reply is delivered with its reserved bits
    cleared (see the refutation).  [n] is the length of the reply proper, without trailing bytes. *)
Theorem C41_reply_delivered_partial : forall version devs f r cluster sequence nwk ieee,
  bytes_ok (f_data f) -> from_unpi_frame f = Ok r -> z_type r = AREQ -> z_sub r = ZDO ->
  In (z_cmd r, cluster) passed_replies -> byte_ok sequence ->
  dict_get (z_payload r) "srcaddr" = Some (VInt nwk) -> first_with nwk ieee devs ->
  exists n body, (n <= length (f_data f))%nat /\
    (forall m, (m < n)%nat -> read_parameters (firstn m (f_data f)) (z_params r) = Err OverflowError) /\
    Forall2 masked (firstn n (f_data f)) body /\
    (z_cmd r <> "mgmtLqiRsp" -> body = firstn n (f_data f)) /\
    handle_znp (Some version) devs (with_seq r (Some sequence)) =
      (devs, reply_led (z_cmd r) version ++ [EMsg ieee 0 0 260 cluster 0 0 (sequence :: skipn 2 body)], Ok tt).
Proof. exact reply_delivered. Qed.
Print Assumptions C41_reply_delivered_partial.
(** 22-byte neighbour entry with the reserved bits of the device-type byte and of the permit-join byte set *)
Definition lit_lqi_body : list Z :=
  [52; 18; 0; 1; 0; 1; 1;1;1;1;1;1;1;1; 2;2;2;2;2;2;2;2; 120; 86; 165; 252; 15; 255].
Theorem C41_reserved_bits_refuted : exists r,
  from_unpi_frame (mk_frame AREQ ZDO 177 lit_lqi_body None None) = Ok r /\
  z_type r = AREQ /\ z_sub r = ZDO /\ In (z_cmd r, 32817) passed_replies /\
  dict_get (z_payload r) "srcaddr" = Some (VInt 4660) /\
  first_with 4660 [1;2;3;4;5;6;7;8] lit_devices /\
  handle_znp (Some 1) lit_devices (with_seq r (Some 7)) =
    (lit_devices, [EMsg [1;2;3;4;5;6;7;8] 0 0 260 32817 0 0
      (7 :: [0; 1; 0; 1; 1;1;1;1;1;1;1;1; 2;2;2;2;2;2;2;2; 120; 86; 37; 0; 15; 255])], Ok tt) /\
  7 :: skipn 2 lit_lqi_body <> 7 :: [0; 1; 0; 1; 1;1;1;1;1;1;1;1; 2;2;2;2;2;2;2;2; 120; 86; 37; 0; 15; 255].
Proof.
  eexists. split; [vm_compute; reflexivity|]. split; [reflexivity|]. split; [reflexivity|].
  split; [cbn; tauto|]. split; [reflexivity|].
  split; [exists [], [([8;7;6;5;4;3;2;1], 22136)]; split; [reflexivity|constructor]|].
  split; [vm_compute; reflexivity|]. discriminate.
Qed.
Print Assumptions C41_reserved_bits_refuted.
Example C41_inhabited : exists r,
  from_unpi_frame (mk_frame AREQ ZDO 133 [52; 18; 0; 52; 18; 2; 1; 11] None None) = Ok r /\
  In (z_cmd r, 32773) passed_replies /\ dict_get (z_payload r) "srcaddr" = Some (VInt 4660) /\
  handle_znp (Some 1) lit_devices (with_seq r (Some 7)) =
    (lit_devices, [EMsg [1;2;3;4;5;6;7;8] 0 0 260 32773 0 0 [7; 0; 52; 18; 2; 1; 11]], Ok tt).
Proof. eexists. split; [vm_compute; reflexivity|]. split; [cbn; tauto|]. split; vm_compute; reflexivity. Qed.

(** ** C42 *)
Theorem C42_announcement_joins : forall version devs src nwk ieee cap trailing len fcs,
  0 <= src < 65536 -> 0 <= nwk < 65536 -> length ieee = 8%nat -> bytes_ok ieee -> byte_ok cap ->
  exists o devs', from_unpi_frame (mk_frame AREQ ZDO 193 (le2 src ++ le2 nwk ++ ieee ++ [cap] ++ trailing) len fcs) = Ok o /\
    handle_znp version devs o =
      (devs', [EJoin nwk ieee; EMsg ieee 0 0 260 19 0 0 (0 :: le2 nwk ++ ieee ++ [cap])], Ok tt) /\
    (forall i, lookup devs' i = if list_eq_dec Z.eq_dec ieee i then Some nwk else lookup devs i).
Proof.
  intros version devs src nwk ieee cap trailing len fcs Hs Hn Hl Hi Hc.
  destruct (announced version devs src nwk ieee cap trailing len fcs Hs Hn Hl Hi Hc) as (o & H1 & H2 & _).
  exists o, (join devs nwk ieee). split; [exact H1|]. split; [exact H2|].
  intro i. rewrite lookup_join. unfold ieee_eqb. destruct (list_eq_dec Z.eq_dec ieee i); reflexivity.
Qed.
Print Assumptions C42_announcement_joins.
Example C42_inhabited : exists o,
  from_unpi_frame (mk_frame AREQ ZDO 193 [52; 18; 52; 18; 1; 2; 3; 4; 5; 6; 7; 8; 142] None None) = Ok o /\
  handle_znp None [] o = ([([1;2;3;4;5;6;7;8], 4660)],
    [EJoin 4660 [1;2;3;4;5;6;7;8]; EMsg [1;2;3;4;5;6;7;8] 0 0 260 19 0 0 [0; 52; 18; 1; 2; 3; 4; 5; 6; 7; 8; 142]], Ok tt).
Proof. eexists. split; [vm_compute; reflexivity|vm_compute; reflexivity]. Qed.

(** ** C44.  The claim is false for every such message: it is dropped without error. *)
Theorem C44_extended_dropped_refuted : forall version devs f o,
  bytes_ok (f_data f) -> f_type f = AREQ -> f_sub f = AF -> f_id f = 130 -> from_unpi_frame f = Ok o ->
  handle_znp version devs o = (devs, [], Ok tt).
Proof. exact incoming_ext_dropped. Qed.
Print Assumptions C44_extended_dropped_refuted.
(** A message from the first device of the table, by its IEEE address. *)
Example C44_inhabited : exists o,
  from_unpi_frame (mk_frame AREQ AF 130
    [0; 0; 6; 0; 3; 1; 2; 3; 4; 5; 6; 7; 8; 1; 0; 0; 1; 0; 120; 0; 0; 0; 0; 0; 5; 2; 0; 24; 1] None None) = Ok o /\
  dict_get (z_payload o) "srcaddr" = Some (VEui [1;2;3;4;5;6;7;8]) /\
  dict_get (z_payload o) "data" = Some (VBytes [24; 1]) /\
  In [1;2;3;4;5;6;7;8] (map fst lit_devices).
Proof. eexists. split; [vm_compute; reflexivity|]. split; [reflexivity|]. split; [reflexivity|left; reflexivity]. Qed.
