(** * PropsMachine5: what received bytes lead to *)
From Verif Require Import Base Types Uart Buffalo CmdTable Zpi Api App Machine SpecWire SpecCodec SpecApi SpecMachine SpecTrace
  UartProofs2 AppProofs MachineInv MachineProofs6 MachineProofs9 MachineProofs10 MachineProofs11 MachineProofs12 PropsApp PropsMachine.

(** ** C71.  A command is written with exactly the parameters it was called with. *)
Theorem C71_command_written : forall cap s t k sub cs c ps pl d w at_ bs, 0 <= cap -> reachable cap s -> get s t = Some k ->
  t_job k = JCommand sub (c_name c) d w -> definition sub = Ok cs -> In c cs -> c_request c = Some ps ->
  payload_fits None ps pl -> SpecCodec.holds d pl -> In (OWritten t at_ bs) (s_log s) ->
  exists body, payload_wire None ps pl body /\ (length body <= 255)%nat /\ bs = wire (type_code (c_type c)) (sub_code sub) (c_ID c) body.
Proof. exact command_written. Qed.
Print Assumptions C71_command_written.
Definition lit_led : job := JCommand UTIL "ledControl" [("ledid", VInt 3); ("mode", VInt 1)] [0].
Example C71_command_inhabited :
  let s := run [ECall lit_led; ERun 0] lit_start in
  (exists k, get s 0 = Some k /\ t_job k = lit_led) /\ In (OWritten 0 0 [254; 2; 39; 10; 3; 1; 45]) (s_log s) /\
  exists c, In c def_UTIL /\ c_name c = "ledControl"%string /\ c_request c = Some [("ledid"%string, UINT8); ("mode"%string, UINT8)].
Proof.
  split; [vm_compute; eexists; split; reflexivity|]. split; [vm_compute; repeat (first [left; reflexivity|right])|].
  exists (nth 0 (filter (fun c => c_ID c =? 10) def_UTIL) (mk_cmd "" 0 SREQ None None)).
  split; [vm_compute; repeat (first [left; reflexivity|right])|]. split; reflexivity.
Qed.

(** ** C90.  One read hands over its messages up to and including the first that fails, and loses the others; the
    next read starts afresh. *)
Theorem C90_read : forall S (h : S -> frame -> S * result unit) rs s, Forall raw_ok rs ->
  gw_data_received h [] s (concat (map raw_wire rs)) = ([], fst (read_of h s rs), snd (read_of h s rs)).
Proof. intros S h rs s H. apply read_raw, H. Qed.
Print Assumptions C90_read.
Theorem C90_reads : forall S (h : S -> frame -> S * result unit) rss s, Forall (Forall raw_ok) rss ->
  gw_chunks h [] s (map (fun rs => concat (map raw_wire rs)) rss) = ([], fst (reads_of h s rss), snd (reads_of h s rss)).
Proof. intros S h rss s H. apply reads_raw, H. Qed.
Print Assumptions C90_reads.
(** After a failure the rest of the read has no influence at all, whatever it is. *)
Theorem C90_rest_discarded : forall S (h : S -> frame -> S * result unit) data buf s b' s' e,
  gw_data_received h buf s data = (b', s', Err e) ->
  exists pre rest, data = pre ++ rest /\ pre <> [] /\ forall more, gw_data_received h buf s (pre ++ more) = (b', s', Err e).
Proof. intros S h. exact (rest_discarded h). Qed.
Print Assumptions C90_rest_discarded.
Definition lit_log (s : list Z) (f : frame) : list Z * result unit := (s ++ [f_id f], if f_id f =? 9 then Err KeyError else Ok tt).
Example C90_inhabited :
  let good1 := (2, 4, 1, [1]) in let bad_type := (6, 4, 2, [2]) in let refused := (2, 4, 9, [3]) in let good2 := (2, 4, 3, [4]) in
  Forall raw_ok [good1; bad_type; refused; good2] /\
  reads_of lit_log [] [[good1; bad_type; good2]; [good2; refused; good1]; [good1]] = ([1; 3; 9; 1], [ValueError; KeyError]).
Proof. cbv zeta. split; [|reflexivity]. repeat constructor; try discriminate; cbn; lia. Qed.

(** ** C91.  Exactly which messages make receiving fail, and how. *)
Theorem C91_which_messages_fail : forall cap s f r, 0 <= cap -> reachable cap s -> bytes_ok (f_data f) -> from_unpi_frame f = Ok r ->
  (forall t k m to, get s t = Some k -> t_job k = JWaitFor m to -> has_fields m r) ->
  (forall t k nwk cluster q data, get s t = Some k -> asks (t_job k) nwk cluster q data -> byte_ok q) ->
  forall res, snd (data_received s f) = res <-> if s_app s then ends_with (s_version s) r res else res = Ok tt.
Proof.
  intros cap s f r Hc Hr Hok Hf Hw Hq res. pose proof (receiving_ends cap s f r Hc Hr Hok Hf Hw) as H.
  assert (B : forall w q, In w (s_waiters s) -> w_seq w = Some q -> byte_ok q).
  { intros w q Hin E. destruct (reachable_asked cap s Hr w q Hin E) as (t & k & nwk & cluster & data & rsp & a & G & Ha & _). eapply Hq; eassumption. }
  specialize (H B). destruct (s_app s).
  - split; [intros <-; exact H|]. intro H'. eapply ends_with_unique; eassumption.
  - rewrite H. split; congruence.
Qed.
Print Assumptions C91_which_messages_fail.
(** A message that cannot be decoded changes nothing. *)
Theorem C91_undecodable : forall s f e, from_unpi_frame f = Err e -> data_received s f = (s, Err e).
Proof. intros s f e H. unfold data_received. rewrite H. reflexivity. Qed.
Print Assumptions C91_undecodable.
(** an orphan notification, and an announced start of permission to join before the version is known *)
Definition lit_orphan : frame := lit_frame AREQ MAC 138 [1; 2; 3; 4; 5; 6; 7; 8; 0; 0; 0; 0; 0; 0; 0; 0; 0; 0; 0].
Definition lit_permit_ind : frame := lit_frame AREQ ZDO 203 [60].
Example C91_inhabited :
  snd (data_received lit_start lit_orphan) = Err TODO /\ snd (data_received lit_start lit_permit_ind) = Ok tt /\
  snd (data_received (init 2 None lit_devices true) lit_permit_ind) = Err KeyError /\
  snd (data_received (init 2 None lit_devices false) lit_permit_ind) = Ok tt /\
  snd (data_received lit_start (lit_frame AREQ ZDO 203 [])) = Err OverflowError.
Proof. vm_compute. repeat split. Qed.

(** ** C40, C42 on the level of bytes: from what the serial port delivers to what zigpy gets, in any state of the
    machine in which nobody called wait_for for this very message. *)
Theorem C40_bytes_to_delivery : forall cap s group cluster src src_ep dst_ep bcast lqi sec time tsn data trailing,
  0 <= cap -> reachable cap s -> s_app s = true -> s_buf s = [] -> nobody_waits_for AREQ AF "incomingMsg" s ->
  incoming_ok group cluster src src_ep dst_ep bcast lqi sec time tsn data -> bytes_ok trailing ->
  let body := incoming_body group cluster src src_ep dst_ep bcast lqi sec time tsn data ++ trailing in
  (length body <= 255)%nat ->
  exists r, from_unpi_frame (received (c_frame AREQ AF 129 body)) = Ok r /\
    (forall ieee, first_with src ieee (s_devs s) ->
      step (ERecv (wire 2 4 129 body)) s = note (OEffect (EMsg ieee lqi 0 260 cluster src_ep dst_ep data)) (note (OReceived r) s)) /\
    (none_with src (s_devs s) -> step (ERecv (wire 2 4 129 body)) s = note (OReceived r) s).
Proof. exact incoming_received. Qed.
Print Assumptions C40_bytes_to_delivery.
Theorem C42_bytes_to_join : forall cap s src nwk ieee caps trailing,
  0 <= cap -> reachable cap s -> s_app s = true -> s_buf s = [] -> nobody_waits_for AREQ ZDO "endDeviceAnnceInd" s ->
  0 <= src < 65536 -> 0 <= nwk < 65536 -> length ieee = 8%nat -> bytes_ok ieee -> byte_ok caps -> bytes_ok trailing ->
  let body := le2 src ++ le2 nwk ++ ieee ++ [caps] ++ trailing in
  (length body <= 255)%nat ->
  exists r devs, from_unpi_frame (received (c_frame AREQ ZDO 193 body)) = Ok r /\
    step (ERecv (wire 2 5 193 body)) s =
      note (OEffect (EMsg ieee 0 0 260 19 0 0 (0 :: le2 nwk ++ ieee ++ [caps]))) (note (OEffect (EJoin nwk ieee)) (set_devs devs (note (OReceived r) s))) /\
    forall i, lookup devs i = if list_eq_dec Z.eq_dec ieee i then Some nwk else lookup (s_devs s) i.
Proof. exact announcement_received. Qed.
Print Assumptions C42_bytes_to_join.
(** with a request running: a message of a known device, an announcement of a new one, a message of that one *)
Definition lit_incoming (src : Z) : list Z := wire 2 4 129 (incoming_body 0 6 src 1 1 0 200 0 5 9 [24; 7; 1]).
Definition lit_joins : list Z := wire 2 5 193 (le2 999 ++ le2 999 ++ [9; 9; 9; 9; 9; 9; 9; 9] ++ [142]).
Definition lit_traffic : st := run [ECall (lit_desc_req 7); ERun 0; ERecv (lit_incoming 4660); ERecv (lit_incoming 999); ERecv lit_joins; ERecv (lit_incoming 999)] lit_start.
Example C40_C42_bytes_inhabited :
  effects (s_log lit_traffic) =
    [EMsg [1; 2; 3; 4; 5; 6; 7; 8] 200 0 260 6 1 1 [24; 7; 1]; EJoin 999 [9; 9; 9; 9; 9; 9; 9; 9];
     EMsg [9; 9; 9; 9; 9; 9; 9; 9] 0 0 260 19 0 0 [0; 231; 3; 9; 9; 9; 9; 9; 9; 9; 9; 142]; EMsg [9; 9; 9; 9; 9; 9; 9; 9] 200 0 260 6 1 1 [24; 7; 1]] /\
  s_buf lit_traffic = [] /\ s_app lit_traffic = true /\ nobody_waits_for AREQ AF "incomingMsg" lit_traffic.
Proof.
  split; [vm_compute; reflexivity|]. split; [reflexivity|]. split; [reflexivity|].
  intros t k m to G Hj. exfalso. unfold lit_traffic, get in G. vm_compute in G. destruct t as [|p|p]; try discriminate G.
  injection G as <-. discriminate Hj.
Qed.

(** ** C92.  Everything handed to zigpy, and every LED command, comes from a message received just before: between
    the two there is nothing but what else the message led to.  [stems] says which messages lead to what; a ZDO
    reply is passed on only under the sequence number of a request to that node that a caller made. *)
Theorem C92_effects_stem_from_messages : forall cap v d0 a es pre e lb, let s := run es (init cap v d0 a) in s_log s = pre ++ OEffect e :: lb ->
  exists la o lm q, pre = la ++ OReceived o :: lm /\ Forall (follows o) lm /\ stems o q (known d0 pre) e /\
    (forall b, q = Some b -> attributed s o b).
Proof. exact effect_stems. Qed.
Print Assumptions C92_effects_stem_from_messages.
Example C92_inhabited : exists pre e lb, s_log lit_traffic = pre ++ OEffect e :: lb /\
  e = EMsg [9; 9; 9; 9; 9; 9; 9; 9] 200 0 260 6 1 1 [24; 7; 1] /\ announced_nwk pre [9; 9; 9; 9; 9; 9; 9; 9] = Some 999.
Proof.
  exists (removelast (s_log lit_traffic)). eexists. exists []. split; [vm_compute; reflexivity|]. split; [reflexivity|]. vm_compute. reflexivity.
Qed.

(** ** C93.  At any time the device table is the initial one brought up to date with the announcements received:
    nothing else adds, changes or removes a device, and no device is in it twice. *)
Theorem C93_device_table : forall cap v d a es, let s := run es (init cap v d a) in
  s_devs s = known d (s_log s) /\ up_to_date d (s_log s) (s_devs s) /\ (exists new, map fst (s_devs s) = map fst d ++ new) /\ (NoDup (map fst d) -> NoDup (map fst (s_devs s))).
Proof. exact device_table. Qed.
Print Assumptions C93_device_table.
Example C93_inhabited : NoDup (map fst lit_devices) /\ s_devs lit_traffic = lit_devices ++ [([9; 9; 9; 9; 9; 9; 9; 9], 999)].
Proof. split; [|vm_compute; reflexivity]. repeat constructor; cbn; intuition discriminate. Qed.

(** ** C94.  Receiving sends nothing, takes or frees no slot, touches no running operation; all it can start is an
    LED command. *)
Theorem C94_receiving_sends_nothing : forall s data, let s' := step (ERecv data) s in
  s_wire s' = s_wire s /\ s_lock s' = s_lock s /\ s_queue s' = s_queue s /\ s_sem s' = s_sem s /\ s_open s' = s_open s /\
  s_now s' = s_now s /\ s_timers s' = s_timers s /\ s_version s' = s_version s /\
  (forall t k, get s t = Some k -> get s' t = Some k) /\
  (forall t k, get s' t = Some k -> get s t = Some k \/
     exists mode, k = mk_task (JCommand UTIL "ledControl" [("ledid"%string, VInt 3); ("mode"%string, VInt mode)] [0]) PStart None None).
Proof. intros s data. destruct (receives_step s data). cbv zeta. repeat (split; [assumption|]). assumption. Qed.
Print Assumptions C94_receiving_sends_nothing.
(** And once the port is closed nothing is written any more, whatever happens. *)
Theorem C94_closed_is_final : forall cap s es, reachable cap s ->
  s_wire (run (EClose :: es) s) = s_wire s /\ written_bytes (s_log (run (EClose :: es) s)) = written_bytes (s_log s).
Proof. exact close_is_final. Qed.
Print Assumptions C94_closed_is_final.
Example C94_inhabited :
  let s := run [ECall lit_ping; ERun 0; EVersion 0; lit_got lit_permit_ind] lit_start in
  length (s_wire s) = 1%nat /\ (exists k, get s 1 = Some k /\ t_job k = JCommand UTIL "ledControl" [("ledid"%string, VInt 3); ("mode"%string, VInt 1)] [0]) /\
  length (s_wire (run [lit_got lit_pong; ERun 0; ERun 1] s)) = 2%nat /\ length (s_wire (run [EClose; lit_got lit_pong; ERun 0; ERun 1] s)) = 1%nat /\
  In (OEnded 1 (OExn AttributeError)) (s_log (run [EClose; lit_got lit_pong; ERun 0; ERun 1] s)).
Proof.
  split; [vm_compute; reflexivity|]. split; [vm_compute; eexists; split; reflexivity|]. split; [vm_compute; reflexivity|]. split; [vm_compute; reflexivity|].
  vm_compute. repeat (first [left; reflexivity|right]).
Qed.
