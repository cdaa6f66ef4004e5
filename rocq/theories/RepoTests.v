(** * RepoTests: the project's own tests, replayed on the model.  These are tests, not proofs of any property:
    they show that the model gives the values that the authors of the code expect.
    Left out: tests of zigpy (test_types.py:18-63, 317-342), of mocks, and tests that are skipped. *)
From Verif Require Import Base Types Uart Buffalo CmdTable Zpi Api App Machine Life.

Definition call_list (s : list frame) (f : frame) : list frame * result unit := (s ++ [f], Ok tt).
Definition gw (chunks : list (list Z)) := gw_chunks call_list [] [] chunks.

(** ** tests/test_uart.py *)
Definition uart_data (x fcs : Z) : list Z := [254; 14; 97; 2; 2; 0; 2; 6; 3; 144; 21; 52; 1; 2; x; 0; 0; 0; fcs].
(** test_uart.py:54-64 *)
Example test_data_received_chunk_frame :
  gw [firstn 15 (uart_data 0 218)] = (firstn 15 (uart_data 0 218), [], []) /\
  gw [firstn 15 (uart_data 0 218); skipn 15 (uart_data 0 218)] =
    ([], [mk_frame SRSP SYS 2 [2; 0; 2; 6; 3; 144; 21; 52; 1; 2; 0; 0; 0; 0] (Some 14) (Some 218)], []).
Proof. split; vm_compute; reflexivity. Qed.
(** test_uart.py:67-74 *)
Example test_data_received_full_frame : gw [uart_data 1 219] =
  ([], [mk_frame SRSP SYS 2 [2; 0; 2; 6; 3; 144; 21; 52; 1; 2; 1; 0; 0; 0] (Some 14) (Some 219)], []).
Proof. vm_compute. reflexivity. Qed.
(** test_uart.py:77-86 *)
Example test_data_received_incomplete_runt : gw [[126; 0; 0]] = ([], [], []) /\ gw [[2; 68; 192]] = ([], [], []).
Proof. split; vm_compute; reflexivity. Qed.
(** test_uart.py:89-96 *)
Example test_data_received_extra : gw [uart_data 1 219 ++ [254; 0]] =
  ([254; 0], [mk_frame SRSP SYS 2 [2; 0; 2; 6; 3; 144; 21; 52; 1; 2; 1; 0; 0; 0] (Some 14) (Some 219)], []).
Proof. vm_compute. reflexivity. Qed.
(** test_uart.py:99-102 *)
Example test_data_received_wrong_checksum : gw [uart_data 1 220] = ([], [], []).
Proof. vm_compute. reflexivity. Qed.
(** test_uart.py:129-133 *)
Example test_checksum : checksum [7; 1; 0; 8; 0; 170; 0; 2] = 166.
Proof. vm_compute. reflexivity. Qed.
(** test_uart.py:136-148 *)
Example test_flow_control : flow_flags (Some "software"%string) = (true, false) /\ flow_flags (Some "hardware"%string) = (false, true) /\ flow_flags None = (false, false).
Proof. repeat split. Qed.

(** ** tests/test_buffalo.py.  An EUI64 is the list of its bytes, least significant first. *)
Definition ieee1 : list Z := [0; 18; 75; 0; 18; 1; 68; 174].
(** test_buffalo.py:17-45 *)
Example test_ieee : write_parameter IEEEADDR (VEui ieee1) = Ok ieee1 /\ read_parameter "test" IEEEADDR None ieee1 = Ok (VEui ieee1, []).
Proof. split; vm_compute; reflexivity. Qed.
Example test_write_ieee_group : write_parameter IEEEADDR (VInt 2) = Ok [2; 0; 0; 0; 0; 0; 0; 0].
Proof. vm_compute. reflexivity. Qed.
(** test_buffalo.py:48-72 *)
Definition lqi_entry : neighbor := mk_neighbor [221; 237; 221; 208; 221; 221; 221; 216] [179; 220; 33; 4; 0; 141; 21; 0] 59745 1 2 2 2 255 69.
Definition lqi_bytes : list Z := [221; 237; 221; 208; 221; 221; 221; 216; 179; 220; 33; 4; 0; 141; 21; 0; 97; 233; 41; 2; 255; 69].
Example test_list_neighbor_lqi :
  write_parameter LIST_NEIGHBOR_LQI (VNeighbors [lqi_entry]) = Ok lqi_bytes /\
  read_parameter "test" LIST_NEIGHBOR_LQI (Some 1) lqi_bytes = Ok (VNeighbors [lqi_entry], []).
Proof. split; vm_compute; reflexivity. Qed.

(** ** tests/test_types.py *)
Definition fr (ct : command_type) (sub : subsystem) (id : Z) (data : list Z) : frame := mk_frame ct sub id data None None.
(** name and payload of a decoded frame, and its encoding *)
Definition decoded (f : frame) : result (string * payload) := do o <- from_unpi_frame f; Ok (z_cmd o, z_payload o).
Definition recoded (f : frame) : result (list Z) := do o <- from_unpi_frame f; do g <- to_unpi_frame o; Ok (f_data g).
(** test_types.py:66-82 *)
Example test_from_unpi_frame :
  decoded (fr SRSP SYS 2 [2; 0; 2; 6; 3; 144; 21; 52; 1]) = Ok ("version"%string,
    [("transportrev", VInt 2); ("product", VInt 0); ("majorrel", VInt 2); ("minorrel", VInt 6); ("maintrel", VInt 3); ("revision", VInt 20190608)]) /\
  recoded (fr SRSP SYS 2 [2; 0; 2; 6; 3; 144; 21; 52; 1]) = Ok [2; 0; 2; 6; 3; 144; 21; 52; 1].
Proof. split; vm_compute; reflexivity. Qed.
(** test_types.py:85-103 *)
Example test_from_unpi_frame2 :
  decoded (fr AREQ AF 129 [0; 0; 1; 0; 187; 109; 1; 1; 0; 115; 0; 89; 67; 51; 0; 0; 9; 24; 1; 1; 4; 0; 134; 5; 0; 134; 187; 109; 29]) = Ok ("incomingMsg"%string,
    [("groupid", VInt 0); ("clusterid", VInt 1); ("srcaddr", VInt 28091); ("srcendpoint", VInt 1); ("dstendpoint", VInt 1); ("wasbroadcast", VInt 0);
     ("linkquality", VInt 115); ("securityuse", VInt 0); ("timestamp", VInt 3359577); ("transseqnumber", VInt 0); ("len", VInt 9);
     ("data", VBytes [24; 1; 1; 4; 0; 134; 5; 0; 134])]).
Proof. vm_compute. reflexivity. Qed.
(** test_types.py:196-277: the expected text has no sequence number, type AREQ, and the payload as given *)
Example test_from_unpi_frame3 : exists o d, from_command AF "incomingMsg" d = Ok o /\ z_type o = AREQ /\ z_sub o = AF /\ z_seq o = None /\ z_payload o = d /\
  d = [("groupid", VInt 0); ("clusterid", VInt 0); ("srcaddr", VInt 44052); ("srcendpoint", VInt 1); ("dstendpoint", VInt 1); ("wasbroadcast", VInt 0);
       ("linkquality", VInt 78); ("securityuse", VInt 0); ("timestamp", VInt 2206697); ("transseqnumber", VInt 0); ("len", VInt 3); ("data", VBytes [24; 2; 1])].
Proof. eexists _, _. do 5 (split; [first [vm_compute; reflexivity|reflexivity]|]). reflexivity. Qed.
(** test_types.py:280-287: encoding what was decoded gives the same bytes *)
Definition info_bytes : list Z := [0; 12; 37; 237; 24; 0; 75; 18; 0; 0; 0; 7; 9; 2; 74; 208; 93; 151].
Example test_ieee_addr : recoded (fr SRSP UTIL 0 info_bytes) = Ok info_bytes.
Proof. vm_compute. reflexivity. Qed.
Definition shown (r : result zpi) : result (command_type * subsystem * string * option Z * payload) :=
  do o <- r; Ok (z_type o, z_sub o, z_cmd o, z_seq o, z_payload o).
Definition sent (r : result zpi) : result (list Z) := do o <- r; do f <- to_unpi_frame o; to_buffer f.
(** test_types.py:305-314 *)
Example test_from_cluster_id : shown (from_cluster 53322 0 2 0 0 3 [3; 74; 208] 30 None) =
  Ok (SREQ, ZDO, "nodeDescReq"%string, Some 3, [("dstaddr", VInt 53322); ("nwkaddrofinterest", VInt 53322)]).
Proof. vm_compute. reflexivity. Qed.
(** test_types.py:327-337 *)
Example test_from_cluster_id_ZCL : shown (from_cluster 53322 260 0 1 1 123 [0; 11; 0; 4; 0; 5; 0] 30 None) =
  Ok (SREQ, AF, "dataRequest"%string, Some 123,
      [("dstaddr", VInt 53322); ("destendpoint", VInt 1); ("srcendpoint", VInt 1); ("clusterid", VInt 0); ("transid", VInt 123); ("options", VInt 0);
       ("radius", VInt 30); ("len", VInt 7); ("data", VBytes [0; 11; 0; 4; 0; 5; 0])]).
Proof. vm_compute. reflexivity. Qed.
(** test_types.py:362-426, 429-483 *)
Definition dimmer : list Z := [60; 120; 39; 254; 255; 87; 11; 0].
Definition coordinator_ieee : list Z := [12; 37; 237; 24; 0; 75; 18; 0].
Definition bind_payload : payload :=
  [("dstaddr", VInt 25234); ("srcaddr", VEui dimmer); ("srcendpoint", VInt 1); ("clusterid", VInt 8); ("dstaddrmode", VInt 3);
   ("dstaddress", VEui coordinator_ieee); ("dstendpoint", VInt 1)].
Definition bind_wire : list Z := [254; 23; 37; 33; 146; 98; 60; 120; 39; 254; 255; 87; 11; 0; 1; 8; 0; 3; 12; 37; 237; 24; 0; 75; 18; 0; 1; 83].
Example test_bind_req :
  let r := from_cluster 25234 0 33 0 0 2 (2 :: dimmer ++ [1; 8; 0; 3] ++ coordinator_ieee ++ [1]) 30 None in
  shown r = Ok (SREQ, ZDO, "bindReq"%string, Some 2, bind_payload) /\ sent r = Ok bind_wire.
Proof. split; vm_compute; reflexivity. Qed.
Example test_bind_req_serialize : shown (from_command ZDO "bindReq" bind_payload) = Ok (SREQ, ZDO, "bindReq"%string, None, bind_payload) /\
  sent (from_command ZDO "bindReq" bind_payload) = Ok bind_wire.
Proof. split; vm_compute; reflexivity. Qed.
(** test_types.py:487-515 *)
Definition dd8 : list Z := [221; 221; 221; 221; 221; 221; 221; 221].
Example test_mgmt_lqi_rsp :
  decoded (mk_frame AREQ ZDO 177 ([0; 0; 0; 20; 0; 3] ++ dd8 ++ [29; 36; 38; 254; 255; 87; 180; 20; 239; 62; 21; 2; 1; 0] ++
    dd8 ++ [154; 116; 107; 3; 0; 141; 21; 0; 125; 48; 18; 2; 1; 96] ++ dd8 ++ [141; 40; 44; 3; 0; 141; 21; 0; 125; 204; 18; 2; 1; 55]) (Some 72) (Some 34)) =
  Ok ("mgmtLqiRsp"%string, [("srcaddr", VInt 0); ("status", VInt 0); ("neighbortableentries", VInt 20); ("startindex", VInt 0); ("neighborlqilistcount", VInt 3);
    ("neighborlqilist", VNeighbors [mk_neighbor dd8 [29; 36; 38; 254; 255; 87; 180; 20] 16111 1 1 1 2 1 0;
                                    mk_neighbor dd8 [154; 116; 107; 3; 0; 141; 21; 0] 12413 2 0 1 2 1 96;
                                    mk_neighbor dd8 [141; 40; 44; 3; 0; 141; 21; 0] 52349 2 0 1 2 1 55])]).
Proof. vm_compute. reflexivity. Qed.
(** test_types.py:518-534 *)
Definition energies : list Z := [214; 172; 204; 176; 181; 162; 178; 165; 179; 165; 162; 169; 161; 161; 165; 174].
Example test_mgmt_nwk_update_notify :
  decoded (mk_frame AREQ ZDO 184 ([233; 192; 0; 0; 248; 255; 7; 20; 0; 15; 0; 16] ++ energies) (Some 28) (Some 211)) =
  Ok ("mgmtNwkUpdateNotify"%string, [("srcaddr", VInt 49385); ("status", VInt 0); ("scanchannels", VInt 134215680); ("totaltransmissions", VInt 20);
    ("transmissionfailures", VInt 15); ("channelcount", VInt 16); ("energyvalues", VList energies)]).
Proof. vm_compute. reflexivity. Qed.

(** ** tests/test_api.py *)
(** test_api.py:161-176: a request, answered; one frame is sent and the call returns the response *)
Example test_node_desc :
  let s := run [ECall (JCommand ZDO "nodeDescReq" [("dstaddr", VInt 53322); ("nwkaddrofinterest", VInt 0)] [0]); ERun 0;
                ERecv [254; 1; 101; 2; 0; 102]; ERun 0] (init 2 None [] false) in
  length (s_wire s) = 1%nat /\
  exists o, option_map t_phase (get s 0) = Some (PDone (ORet (Some o))) /\
    (z_type o, z_sub o, z_cmd o, z_seq o, z_payload o) = (SRSP, ZDO, "nodeDescReq"%string, None, [("status", VInt 0)]).
Proof. split; [vm_compute; reflexivity|]. eexists. split; vm_compute; reflexivity. Qed.
(** test_api.py:238-274; [version] is mocked there, so there is no time limit to hit *)
Example test_probe : fst (probe (mk_probe_world 0 (Ok tt) (Some (0, Ok tt)))) = Ok true /\
  fst (probe (mk_probe_world 0 (Ok tt) (Some (0, Err TimeoutError)))) = Ok false /\ fst (probe (mk_probe_world 0 (Ok tt) (Some (0, Err SerialException)))) = Ok false.
Proof. repeat split. Qed.

(** ** tests/test_application.py *)
(** test_application.py:138-152, on the wire; the device is known afterwards *)
Definition lumi : list Z := [0; 21; 141; 0; 2; 75; 229; 65].
Definition annce : frame := fr AREQ ZDO 193 ([74; 208; 74; 208] ++ lumi ++ [132]).
Definition app0 : st := fst (data_received (init 1 None [] true) annce).
Example device_annce : s_devs app0 = [(lumi, 53322)].
Proof. vm_compute. reflexivity. Qed.
(** test_application.py:155-173.  request_raw is mocked there; here the stick answers. *)
Definition answered (j : job) (srsp : list Z) (s : st) : st := run [ECall j; ERun 0; ERecv srsp; ERun 0; ETick 200; ERun 0] s.
Definition object_of (s : st) : option (command_type * subsystem * string * option Z * payload) :=
  match get s 0 with Some k => option_map (fun o => (z_type o, z_sub o, z_cmd o, z_seq o, z_payload o)) (t_obj k) | None => None end.
Definition outcome_is (s : st) : option phase := option_map t_phase (get s 0).
Example test_request :
  let s := answered (JRequest 53322 0 2 0 0 1 [1; 162; 46] true) [254; 1; 101; 2; 0; 102] app0 in
  length (s_waiters s) = 1%nat /\
  object_of s = Some (SREQ, ZDO, "nodeDescReq"%string, Some 1, [("dstaddr", VInt 53322); ("nwkaddrofinterest", VInt 11938)]) /\
  outcome_is s = Some (PDone (OStatus 0)).
Proof. repeat split; vm_compute; reflexivity. Qed.
(** test_application.py:176-193 *)
Example test_mrequest :
  let s := answered (JMulticast 2 260 4 1 39 [1; 39; 0]) [254; 1; 100; 2; 0; 103] app0 in
  length (s_waiters s) = 1%nat /\
  object_of s = Some (SREQ, AF, "dataRequestExt"%string, Some 39,
    [("dstaddrmode", VInt ADDR_GROUP); ("dstaddr", VInt 2); ("destendpoint", VInt 255); ("dstpanid", VInt 0); ("srcendpoint", VInt 1); ("clusterid", VInt 4);
     ("transid", VInt 39); ("options", VInt 0); ("radius", VInt 30); ("len", VInt 3); ("data", VBytes [1; 39; 0])]) /\
  outcome_is s = Some (PDone (OStatus 0)).
Proof. repeat split; vm_compute; reflexivity. Qed.
(** test_application.py:196-213 *)
Example test_broadcast :
  let s := answered (JBroadcast 0 54 0 0 0 45 [45; 60; 0] 65532) [254; 1; 101; 54; 0; 82] app0 in
  length (s_waiters s) = 0%nat /\
  object_of s = Some (SREQ, ZDO, "mgmtPermitJoinReq"%string, Some 45,
    [("addrmode", VInt ADDR_BROADCAST); ("dstaddr", VInt 65532); ("duration", VInt 60); ("tcsignificance", VInt 0)]) /\
  outcome_is s = Some (PDone (OStatus 0)).
Proof. repeat split; vm_compute; reflexivity. Qed.
(** test_application.py:225-264: the descriptor reply reaches the device under the sequence number of the request,
    carrying manufacturer code 1234 = 04D2 *)
Definition desc_payload : payload :=
  [("srcaddr", VInt 53322); ("status", VInt 0); ("nwkaddr", VInt 0); ("logicaltype_cmplxdescavai_userdescavai", VInt 0); ("apsflags_freqband", VInt 0);
   ("maccapflags", VInt 0); ("manufacturercode", VInt 1234); ("maxbuffersize", VInt 0); ("maxintransfersize", VInt 0); ("servermask", VInt 0);
   ("maxouttransfersize", VInt 0); ("descriptorcap", VInt 0)].
Example test_get_node_descriptor : exists o f,
  from_command ZDO "nodeDescRsp" desc_payload = Ok o /\ to_unpi_frame o = Ok f /\
  let s := run [ECall (JRequest 53322 0 2 0 0 1 [1; 74; 208] true); ERun 0] app0 in
  In (OEffect (EMsg lumi 0 0 260 32770 0 0 [1; 0; 0; 0; 0; 0; 0; 210; 4; 0; 0; 0; 0; 0; 0; 0; 0])) (s_log (fst (data_received s f))).
Proof. eexists _, _. split; [vm_compute; reflexivity|]. split; [vm_compute; reflexivity|]. vm_compute. tauto. Qed.
(** test_application.py:67-90: a tcDeviceInd is ignored, and a message of an unknown device is dropped *)
Example test_join : exists o m,
  from_unpi_frame (fr AREQ ZDO 202 ([49; 107] ++ [0; 21; 141; 0; 2; 195; 163; 7] ++ [0; 0])) = Ok o /\ z_cmd o = "tcDeviceInd"%string /\
  handle_znp None [] o = ([], [], Ok tt) /\
  from_unpi_frame (fr AREQ AF 129 [0; 0; 6; 0; 49; 107; 1; 1; 0; 136; 0; 110; 224; 235; 0; 0; 7; 24; 12; 10; 0; 0; 16; 0]) = Ok m /\ z_cmd m = "incomingMsg"%string /\
  handle_znp None [] m = ([], [], Ok tt).
Proof. eexists _, _. repeat (split; [first [vm_compute; reflexivity|reflexivity]|]). vm_compute. reflexivity. Qed.
