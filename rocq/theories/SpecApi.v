(** * SpecApi: which message answers which request, and what the application should do with a message
    (specification, no model helpers) *)
From Verif Require Import Base Types Uart Buffalo Zpi App SpecCodec.

(** The confirmation of an application data request with transaction id [seq]. *)
Definition confirms (seq : Z) (r : zpi) : Prop :=
  z_type r = AREQ /\ z_sub r = AF /\ z_cmd r = "dataConfirm" /\ dict_get (z_payload r) "transid" = Some (VInt seq).

(** The reply named [rsp] of the device with short address [nwk]. *)
Definition replies (rsp : string) (nwk : Z) (r : zpi) : Prop :=
  z_type r = AREQ /\ z_sub r = ZDO /\ z_cmd r = rsp /\ dict_get (z_payload r) "srcaddr" = Some (VInt nwk).

(** ZDO requests (by cluster id) and their replies, from TI's Monitor and Test API: those that are
    addressed to a device, *)
Definition addressed_requests : list (Z * string) :=
  [(2, "nodeDescRsp"); (3, "powerDescRsp"); (4, "simpleDescRsp"); (5, "activeEpRsp"); (6, "matchDescRsp");
   (7, "complexDescRsp"); (8, "userDescRsp"); (32, "endDeviceBindRsp"); (33, "bindRsp"); (34, "unbindRsp");
   (48, "mgmtNwkDiscRsp"); (49, "mgmtLqiRsp"); (50, "mgmtRtgRsp"); (51, "mgmtBindRsp");
   (52, "mgmtLeaveRsp"); (53, "mgmtDirectJoinRsp"); (54, "mgmtPermitJoinRsp")].
(** and those that have a reply but no destination field: address look-ups and server discovery. *)
Definition unaddressed_requests : list Z := [0; 1; 12].

(** The indications the application ignores by name. *)
Definition ignored_names : list string :=
  ["bdbComissioningNotifcation"; "dataConfirm"; "leaveInd"; "resetInd"; "srcRtgInd"; "stateChangeInd"; "tcDeviceInd"].

(** ZDO replies that are passed on to zigpy, with the cluster of the reply (0x8000 + request). *)
Definition passed_replies : list (string * Z) :=
  [("nodeDescRsp", 32770); ("simpleDescRsp", 32772); ("activeEpRsp", 32773); ("bindRsp", 32801);
   ("mgmtLqiRsp", 32817); ("mgmtPermitJoinRsp", 32822)].

(** The first device of the table with short address [nwk] has IEEE address [i]. *)
Definition first_with (nwk : Z) (i : list Z) (devs : list (list Z * Z)) : Prop :=
  exists a b, devs = a ++ (i, nwk) :: b /\ Forall (fun d => snd d <> nwk) a.
Definition none_with (nwk : Z) (devs : list (list Z * Z)) : Prop := Forall (fun d => snd d <> nwk) devs.

(** Bytes of an incoming application message. *)
Definition incoming_body (group cluster src src_ep dst_ep bcast lqi sec time tsn : Z) (data : list Z) : list Z :=
  le2 group ++ le2 cluster ++ le2 src ++ [src_ep; dst_ep; bcast; lqi; sec] ++ le4 time ++ [tsn; zlen data] ++ data.
Definition incoming_ok (group cluster src src_ep dst_ep bcast lqi sec time tsn : Z) (data : list Z) : Prop :=
  0 <= group < 65536 /\ 0 <= cluster < 65536 /\ 0 <= src < 65536 /\ byte_ok src_ep /\ byte_ok dst_ep /\
  byte_ok bcast /\ byte_ok lqi /\ byte_ok sec /\ 0 <= time < 4294967296 /\ byte_ok tsn /\
  bytes_ok data /\ (length data <= 255)%nat.

(** Commands that can be decoded but not encoded again: they have a parameter of a type that the code can read
    and cannot write. *)
Definition one_way : list (subsystem * string) :=
  [(SYS, "stackTune"); (MAC, "syncLossInd"); (MAC, "associateInd"); (MAC, "associateCnf"); (MAC, "beaconNotifyInd");
   (MAC, "dataInd"); (MAC, "disassociateInd"); (MAC, "orphanInd"); (MAC, "commStatusInd")].
(** How the application's handling of the decoded message [o] ends; [version] is the product number of the stick if
    it is known. *)
Inductive ends_with (version : option Z) (o : zpi) : result unit -> Prop :=
| EW_not_for_it : z_type o <> AREQ -> ends_with version o (Ok tt)
| EW_one_way : z_type o = AREQ -> In (z_sub o, z_cmd o) one_way -> ends_with version o (Err TODO)
| EW_no_version : z_type o = AREQ -> In (z_sub o, z_cmd o) [(ZDO, "mgmtPermitJoinRsp"); (ZDO, "permitJoinInd")] -> version = None ->
    ends_with version o (Err KeyError)
| EW_known v : z_type o = AREQ -> ~ In (z_sub o, z_cmd o) one_way -> version = Some v -> ends_with version o (Ok tt)
| EW_other : z_type o = AREQ -> ~ In (z_sub o, z_cmd o) one_way ->
    ~ In (z_sub o, z_cmd o) [(ZDO, "mgmtPermitJoinRsp"); (ZDO, "permitJoinInd")] -> ends_with version o (Ok tt).

(** What the message [o] can lead to.  [q] is the sequence number of the request it was attributed to, [d] the device
    table after it. *)
Definition field (o : zpi) (n : string) (v : value) : Prop := dict_get (z_payload o) n = Some v.
Definition indication (o : zpi) (s : subsystem) (c : string) : Prop := z_type o = AREQ /\ z_sub o = s /\ z_cmd o = c.
Inductive stems (o : zpi) (q : option Z) (d : devices) : effect -> Prop :=
| SM_join n i : indication o ZDO "endDeviceAnnceInd" -> field o "nwkaddr" (VInt n) -> field o "ieeeaddr" (VEui i) -> stems o q d (EJoin n i)
| SM_announced n i body : indication o ZDO "endDeviceAnnceInd" -> field o "nwkaddr" (VInt n) -> field o "ieeeaddr" (VEui i) ->
    payload_wire None (z_params o) (z_payload o) body -> stems o q d (EMsg i 0 0 260 19 0 0 (0 :: skipn 2 body))
| SM_joinable : indication o ZDO "mgmtPermitJoinRsp" -> stems o q d (ELed 1)
| SM_joining n : indication o ZDO "permitJoinInd" -> field o "duration" (VInt n) -> stems o q d (ELed (if n =? 0 then 0 else 1))
| SM_incoming nwk i cluster src_ep dst_ep lqi data : indication o AF "incomingMsg" -> field o "srcaddr" (VInt nwk) -> first_with nwk i d ->
    field o "clusterid" (VInt cluster) -> field o "srcendpoint" (VInt src_ep) -> field o "dstendpoint" (VInt dst_ep) ->
    field o "linkquality" (VInt lqi) -> field o "data" (VBytes data) -> stems o q d (EMsg i lqi 0 260 cluster src_ep dst_ep data)
| SM_reply c cluster nwk i tsn body : indication o ZDO c -> In (c, cluster) passed_replies -> field o "srcaddr" (VInt nwk) -> first_with nwk i d ->
    q = Some tsn -> payload_wire None (z_params o) (z_payload o) body -> stems o q d (EMsg i 0 0 260 cluster 0 0 (tsn :: skipn 2 body)).
