(** * App: zigpy_cc/zigbee/application.py, the parts that are pure functions: handling of incoming
    messages and building of outgoing ones *)
From Verif Require Import Base Types Uart Buffalo CmdTable Zpi.

(** The device table of zigpy's ControllerApplication ([self.devices]): IEEE address -> short address,
    in insertion order.  The fields of a device other than its two addresses are not modelled. *)
Definition devices := list (list Z * Z).

(** What the application does with a message: calls into zigpy and LED commands. *)
Inductive effect :=
| EJoin (nwk : Z) (ieee : list Z)                      (* self.handle_join(nwk, ieee, 0) *)
| ELed (mode : Z)                                      (* create_task(api.request(UTIL, "ledControl")) *)
| EMsg (ieee : list Z) (lqi rssi profile cluster src_ep dst_ep : Z) (data : list Z).
                                                       (* device.radio_details; self.handle_message *)

Definition ieee_eqb (a b : list Z) : bool := if list_eq_dec Z.eq_dec a b then true else false.

(** zigpy handle_join as far as the device table goes: a known IEEE address gets the new short
    address, an unknown one is appended. *)
Fixpoint join (devs : devices) (nwk : Z) (ieee : list Z) : devices :=
  match devs with
  | [] => [(ieee, nwk)]
  | (i, n) :: r => if ieee_eqb i ieee then (i, nwk) :: r else (i, n) :: join r nwk ieee
  end.

(** zigpy get_device(ieee=...) and get_device(nwk=...): the first match, else KeyError *)
Definition get_device_ieee (devs : devices) (ieee : list Z) : result (list Z * Z) :=
  match find (fun d => ieee_eqb (fst d) ieee) devs with Some d => Ok d | None => Err KeyError end.
Definition get_device_nwk (devs : devices) (nwk : option value) : result (list Z * Z) :=
  match nwk with
  | Some (VInt n) => match find (fun d => snd d =? n) devs with Some d => Ok d | None => Err KeyError end
  | _ => Err KeyError
  end.

(** application.py:29-41 REQUESTS: command -> (ZDO cluster, prefix length).  The ZDOCmd numbers are
    zigpy's. *)
Definition REQUESTS : list (string * (Z * nat)) :=
  [("nwkAddrReq", (0, 0%nat)); ("ieeeAddrReq", (1, 0%nat)); ("matchDescReq", (6, 2%nat));
   ("endDeviceAnnceInd", (19, 2%nat)); ("mgmtLqiRsp", (32817, 2%nat));
   ("mgmtPermitJoinReq", (54, 3%nat)); ("mgmtPermitJoinRsp", (32822, 2%nat));
   ("nodeDescRsp", (32770, 2%nat)); ("activeEpRsp", (32773, 2%nat));
   ("simpleDescRsp", (32772, 2%nat)); ("bindRsp", (32801, 2%nat))].

(** application.py:43-51 IGNORED *)
Definition IGNORED : list string :=
  ["bdbComissioningNotifcation"; "dataConfirm"; "leaveInd"; "resetInd"; "srcRtgInd";
   "stateChangeInd"; "tcDeviceInd"].

(** application.py:396-406 set_led.  [version] is [self.version["product"]], absent before start-up. *)
Definition set_led (version : option Z) (mode : Z) : result (list effect) :=
  match version with
  | None => Err KeyError
  | Some v => Ok (if v =? zStack3x0 then [] else [ELed mode])
  end.

(** int, bytes and EUI64 fields of a decoded payload; a field of another kind cannot be decoded
    (proved where used), absence raises KeyError *)
Definition get_int (d : payload) (k : string) : result Z :=
  match dict_get d k with Some (VInt z) => Ok z | Some _ => Err Unmodelled | None => Err KeyError end.
Definition get_bytes (d : payload) (k : string) : result (list Z) :=
  match dict_get d k with Some (VBytes l) => Ok l | Some _ => Err Unmodelled | None => Err KeyError end.

(** what is handed to handle_message: cluster, endpoints, lqi, data *)
Record content := mk_content { ct_cluster : Z; ct_src : Z; ct_dst : Z; ct_lqi : Z; ct_data : list Z }.

(** application.py:353-378: what to deliver; None = nothing *)
Definition message_content (o : zpi) (f : frame) : result (option content) :=
  match (if sub_eqb (z_sub o) ZDO then dict_get REQUESTS (z_cmd o) else None) with
  | Some (cluster_id, prefix_length) =>
      match z_seq o with
      | None => Ok None
      | Some sequence =>
          do tsn <- py_bytes [sequence];
          Ok (Some (mk_content cluster_id 0 0 0 (tsn ++ skipn prefix_length (f_data f))))
      end
  | None =>
      if sub_eqb (z_sub o) AF &&
         (String.eqb (z_cmd o) "incomingMsg" || String.eqb (z_cmd o) "incomingMsgExt") then
        do c <- get_int (z_payload o) "clusterid";
        do s <- get_int (z_payload o) "srcendpoint";
        do d <- get_int (z_payload o) "dstendpoint";
        do b <- get_bytes (z_payload o) "data";
        do l <- get_int (z_payload o) "linkquality";
        Ok (Some (mk_content c s d l b))
      else Ok None
  end.

(** application.py:380-394: look the device up and hand the message over (profile 260, rssi 0) *)
Definition deliver_message (devs : devices) (nwk ieee : option value) (c : content) : list effect :=
  match (match ieee with
         | Some (VEui i) | Some (VList i) | Some (VBytes i) =>
             match i with [] => get_device_nwk devs nwk | _ => get_device_ieee devs i end
         | _ => get_device_nwk devs nwk
         end) with
  | Ok (i, _) => [EMsg i (ct_lqi c) 0 ZHA_PROFILE (ct_cluster c) (ct_src c) (ct_dst c) (ct_data c)]
  | Err _ => []
  end.

Definition with_seq (o : zpi) (s : option Z) : zpi :=
  mk_zpi (z_type o) (z_sub o) (z_cmd o) (z_id o) (z_payload o) (z_params o) s.

(** application.py:343-394: the rest of handle_znp after the announcement was handled *)
Definition handle_rest (version : option Z) (devs : devices) (o : zpi) (f : frame)
    (nwk ieee : option value) : list effect * result unit :=
  if existsb (String.eqb (z_cmd o)) IGNORED then ([], Ok tt)
  else
    match (if sub_eqb (z_sub o) ZDO && String.eqb (z_cmd o) "mgmtPermitJoinRsp"
           then set_led version LED_On else Ok []) with
    | Err e => ([], Err e)
    | Ok led =>
      if sub_eqb (z_sub o) ZDO && String.eqb (z_cmd o) "permitJoinInd" then
        match (do d <- get_int (z_payload o) "duration";
               set_led version (if d =? 0 then LED_Off else LED_On)) with
        | Err e => (led, Err e)
        | Ok l => (led ++ l, Ok tt)
        end
      else
        match message_content o f with
        | Err e => (led, Err e)
        | Ok None => (led, Ok tt)
        | Ok (Some c) => (led ++ deliver_message devs nwk ieee c, Ok tt)
        end
    end.

(** application.py:323-394 handle_znp: new device table, effects in order, exception *)
Definition handle_znp (version : option Z) (devs : devices) (o : zpi) : devices * list effect * result unit :=
  if negb (ct_eqb (z_type o) AREQ) then (devs, [], Ok tt)
  else
    match to_unpi_frame o with
    | Err e => (devs, [], Err e)
    | Ok f =>
      let nwk := dict_get (z_payload o) "srcaddr" in
      let ieee := dict_get (z_payload o) "ieeeaddr" in
      if sub_eqb (z_sub o) ZDO && String.eqb (z_cmd o) "endDeviceAnnceInd" then
        match get_int (z_payload o) "nwkaddr", ieee with
        | Err e, _ => (devs, [], Err e)
        | Ok n, Some (VEui i) =>
            let devs1 := join devs n i in
            let '(effs, r) := handle_rest version devs1 (with_seq o (Some 0)) f (Some (VInt n)) ieee in
            (devs1, EJoin n i :: effs, r)
        | Ok n, _ => (devs, [], Err Unmodelled)
        end
      else
        let '(effs, r) := handle_rest version devs o f nwk ieee in
        (devs, effs, r)
    end.

(** ** outgoing: the object each send operation builds *)

(** application.py:239-241 request *)
Definition build_request (nwk profile cluster src_ep dst_ep sequence : Z) (data : list Z) : result zpi :=
  in_coroutine (from_cluster nwk profile cluster src_ep dst_ep sequence data 30 None).

(** application.py:181-190 mrequest ([src_ep or 1], destination endpoint 0xFF, default radius) *)
Definition build_mrequest (group_id profile cluster src_ep sequence : Z) (data : list Z) : result zpi :=
  in_coroutine (from_cluster group_id profile cluster (if src_ep =? 0 then 1 else src_ep) 255 sequence data
                  30 (Some ADDR_GROUP)).

(** application.py:283-293 broadcast *)
Definition build_broadcast (profile cluster src_ep dst_ep radius sequence : Z) (data : list Z)
    (broadcast_address : Z) : result zpi :=
  in_coroutine (from_cluster broadcast_address profile cluster src_ep dst_ep sequence data radius
                  (Some ADDR_16BIT)).

(** application.py:312-321 permit_ncp.  The object is built inside the semaphore in the code; building
    it has no effect and cannot fail, so the model builds it first. *)
Definition build_permit (time_s : Z) : result zpi :=
  if (0 <=? time_s) && (time_s <=? 254)
  then in_coroutine (from_command ZDO "mgmtPermitJoinReq"
         [("addrmode", VInt ADDR_BROADCAST); ("dstaddr", VInt ALL_ROUTERS_AND_COORDINATOR);
          ("duration", VInt time_s); ("tcsignificance", VInt 0)])
  else Err AssertionError.

(** application.py:401-403 the LED command *)
Definition led_payload (mode : Z) : payload := [("ledid", VInt 3); ("mode", VInt mode)].
