(** * StartZnp: starting the stick (zigpy_cc/zigbee/start_znp.py).
    A coroutine is a program that awaits requests and indications; what comes back is up to the
    environment.  No other coroutine of the driver changes anything these programs read. *)
From Verif Require Import Base Types Buffalo Zpi Api Nv.

(** [DRequest sub cmd d expected k]: await znp.request(sub, cmd, d, None, expected), go on with its message
    or exception (api.py:113-121; what can come back is the subject of C33, C34, C37).
    [DListen m timeout k]: znp.wait_for(m, timeout) (api.py:194), only registers; the waiter object is
    represented by its matcher and time limit.
    [DAwait w k]: await w.wait() (api.py:46).
    [DSpawn sub cmd d k]: asyncio.create_task(znp.request(..)); its outcome is not looked at. *)
Inductive prog (A : Type) :=
| DRet (a : A)
| DRaise (e : exn)
| DRequest (sub : subsystem) (cmd : string) (d : payload) (expected : list Z) (k : result zpi -> prog A)
| DListen (m : matcher) (timeout : Z) (k : matcher * Z -> prog A)
| DAwait (w : matcher * Z) (k : result zpi -> prog A)
| DSpawn (sub : subsystem) (cmd : string) (d : payload) (k : prog A).
Arguments DRet {A} a.
Arguments DRaise {A} e.
Arguments DRequest {A} sub cmd d expected k.
Arguments DListen {A} m timeout k.
Arguments DAwait {A} w k.
Arguments DSpawn {A} sub cmd d k.

Fixpoint seq {A B} (p : prog A) (f : A -> prog B) : prog B :=
  match p with
  | DRet a => f a
  | DRaise e => DRaise e
  | DRequest s c d x k => DRequest s c d x (fun r => seq (k r) f)
  | DListen m t k => DListen m t (fun w => seq (k w) f)
  | DAwait w k => DAwait w (fun r => seq (k r) f)
  | DSpawn s c d k => DSpawn s c d (seq k f)
  end.
(** try: p except <those for which [h] gives a handler> *)
Fixpoint attempt {A} (p : prog A) (h : exn -> option (prog A)) : prog A :=
  match p with
  | DRet a => DRet a
  | DRaise e => match h e with Some q => q | None => DRaise e end
  | DRequest s c d x k => DRequest s c d x (fun r => attempt (k r) h)
  | DListen m t k => DListen m t (fun w => attempt (k w) h)
  | DAwait w k => DAwait w (fun r => attempt (k r) h)
  | DSpawn s c d k => DSpawn s c d (attempt k h)
  end.
Notation "'let!' x := a 'in' b" := (seq a (fun x => b)) (at level 200, x pattern, a at level 100, b at level 200, right associativity).
Notation "a ;; b" := (seq a (fun _ => b)) (at level 199, b at level 200, right associativity).

Definition of_result {A} (r : result A) : prog A := match r with Ok a => DRet a | Err e => DRaise e end.
Definition request (sub : subsystem) (cmd : string) (d : payload) (expected : list Z) : prog zpi :=
  DRequest sub cmd d expected of_result.
Definition listen (m : matcher) (timeout : Z) : prog (matcher * Z) := DListen m timeout DRet.
Definition await (w : matcher * Z) : prog zpi := DAwait w of_result.
Definition spawn (sub : subsystem) (cmd : string) (d : payload) : prog unit := DSpawn sub cmd d (DRet tt).

(** result.payload[name] *)
Definition field (r : zpi) (name : string) : prog value :=
  match dict_get (z_payload r) name with Some v => DRet v | None => DRaise KeyError end.
(** item["value"] of an item that has one *)
Definition item_value (item : payload) : value :=
  match dict_get item "value" with Some v => v | None => VBytes [] end.

(** start_znp.py:65-81 validate_item *)
Definition validate_item (item : payload) (sub : subsystem) (cmd : string) (expected : list Z) : prog unit :=
  let! result := request sub cmd item expected in
  let! v := field result "value" in
  if value_eqb v (item_value item) then DRet tt else DRaise AssertionError.

Definition is_assertion (e : exn) : bool := match e with AssertionError => true | _ => false end.
(** start_znp.py:116, 192 *)
Definition stack3 (version : Z) : bool := (version =? zStack30x) || (version =? zStack3x0).

(** start_znp.py:110-125 (the message of the exception is not modelled): PAN id and extended PAN id, inner try *)
Definition validate_pan (version : Z) (o : options) : prog unit :=
  attempt
    (validate_item (item_pan (o_pan o)) SYS "osalNvRead" [0];;
     validate_item (item_ext (o_ext o)) SYS "osalNvRead" [0])
    (fun e => if is_assertion e then Some (
       if stack3 version then
         let! result := request SYS "osalNvRead" (item_pan (o_pan o)) [0] in
         let! v := field result "value" in
         if value_eqb v (VBytes [255; 255]) then DRet tt else DRaise e
       else DRet tt)
     else None).

(** start_znp.py:84-130 needsToBeInitialised *)
Definition needs_init (version : Z) (o : options) : prog bool :=
  attempt
    (validate_item (item_configured version) SYS "osalNvRead" [0; 2];;
     validate_item (item_channels (o_channels o)) SYS "osalNvRead" [0];;
     validate_item (item_distribute (o_distribute o)) SYS "osalNvRead" [0];;
     (if version =? zStack3x0
      then validate_item (item_key (o_key o)) SYS "osalNvRead" [0]
      else validate_item (item_key (o_key o)) SAPI "readConfiguration" [0]);;
     validate_pan version o;;
     DRet false)
    (fun e => if is_assertion e then Some (DRet true) else None).

(** start_znp.py:133-147 boot *)
Definition boot : prog unit :=
  let! result := request UTIL "getDeviceInfo" [] [0] in
  let! state := field result "devicestate" in
  if value_eqb state (VInt 9) then DRet tt
  else
    let! started := listen (mk_matcher AREQ ZDO "stateChangeInd" [("state", VInt 9)]) 60000 in
    request ZDO "startupFromApp" [("startdelay", VInt 100)] [0; 1];;
    await started;;
    DRet tt.

(** start_znp.py:19-30 Endpoint; vars(endpoint) in the order in which the attributes are first set *)
Record endpoint := mk_endpoint {
  ep_id : Z; ep_profile : Z; ep_device : Z; ep_nin : Z; ep_in : list Z; ep_nout : Z; ep_out : list Z }.
Definition ep_vars (e : endpoint) : payload :=
  [("endpoint", VInt (ep_id e)); ("appdeviceid", VInt (ep_device e)); ("appdevver", VInt 0);
   ("appnuminclusters", VInt (ep_nin e)); ("appinclusterlist", VList (ep_in e));
   ("appnumoutclusters", VInt (ep_nout e)); ("appoutclusterlist", VList (ep_out e));
   ("latencyreq", VInt 0); ("appprofid", VInt (ep_profile e))].
(** start_znp.py:33-62 Endpoints; zigpy: IasZone.cluster_id = 0x0500, IasWd = 0x0502, Ota = 0x0019 *)
Definition endpoints : list endpoint :=
  [mk_endpoint 1 260 5 0 [] 0 [];
   mk_endpoint 2 257 5 0 [] 0 [];
   mk_endpoint 3 262 5 0 [] 0 [];
   mk_endpoint 4 263 5 0 [] 0 [];
   mk_endpoint 5 264 5 0 [] 0 [];
   mk_endpoint 6 265 5 0 [] 0 [];
   mk_endpoint 8 260 5 0 [] 0 [];
   mk_endpoint 11 260 1024 0 [] 2 [1280; 1282];
   mk_endpoint 110 260 5 0 [] 0 [];
   mk_endpoint 12 49246 5 0 [] 0 [];
   mk_endpoint 13 260 5 1 [25] 0 [];
   mk_endpoint 47 260 5 0 [] 0 [];
   mk_endpoint 242 41440 5 0 [] 0 []].

(** [x in v] for the list field activeeplist; other kinds of values do not occur there *)
Definition is_in (x : Z) (v : value) : bool :=
  match v with VList l => existsb (Z.eqb x) l | _ => false end.

(** start_znp.py:161-166 the loop *)
Fixpoint register_loop (active : zpi) (es : list endpoint) : prog unit :=
  match es with
  | [] => DRet tt
  | e :: r =>
    let! l := field active "activeeplist" in
    (if is_in (ep_id e) l then DRet tt
     else request AF "register" (ep_vars e) [0];; DRet tt);;
    register_loop active r
  end.
(** start_znp.py:150-166 registerEndpoints; wait_for without payload matches every activeEpRsp *)
Definition register_endpoints : prog unit :=
  let! response := listen (mk_matcher AREQ ZDO "activeEpRsp" []) Timeouts_default in
  spawn ZDO "activeEpReq" [("dstaddr", VInt 0); ("nwkaddrofinterest", VInt 0)];;
  let! active := await response in
  register_loop active endpoints.

Definition nv_write (item : payload) : prog zpi := request SYS "osalNvWrite" item [0].
(** const.py:4-6 ResetType.SOFT *)
Definition soft_reset : prog zpi := request SYS "resetReq" [("type", VInt 1)] [0].

(** start_znp.py:211-217 awaiting the start; on Python >= 3.8 CancelledError is not an Exception *)
Definition await_started (w : matcher * Z) : prog zpi :=
  attempt (await w) (fun e => match e with CancelledError => None | _ => Some (DRaise GenericException) end).

(** start_znp.py:169-234 initialise *)
Definition initialise (version : Z) (o : options) : prog unit :=
  soft_reset;;
  nv_write (item_startup 2);;
  soft_reset;;
  nv_write (item_logical 0);;
  nv_write (item_distribute (o_distribute o));;
  nv_write item_direct_cb;;
  nv_write (item_channels (o_channels o));;
  nv_write (item_pan (o_pan o));;
  nv_write (item_ext (o_ext o));;
  (if stack3 version then
     nv_write (item_key (o_key o));;
     request APP_CNF "bdbSetChannel" [("isPrimary", VInt 1); ("channel", VInt (o_channels o))] [0];;
     request APP_CNF "bdbSetChannel" [("isPrimary", VInt 0); ("channel", VInt 0)] [0];;
     let! started := listen (mk_matcher AREQ ZDO "stateChangeInd" [("state", VInt 9)]) 60000 in
     request APP_CNF "bdbStartCommissioning" [("mode", VInt 4)] [0];;
     await_started started;;
     request APP_CNF "bdbStartCommissioning" [("mode", VInt 2)] [0]
   else
     request SAPI "writeConfiguration" (item_key (o_key o)) [0];;
     nv_write item_tc_link_key);;
  request SYS "osalNvItemInit" (item_configured_init version) [0; 9];;
  nv_write (item_configured version);;
  DRet tt.

(** start_znp.py:237-255 addToGroup *)
Definition add_to_group (ep group : Z) : prog unit :=
  let! result := request ZDO "extFindGroup" [("endpoint", VInt ep); ("groupid", VInt group)] [0; 1] in
  let! status := field result "status" in
  if value_eqb status (VInt 1) then
    request ZDO "extAddGroup" [("endpoint", VInt ep); ("groupid", VInt group); ("namelen", VInt 0); ("groupname", VBytes [])] [0];;
    DRet tt
  else DRet tt.

(** the strings 'reset', 'restored', 'resumed' *)
Inductive start_result := Reset | Restored | Resumed.

(** start_znp.py:263-272: hasConfigured *)
Definition has_configured (version : Z) : prog bool :=
  attempt
    (validate_item (item_configured version) SYS "osalNvRead" [0; 2];; DRet true)
    (fun e => match e with AssertionError | CommandError _ => Some (DRet false) | _ => None end).

(** start_znp.py:274-291; [backup]: backupPath is not empty and exists (backup.py:4-5 raises TODO) *)
Definition configure (version : Z) (o : options) (backup configured : bool) : prog start_result :=
  if backup && negb configured then DRaise TODO
  else
    let! needed := needs_init version o in
    if needed then
      initialise version o;;
      DRet (if version =? zStack12 then (if configured then Reset else Restored) else Reset)
    else DRet Resumed.

(** start_znp.py:258-305 start_znp *)
Definition start_znp (version : Z) (o : options) (group : Z) (backup : bool) : prog start_result :=
  let! configured := has_configured version in
  let! result := configure version o backup configured in
  boot;;
  register_endpoints;;
  add_to_group 242 group;;
  (match result with
   | Restored => nv_write (item_channels (o_channels o));; DRet tt
   | _ => DRet tt
   end);;
  DRet result.
