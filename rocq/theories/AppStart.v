(** * AppStart: start-up of the application (application.py:88-137, 396-406), as a program over requests
    (StartZnp.v).  Opening the port (application.py:92, API.new) is the subject of Life.v. *)
From Verif Require Import Base Types Buffalo Zpi Api App Nv StartZnp.

(** What start-up leaves in the application: [self.version["product"]], the size of [self._semaphore],
    [self._ieee], [self._nwk], [self.devices] and the status string that form_network logs (None: not formed).
    Only the state after a complete start-up is represented.  A start-up that fails after the version answer leaves
    the new version and an unused semaphore of the new size, and one that fails before it leaves the old ones; the
    next start-up replaces both.  Between the two, messages and requests of users of the application meet these
    values together with the API object of the failed start-up, which is the subject of World.v. *)
Record ready := mk_ready {
  rd_product : Z; rd_limit : Z; rd_ieee : list Z; rd_nwk : Z; rd_devices : devices; rd_status : option start_result }.

(** application.py:93-97 *)
Definition ping : prog zpi :=
  attempt (request SYS "ping" [("capabilities", VInt 1)] [0])
    (fun e => match e with CommandError _ => Some (DRaise GenericException) | _ => None end).

(** application.py:99, api.py:259-263 *)
Definition ask_version : prog zpi := request SYS "version" [] [0].

(** application.py:101 *)
Definition concurrency (product : Z) : Z := if product =? zStack3x0 then 16 else 2.

(** application.py:106, types.py:37-40 ZnpVersion(product) raises ValueError for an unknown number.
    A product that is no int does not occur in a decoded version answer. *)
Definition check_product (p : value) : prog Z :=
  match p with
  | VInt z => if (z =? zStack12) || (z =? zStack3x0) || (z =? zStack30x) then DRet z else DRaise ValueError
  | _ => DRaise Unmodelled
  end.

(** application.py:396-406 set_led as a program; the product is known here *)
Definition switch_led (product mode : Z) : prog unit :=
  if product =? zStack3x0 then DRet tt else spawn UTIL "ledControl" (led_payload mode).

(** application.py:126-137 form_network; backupPath "" means no backup *)
Definition form_network (product : Z) (c : nwk_config) : prog start_result :=
  let! status := start_znp product (network_options c) 2948 false in
  switch_led product LED_Off;;
  DRet status.

(** application.py:111-116; kinds of values other than these do not occur in a decoded answer
    ([device_info_decoded]) *)
Definition coordinator (devs : devices) : prog (list Z * Z * devices) :=
  let! data := request UTIL "getDeviceInfo" [] [0] in
  let! ieee := field data "ieeeaddr" in
  let! nwk := field data "shortaddr" in
  match ieee, nwk with
  | VEui i, VInt n => DRet (i, n, join devs n i)
  | _, _ => DRaise Unmodelled
  end.

(** application.py:88-116 startup, from the point where the port is open *)
Definition app_startup (auto_form : bool) (c : nwk_config) (devs : devices) : prog ready :=
  ping;;
  let! version := ask_version in
  let! p := field version "product" in
  let! product := check_product p in
  let! status := (if auto_form then let! r := form_network product c in DRet (Some r) else DRet None) in
  let! x := coordinator devs in
  let '(ieee, nwk, devs') := x in
  DRet (mk_ready product (concurrency product) ieee nwk devs' status).
