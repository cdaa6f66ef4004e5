(** * SpecAppStart: what an observer sees of a start-up of the application *)
From Verif Require Import Base Types Buffalo Zpi Api App SpecCodec SpecMachine Nv StartZnp SpecStart StartExec AppStart.

(** The stick reported this product number *)
Definition reports (tr : list act) (p : Z) : Prop :=
  exists d x m, In (ARequest SYS "version" d x (Some (Ok m))) tr /\ dict_get (z_payload m) "product" = Some (VInt p).
Definition known_product (p : Z) : Prop := exists v, p = version_of v.

(** requests awaited, in order *)
Definition awaited_requests (tr : list act) : list (subsystem * string) :=
  flat_map (fun a => match a with ARequest s c _ _ _ => [(s, c)] | _ => [] end) tr.
(** modes of the LED commands, in order; the LED is number 3 *)
Definition led_modes (tr : list act) : list Z :=
  flat_map (fun a => match a with
    | ASpawn UTIL cmd d | ARequest UTIL cmd d _ _ =>
      if String.eqb cmd "ledControl" then
        match int_of d "ledid", int_of d "mode" with Some 3, Some m => [m] | _, _ => [-1] end
      else []
    | _ => [] end) tr.

(** A device that also answers what the application asks *)
Definition works_app (dv : device) (v : firmware) (ieee : list Z) (nwk : Z) : Prop :=
  works dv /\
  (forall d, dict_get (dv_answer dv SYS "ping" d) "status" = None) /\
  (forall d, dict_get (dv_answer dv SYS "version" d) "status" = None /\
             dict_get (dv_answer dv SYS "version" d) "product" = Some (VInt (version_of v))) /\
  (forall d, dict_get (dv_answer dv UTIL "getDeviceInfo" d) "ieeeaddr" = Some (VEui ieee) /\
             dict_get (dv_answer dv UTIL "getDeviceInfo" d) "shortaddr" = Some (VInt nwk)).

(** ** LED while the application runs *)
Definition led_effects (es : list effect) : list Z :=
  flat_map (fun e => match e with ELed m => [m] | _ => [] end) es.
(** what a message from the stick says about joining: [Some true]: allowed, [Some false]: not allowed *)
Definition says_joining (o : zpi) : option bool :=
  match z_type o, z_sub o with
  | AREQ, ZDO =>
    if String.eqb (z_cmd o) "mgmtPermitJoinRsp" then Some true
    else if String.eqb (z_cmd o) "permitJoinInd" then
      match int_of (z_payload o) "duration" with Some d => Some (negb (d =? 0)) | None => None end
    else None
  | _, _ => None
  end.
