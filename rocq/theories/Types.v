(** * Types: enumerations of zigpy_cc/types.py and zigpy_cc/const.py *)
From Verif Require Import Base.

(** zigpy_cc/types.py:43-47 class CommandType *)
Inductive command_type := POLL | SREQ | AREQ | SRSP.
Definition ct_val (c : command_type) : Z :=
  match c with POLL => 0 | SREQ => 1 | AREQ => 2 | SRSP => 3 end.
(** [CommandType(n)]: ValueError for an undefined value *)
Definition ct_of (n : Z) : result command_type :=
  match n with 0 => Ok POLL | 1 => Ok SREQ | 2 => Ok AREQ | 3 => Ok SRSP | _ => Err ValueError end.
Definition ct_eqb (a b : command_type) : bool := ct_val a =? ct_val b.

(** zigpy_cc/types.py:50-62 class Subsystem *)
Inductive subsystem :=
| RESERVED | SYS | MAC | NWK | AF | ZDO | SAPI | UTIL | DEBUG | APP | APP_CNF | GREENPOWER.
Definition sub_val (s : subsystem) : Z :=
  match s with
  | RESERVED => 0 | SYS => 1 | MAC => 2 | NWK => 3 | AF => 4 | ZDO => 5 | SAPI => 6 | UTIL => 7
  | DEBUG => 8 | APP => 9 | APP_CNF => 15 | GREENPOWER => 21
  end.
(** [Subsystem(n)]: ValueError for an undefined value *)
Definition sub_of (n : Z) : result subsystem :=
  match n with
  | 0 => Ok RESERVED | 1 => Ok SYS | 2 => Ok MAC | 3 => Ok NWK | 4 => Ok AF | 5 => Ok ZDO
  | 6 => Ok SAPI | 7 => Ok UTIL | 8 => Ok DEBUG | 9 => Ok APP | 15 => Ok APP_CNF | 21 => Ok GREENPOWER
  | _ => Err ValueError
  end.
Definition sub_eqb (a b : subsystem) : bool := sub_val a =? sub_val b.

(** zigpy_cc/types.py:65-87 class ParameterType *)
Inductive ptype :=
| UINT8 | UINT16 | UINT32 | IEEEADDR
| BUFFER | BUFFER8 | BUFFER16 | BUFFER18 | BUFFER32 | BUFFER42 | BUFFER100
| LIST_UINT8 | LIST_UINT16 | LIST_ROUTING_TABLE | LIST_BIND_TABLE | LIST_NEIGHBOR_LQI
| LIST_NETWORK | LIST_ASSOC_DEV | INT8.

(** zigpy_cc/types.py:21-26 class AddressMode; [AddressMode(n)] raises ValueError if undefined *)
Definition ADDR_NOT_PRESENT := 0.
Definition ADDR_GROUP := 1.
Definition ADDR_16BIT := 2.
Definition ADDR_64BIT := 3.
Definition ADDR_BROADCAST := 15.
Definition address_mode_of (n : Z) : result Z :=
  match n with 0 | 1 | 2 | 3 | 15 => Ok n | _ => Err ValueError end.

(** zigpy_cc/types.py:29-34 class LedMode (the two members used) *)
Definition LED_Off := 0.
Definition LED_On := 1.

(** zigpy_cc/types.py:37-40 class ZnpVersion *)
Definition zStack12 := 0.
Definition zStack3x0 := 1.
Definition zStack30x := 2.

(** zigpy_cc/types.py:15-18 class Timeouts, in ms *)
Definition Timeouts_SREQ := 6000.
Definition Timeouts_reset := 30000.
Definition Timeouts_default := 10000.

(** A parameter of a command: name and type (zigpy_cc/definition.py). *)
Definition param := (string * ptype)%type.

(** A command of the table (zigpy_cc/definition.py); [None] = key absent. *)
Record cmd := mk_cmd {
  c_name : string; c_ID : Z; c_type : command_type;
  c_request : option (list param); c_response : option (list param) }.
