(** * Config: the device section of the configuration (config.py:10-23), which probe (api.py:277) and, as part of CONFIG_SCHEMA
    (config.py:25, application.py:57-58), the application are given *)
From Verif Require Import Base Life.

(** a value in the configuration; [CBool]: bool is a subclass of int; [COther]: anything else, equal to none of the others *)
Inductive cval := CStr (s : string) | CInt (z : Z) | CBool (b : bool) | CNone | COther.
(** a dict with strings as keys, in order of insertion *)
Definition section : Type := list (string * cval).
Fixpoint lookup (k : string) (d : section) : option cval :=
  match d with
  | [] => None
  | (k', v) :: r => if String.eqb k' k then Some v else lookup k r
  end.

(** config.py:17 vol.Any(vol.PathExists(), "auto"): voluptuous takes the first alternative that accepts.  PathExists refuses what
    is not true and else asks os.path.exists; [exists_] is the file system.  A path that is no string is refused here; voluptuous
    would look for a file named like the number. *)
Definition check_path (exists_ : string -> bool) (v : cval) : option string :=
  match v with
  | CStr s => if negb (String.eqb s "") && exists_ s then Some s else if String.eqb s "auto" then Some s else None
  | _ => None
  end.
(** config.py:18 int: isinstance(value, int); True is 1, False is 0 *)
Definition check_baudrate (v : cval) : option Z :=
  match v with CInt z => Some z | CBool b => Some (if b then 1 else 0) | _ => None end.
(** config.py:19-21 vol.In(("hardware", "software", None)) *)
Definition check_flow (v : cval) : option (option string) :=
  match v with
  | CStr s => if String.eqb s "hardware" || String.eqb s "software" then Some (Some s) else None
  | CNone => Some None
  | _ => None
  end.
(** config.py:10-13; CONF_DEVICE_PATH is zigpy's "path" *)
Definition known_key (k : string) : bool := String.eqb k "path" || String.eqb k "baudrate" || String.eqb k "flow_control".
Definition BAUDRATE_DEFAULT := 115200.

(** config.py:15-23 SCHEMA_DEVICE(section).  None: voluptuous raises.  Keys that the schema does not name are refused
    (PREVENT_EXTRA is the default of vol.Schema); a missing optional key gets its default, which is checked as well. *)
Definition schema_device (exists_ : string -> bool) (d : section) : option device_config :=
  if forallb (fun kv => known_key (fst kv)) d then
    match lookup "path" d with
    | None => None
    | Some v =>
      match check_path exists_ v,
            check_baudrate (match lookup "baudrate" d with Some b => b | None => CInt BAUDRATE_DEFAULT end),
            check_flow (match lookup "flow_control" d with Some f => f | None => CNone end) with
      | Some path, Some baudrate, Some flow => Some (mk_device_config path baudrate flow)
      | _, _, _ => None
      end
    end
  else None.

(** api.py:275-295 probe(section), from the section on.  None: SCHEMA_DEVICE (api.py:277) raises; that is outside the try.
    Otherwise [probe] (Life.v); uart.py:183-187 chooses the port before it opens it. *)
Definition probe_device (exists_ : string -> bool) (d : section) (attached : list port_info) (w : probe_world) : option (result bool * bool) :=
  match schema_device exists_ d with
  | None => None
  | Some c =>
    Some (probe (match connect_args c attached with
                 | Ok _ => w
                 | Err e => mk_probe_world (pw_open_ms w) (Err e) None
                 end))
  end.
