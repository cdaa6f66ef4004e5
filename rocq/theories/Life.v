(** * Life: choosing, opening, probing, losing and reopening the serial port
    (zigpy_cc/uart.py, zigpy_cc/api.py, zigpy_cc/zigbee/application.py) *)
From Verif Require Import Base Types.

(** ** choosing the port *)

(** serial.tools.list_ports_common.ListPortInfo: device, description, hwid *)
Record port_info := mk_port { p_device : string; p_desc : string; p_hwid : string }.

Definition lower_ascii (c : Ascii.ascii) : Ascii.ascii :=
  let n := Ascii.nat_of_ascii c in
  if Nat.leb 65 n && Nat.leb n 90 then Ascii.ascii_of_nat (n + 32) else c.
Fixpoint lower (s : string) : string :=
  match s with EmptyString => EmptyString | String c r => String (lower_ascii c) (lower r) end.
Fixpoint contains (s t : string) : bool :=
  startswith s t || match s with EmptyString => false | String _ r => contains r t end.

(** uart.py:25-30 usb_regexp = "0451:|1a86:7523", searched ignoring case *)
Definition usb_search (s : string) : bool := contains (lower s) "0451:" || contains (lower s) "1a86:7523".

(** serial.tools.list_ports.grep: the ports whose device, description or hardware id matches *)
Definition port_matches (p : port_info) : bool :=
  usb_search (p_device p) || usb_search (p_desc p) || usb_search (p_hwid p).
Definition ports_grep (attached : list port_info) : list port_info := filter port_matches attached.

(** uart.py:163-173 detect_port *)
Definition detect_port (attached : list port_info) : result port_info :=
  match ports_grep attached with
  | [] => Err SerialException
  | [d] => Ok d
  | _ :: _ :: _ => Err SerialException
  end.

(** config.py:15-23 SCHEMA_DEVICE: path, baudrate, flow control *)
Record device_config := mk_device_config { dc_path : string; dc_baudrate : Z; dc_flow : option string }.

(** what create_serial_connection is called with (uart.py:196-205); parity and stop bits are fixed *)
Record serial_args := mk_serial_args { sa_url : string; sa_baudrate : Z; sa_xonxoff : bool; sa_rtscts : bool }.

(** uart.py:189-193 *)
Definition flow_flags (flow : option string) : bool * bool :=
  match flow with
  | Some f => if String.eqb f "hardware" then (false, true)
              else if String.eqb f "software" then (true, false) else (false, false)
  | None => (false, false)
  end.

(** uart.py:176-205 connect up to the call of create_serial_connection *)
Definition connect_args (c : device_config) (attached : list port_info) : result serial_args :=
  do port <- (if String.eqb (dc_path c) "auto"
              then do d <- detect_port attached; Ok (p_device d)
              else Ok (dc_path c));
  let '(xonxoff, rtscts) := flow_flags (dc_flow c) in
  Ok (mk_serial_args port (dc_baudrate c) xonxoff rtscts).

(** ** probing (api.py:274-299).  Times in ms since probing began. *)

(** What the world does: how long choosing and opening the port takes and how it ends (the call blocks;
    an exception of it reaches wait_for even if the limit has passed meanwhile, because the awaited task
    is finished by then); how long after the request the version response takes and what the request
    then gives.  [None]: nothing comes within the limit of the request itself, 6 s. *)
Record probe_world := mk_probe_world {
  pw_open_ms : Z; pw_open : result unit; pw_reply : option (Z * result unit) }.

(** api.py:18 COMMAND_TIMEOUT, uart.py:210 sleep *)
Definition PROBE_LIMIT := 2000.
Definition SETTLE_MS := 1000.

(** How the awaited task [_probe] (api.py:296-299) ends: result or exception, and whether [api._uart] is
    set by then (api.py:103: only after uart.connect has returned), and whether the port was opened. *)
Definition probe_task (w : probe_world) : result unit * bool * bool :=
  match pw_open w with
  | Err e => (Err e, false, false)
  | Ok _ =>
    if PROBE_LIMIT <=? pw_open_ms w + SETTLE_MS then (Err TimeoutError, false, true)
    else
      match pw_reply w with
      | None => (Err TimeoutError, true, true)
      | Some (ms, r) =>
        if PROBE_LIMIT <=? pw_open_ms w + SETTLE_MS + ms then (Err TimeoutError, true, true)
        else (r, true, true)
      end
  end.

(** api.py:281-285: the exceptions that are caught; ZigbeeException: CommandError (exception.py:14) *)
Definition probe_catches (e : exn) : bool :=
  match e with TimeoutError | SerialException | CommandError _ => true | _ => false end.

(** api.py:275-295 probe: what it returns or raises, and whether the port is open afterwards.
    [api.close()] closes the port only if [_uart] is set (api.py:105-108). *)
Definition probe (w : probe_world) : result bool * bool :=
  let '(r, uart_set, opened) := probe_task w in
  let left_open := opened && negb uart_set in
  (match r with
   | Ok _ => Ok true
   | Err e => if probe_catches e then Ok false else Err e
   end, left_open).

(** ** ports, APIs, start-up and reconnecting *)

(** uart.py:112-160 Gateway.  [g_open]: self._open; [g_port]: the transport still has the port open;
    [g_told]: the transport has called connection_lost (it does so once); [g_api]: self._api. *)
Record gateway := mk_gateway { g_open : bool; g_port : bool; g_told : bool; g_api : nat }.
(** api.py:74-84 API, the two fields that matter here *)
Record api_obj := mk_api_obj { a_uart : option nat; a_app : bool }.

(** Where a coroutine stands.  [KBegin]: created (reconnect only).  [KSleep]: application.py:80.
    [KSettle a g]: the port of gateway [g] of API [a] is open, uart.connect still waits (uart.py:207-210).
    [KRequests]: API.new has returned and application.py:92 has stored it; start-up makes its requests. *)
Inductive stage :=
| KBegin | KSleep | KSettle (a g : nat) | KRequests | KEnd (r : result unit).
(** [k_loop]: application.py:76-86 reconnect; otherwise startup called by the user *)
Record coroutine := mk_coroutine { k_loop : bool; k_stage : stage }.

(** ghost observations *)
Inductive life_obs :=
| LLost (g : nat)                        (* connection_lost of gateway [g] is called *)
| LReconnect (g t : nat)                 (* coroutine [t] was created because of the loss of [g] *)
| LError (e : exn)                       (* exception in a callback or in shutdown *)
| LClosed (g : nat)                      (* Gateway.close of [g] was called *)
| LHanded (g : nat)                      (* API.new has returned the API with gateway [g] *)
| LClose (t : nat)                       (* reconnect [t]: application.py:78-79 done *)
| LAttempt (t : nat)                     (* coroutine [t] calls, or is, startup *)
| LResult (t : nat) (r : result unit)    (* how that start-up ended *)
| LCancel (t : nat).                     (* coroutine [t] was cancelled outside start-up *)

(** [y_gws], [y_apis], [y_tasks]: all objects ever created, named by position; [y_cur]: app._api *)
Record life := mk_life {
  y_gws : list gateway; y_apis : list api_obj; y_cur : option nat;
  y_tasks : list coroutine; y_log : list life_obs }.

Definition life_init : life := mk_life [] [] None [] [].

Fixpoint set_nth {A} (n : nat) (x : A) (l : list A) : list A :=
  match l, n with
  | [], _ => []
  | _ :: r, O => x :: r
  | a :: r, S k => a :: set_nth k x r
  end.

Definition with_gws (x : list gateway) (s : life) := mk_life x (y_apis s) (y_cur s) (y_tasks s) (y_log s).
Definition with_apis (x : list api_obj) (s : life) := mk_life (y_gws s) x (y_cur s) (y_tasks s) (y_log s).
Definition with_cur (x : option nat) (s : life) := mk_life (y_gws s) (y_apis s) x (y_tasks s) (y_log s).
Definition with_tasks (x : list coroutine) (s : life) := mk_life (y_gws s) (y_apis s) (y_cur s) x (y_log s).
Definition log (o : life_obs) (s : life) :=
  mk_life (y_gws s) (y_apis s) (y_cur s) (y_tasks s) (y_log s ++ [o]).

Definition at_stage (t : nat) (x : stage) (s : life) : life :=
  match nth_error (y_tasks s) t with
  | Some k => with_tasks (set_nth t (mk_coroutine (k_loop k) x) (y_tasks s)) s
  | None => s
  end.

(** uart.py:130-132 Gateway.close *)
Definition gw_close (g : nat) (s : life) : life :=
  match nth_error (y_gws s) g with
  | Some x => log (LClosed g) (with_gws (set_nth g (mk_gateway false false (g_told x) (g_api x)) (y_gws s)) s)
  | None => s
  end.
(** api.py:105-108 API.close *)
Definition api_close (a : nat) (s : life) : life :=
  match nth_error (y_apis s) a with
  | Some x =>
    match a_uart x with
    | Some g => with_apis (set_nth a (mk_api_obj None (a_app x)) (y_apis s)) (gw_close g s)
    | None => s
    end
  | None => s
  end.
(** closing the API the application uses now *)
Definition app_close (s : life) : life :=
  match y_cur s with Some a => api_close a s | None => s end.

(** uart.py:157-160, api.py:110-111, application.py:73-74: connection_lost.  The transport has let go of
    the port.  [self._app] is None until API.new has returned: AttributeError. *)
Definition lost (g : nat) (s : life) : life :=
  match nth_error (y_gws s) g with
  | None => s
  | Some x =>
    if g_told x then s
    else
      let s := log (LLost g)
                 (with_gws (set_nth g (mk_gateway (g_open x) false true (g_api x)) (y_gws s)) s) in
      if g_open x then
        match nth_error (y_apis s) (g_api x) with
        | Some a =>
          if a_app a
          then log (LReconnect g (length (y_tasks s)))
                 (with_tasks (y_tasks s ++ [mk_coroutine true KBegin]) s)
          else log (LError AttributeError) s
        | None => s
        end
      else s
  end.

(** application.py:78-80: top of the loop of reconnect up to the sleep *)
Definition loop_top (t : nat) (s : life) : life := at_stage t KSleep (log (LClose t) (app_close s)).

(** how start-up ended: reconnect goes round again after an Exception, which CancelledError is not
    (application.py:81-86); a start-up called by the user just ends *)
Definition startup_ended (t : nat) (r : result unit) (s : life) : life :=
  let s := log (LResult t r) s in
  match nth_error (y_tasks s) t with
  | None => s
  | Some k =>
    match r with
    | Ok _ => at_stage t (KEnd r) s
    | Err CancelledError => at_stage t (KEnd r) s
    | Err _ => if k_loop k then loop_top t s else at_stage t (KEnd r) s
    end
  end.

(** application.py:88-92, api.py:92-103, uart.py:176-207: start-up up to the first await: a new API
    object, the port is opened ([r]); connection_made (uart.py:122-128) is called before anything else *)
Definition startup_begins (t : nat) (r : result unit) (s : life) : life :=
  let s := log (LAttempt t) s in
  let a := length (y_apis s) in
  let s := with_apis (y_apis s ++ [mk_api_obj None false]) s in
  match r with
  | Err e => startup_ended t (Err e) s
  | Ok _ =>
    let g := length (y_gws s) in
    at_stage t (KSettle a g) (with_gws (y_gws s ++ [mk_gateway true true false a]) s)
  end.

(** A coroutine goes on; [r] is what the world makes of the step: opening the port, or the requests of
    start-up.  [Err CancelledError] is task.cancel().  Waiting in uart.connect cannot fail otherwise. *)
Definition go_on (t : nat) (r : result unit) (s : life) : life :=
  match nth_error (y_tasks s) t with
  | None => s
  | Some k =>
    match k_stage k with
    | KBegin =>
        match r with Err CancelledError => at_stage t (KEnd r) (log (LCancel t) s) | _ => loop_top t s end
    | KSleep =>
        match r with Err CancelledError => at_stage t (KEnd r) (log (LCancel t) s) | _ => startup_begins t r s end
    | KSettle a g =>
        match r with
        | Err CancelledError => startup_ended t r s
        | _ => at_stage t KRequests
                 (log (LHanded g)
                    (with_cur (Some a) (with_apis (set_nth a (mk_api_obj (Some g) true) (y_apis s)) s)))
        end
    | KRequests => startup_ended t r s
    | KEnd _ => s
    end
  end.

(** [VStartup r]: the user calls app.startup(); [VShutdown]: app.shutdown() (application.py:69-71;
    AttributeError without an API); [VLost g]: the transport reports that the connection is gone *)
Inductive life_event :=
| VStartup (r : result unit) | VShutdown | VLost (g : nat) | VGo (t : nat) (r : result unit).

Definition life_step (e : life_event) (s : life) : life :=
  match e with
  | VStartup r =>
      let t := length (y_tasks s) in
      startup_begins t r (with_tasks (y_tasks s ++ [mk_coroutine false KBegin]) s)
  | VShutdown => match y_cur s with Some a => api_close a s | None => log (LError AttributeError) s end
  | VLost g => lost g s
  | VGo t r => go_on t r s
  end.
Definition life_run (es : list life_event) (s : life) : life := fold_left (fun s e => life_step e s) es s.
