(** * PropsConfig: the device section of the configuration (C150) *)
From Coq Require Import Permutation.
From Verif Require Import Base Life SpecLife Config SpecConfig LifeProofs ConfigProofs.

(** ** C150 *)
Theorem C150_accepted : forall exists_ d c, NoDup (map fst d) ->
  (schema_device exists_ d = Some c <-> asks_for exists_ d (dc_path c) (dc_baudrate c) (dc_flow c)).
Proof. exact schema_iff. Qed.
Print Assumptions C150_accepted.
(** what a section asks for is one thing *)
Theorem C150_one_meaning : forall exists_ d p b f p' b' f', NoDup (map fst d) ->
  asks_for exists_ d p b f -> asks_for exists_ d p' b' f' -> p = p' /\ b = b' /\ f = f'.
Proof. exact asks_det. Qed.
Print Assumptions C150_one_meaning.
Theorem C150_order : forall exists_ d d', NoDup (map fst d) -> Permutation d d' -> schema_device exists_ d = schema_device exists_ d'.
Proof. exact schema_order. Qed.
Print Assumptions C150_order.
Theorem C150_opened : forall exists_ d c attached a, NoDup (map fst d) -> schema_device exists_ d = Some c -> connect_args c attached = Ok a ->
  exists p b f, asks_for exists_ d p b f /\ sa_baudrate a = b /\
    sa_rtscts a = match f with Some g => String.eqb g "hardware" | None => false end /\
    sa_xonxoff a = match f with Some g => String.eqb g "software" | None => false end /\
    (p = "auto"%string -> exists x, only_adapter x attached /\ sa_url a = p_device x) /\
    (p <> "auto"%string -> sa_url a = p /\ exists_ p = true).
Proof. exact opened. Qed.
Print Assumptions C150_opened.
Theorem C150_not_opened : forall exists_ d c attached e, NoDup (map fst d) -> schema_device exists_ d = Some c -> connect_args c attached = Err e ->
  In ("path"%string, CStr "auto") d /\ e = SerialException /\ forall x, ~ only_adapter x attached.
Proof. exact not_opened. Qed.
Print Assumptions C150_not_opened.
Theorem C150_probe_raises : forall exists_ d attached w, NoDup (map fst d) ->
  (probe_device exists_ d attached w = None <-> forall p b f, ~ asks_for exists_ d p b f).
Proof. exact probe_raises. Qed.
Print Assumptions C150_probe_raises.
Theorem C150_probe_chosen : forall exists_ d attached w p b f, NoDup (map fst d) -> asks_for exists_ d p b f ->
  (p <> "auto"%string \/ exists x, only_adapter x attached) -> probe_device exists_ d attached w = Some (probe w).
Proof. exact probe_chosen. Qed.
Print Assumptions C150_probe_chosen.
Theorem C150_probe_no_adapter : forall exists_ d attached w b f, NoDup (map fst d) -> asks_for exists_ d "auto" b f ->
  (forall x, ~ only_adapter x attached) -> probe_device exists_ d attached w = Some (Ok false, false).
Proof. exact probe_no_adapter. Qed.
Print Assumptions C150_probe_no_adapter.

Definition lit_files (s : string) : bool := String.eqb s "/dev/ttyUSB0".
Definition lit_section : section := [("flow_control", CStr "hardware"); ("path", CStr "/dev/ttyUSB0"); ("baudrate", CInt 38400)]%string.
Definition lit_auto : section := [("path", CStr "auto")]%string.
Example C150_inhabited :
  NoDup (map fst lit_section) /\ asks_for lit_files lit_section "/dev/ttyUSB0" 38400 (Some "hardware"%string) /\
  asks_for lit_files lit_auto "auto" 115200 None /\
  schema_device lit_files lit_auto = Some (mk_device_config "auto" 115200 None) /\
  connect_args (mk_device_config "/dev/ttyUSB0" 38400 (Some "hardware"%string)) [] = Ok (mk_serial_args "/dev/ttyUSB0" 38400 false true) /\
  (** a missing file, a URL, an empty path, a baud rate in quotes, an unknown flow control, an unknown key, no path *)
  schema_device lit_files [("path", CStr "/dev/ttyUSB1")]%string = None /\
  schema_device lit_files [("path", CStr "socket://host:8888")]%string = None /\
  schema_device (fun _ => true) [("path", CStr "")]%string = None /\
  schema_device lit_files [("path", CStr "auto"); ("baudrate", CStr "115200")]%string = None /\
  schema_device lit_files [("path", CStr "auto"); ("flow_control", CStr "rtscts")]%string = None /\
  schema_device lit_files [("path", CStr "auto"); ("baud", CInt 115200)]%string = None /\
  schema_device lit_files [("baudrate", CInt 115200)]%string = None.
Proof.
  assert (N : NoDup (map fst lit_section)).
  { cbn [lit_section map fst]. repeat constructor; cbn [In]; intuition discriminate. }
  assert (N' : NoDup (map fst lit_auto)) by (cbn [lit_auto map fst]; repeat constructor; intros []).
  split; [exact N|]. split; [apply (proj1 (C150_accepted lit_files lit_section (mk_device_config "/dev/ttyUSB0" 38400 (Some "hardware"%string)) N)); reflexivity|].
  split; [apply (proj1 (C150_accepted lit_files lit_auto (mk_device_config "auto" 115200 None) N')); reflexivity|].
  repeat (split; [reflexivity|]). reflexivity.
Qed.
