(** * SpecLife: what the properties about ports, probing and reconnecting say *)
From Verif Require Import Base Types Life.

(** ** ports *)
(** [c] is the character [d], a letter in either case *)
Definition same_letter (c d : Ascii.ascii) : Prop :=
  c = d \/ (65 <= Ascii.nat_of_ascii c <= 90 /\ Ascii.nat_of_ascii d = Ascii.nat_of_ascii c + 32)%nat.
Fixpoint same_text (m t : string) : Prop :=
  match m, t with
  | EmptyString, EmptyString => True
  | String c m', String d t' => same_letter c d /\ same_text m' t'
  | _, _ => False
  end.
(** [t] occurs in [s], ignoring case *)
Definition mentions (s t : string) : Prop := exists a m b, s = (a ++ m ++ b)%string /\ same_text m t.
(** Texas Instruments, or the HL-340 used with its sticks *)
Definition is_adapter (p : port_info) : Prop :=
  exists s, In s [p_device p; p_desc p; p_hwid p] /\ (mentions s "0451:" \/ mentions s "1a86:7523").
(** [d] is the only adapter among the attached ports *)
Definition only_adapter (d : port_info) (attached : list port_info) : Prop :=
  exists l1 l2, attached = l1 ++ d :: l2 /\ is_adapter d /\ forall x, In x l1 \/ In x l2 -> ~ is_adapter x.

(** ** probing *)
(** the port opened, and the answer to the version request was there before two seconds were over;
    between the two the driver waits for one second *)
Definition answered_in_time (w : probe_world) : Prop :=
  pw_open w = Ok tt /\ exists ms, pw_reply w = Some (ms, Ok tt) /\ pw_open_ms w + 1000 + ms < 2000.
(** durations are not negative *)
Definition sane_world (w : probe_world) : Prop :=
  0 <= pw_open_ms w /\ forall ms r, pw_reply w = Some (ms, r) -> 0 <= ms.
(** the exception the world produces within two seconds, if any: of opening, else of the request *)
Definition world_error (w : probe_world) (e : exn) : Prop :=
  pw_open w = Err e \/
  (pw_open w = Ok tt /\ exists ms, pw_reply w = Some (ms, Err e) /\ pw_open_ms w + 1000 + ms < 2000).
(** time-out, serial error, command error *)
Definition caught (e : exn) : Prop := e = TimeoutError \/ e = SerialException \/ exists st, e = CommandError st.

(** ** reconnecting *)
(** the application's API has no open port *)
Definition port_closed (s : life) : Prop :=
  forall a g y, y_cur s = Some a -> nth_error (y_gws s) g = Some y -> g_api y = a -> g_open y = false /\ g_port y = false.
Definition is_live (k : coroutine) : bool := match k_stage k with KEnd _ => false | _ => true end.
Definition live_loops (s : life) : nat := length (filter (fun k => k_loop k && is_live k) (y_tasks s)).
Definition live (s : life) : nat := length (filter is_live (y_tasks s)).
Definition open_ports (s : life) : nat := length (filter g_port (y_gws s)).

(** a start-up is making its requests *)
Definition requesting (s : life) : Prop := exists k, In k (y_tasks s) /\ k_stage k = KRequests.
Definition is_startup (e : life_event) : bool := match e with VStartup _ => true | _ => false end.
Definition is_cancel (e : life_event) : bool := match e with VGo _ (Err CancelledError) => true | _ => false end.
(** the user starts once and cancels nothing, and no port is lost while a start-up makes its requests *)
Definition calm (es : list life_event) : Prop :=
  (forall e r, es = e :: r -> forall x, In x r -> is_startup x = false) /\
  (forall e, In e es -> is_cancel e = false) /\
  (forall es1 g es2, es = es1 ++ VLost g :: es2 -> ~ requesting (life_run es1 life_init)).

(** the entries of the log that concern coroutine [t] *)
Definition about (t : nat) (o : life_obs) : bool :=
  match o with
  | LClose u | LAttempt u | LResult u _ | LCancel u => Nat.eqb u t
  | _ => false
  end.
(** ** what a reconnect loop may do: close, try, and so on until a try succeeds *)
Inductive loop_state := Created | Waiting | Trying | Over.
Inductive loop_trace (t : nat) : list life_obs -> loop_state -> Prop :=
| T_created : loop_trace t [] Created
| T_closed l : loop_trace t l Created -> loop_trace t (l ++ [LClose t]) Waiting
| T_try l : loop_trace t l Waiting -> loop_trace t (l ++ [LAttempt t]) Trying
| T_success l : loop_trace t l Trying -> loop_trace t (l ++ [LResult t (Ok tt)]) Over
| T_failure l e : loop_trace t l Trying -> e <> CancelledError ->
    loop_trace t (l ++ [LResult t (Err e); LClose t]) Waiting
| T_cancelled_try l : loop_trace t l Trying -> loop_trace t (l ++ [LResult t (Err CancelledError)]) Over
| T_cancelled l x : loop_trace t l x -> (x = Created \/ x = Waiting) -> loop_trace t (l ++ [LCancel t]) Over.
