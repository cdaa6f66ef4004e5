(** * Whole: the application with all its API objects, in which the start-ups make their requests themselves.
    World.v takes the course of each start-up as given (its requests, answers and outcome are events).  Here a
    start-up is the coroutine of application.py:88-117, running on the API objects of World.v.  Everything it does to
    the application is an event of World.v, so what holds there for all sequences of events holds here.  The sleeps
    before a reconnect and after opening the port take their time. *)
From Verif Require Import Base Types Uart Buffalo CmdTable Zpi Api App Machine Life World Nv StartZnp AppStart SpecStart Host.

(** ** The parts of a start-up
    Each part makes its requests to one API object: [self._api] is evaluated when the part begins
    (application.py:94, 99, 111), and start_znp gets it as an argument (application.py:132-134). *)
Inductive part_result := TPong | TVersion (product : Z) | TFormed (r : start_result) | TDevice (ieee : list Z) (nwk : Z).
(** application.py:93-97 *)
Definition part_ping : prog part_result := ping;; DRet TPong.
(** application.py:99, 101; a product that is no int does not occur in a decoded version answer *)
Definition part_version : prog part_result :=
  let! version := ask_version in
  let! p := field version "product" in
  match p with VInt z => DRet (TVersion z) | _ => DRaise Unmodelled end.
(** application.py:126-135 *)
Definition part_form (product : Z) (c : nwk_config) : prog part_result :=
  let! r := start_znp product (network_options c) 2948 false in
  DRet (TFormed r).
(** application.py:111-113; kinds of values other than these do not occur in a decoded answer *)
Definition part_device : prog part_result :=
  let! data := request UTIL "getDeviceInfo" [] [0] in
  let! ieee := field data "ieeeaddr" in
  let! nwk := field data "shortaddr" in
  match ieee, nwk with VEui i, VInt n => DRet (TDevice i n) | _, _ => DRaise Unmodelled end.
(** application.py:106, types.py:37-40 *)
Definition known_product (p : Z) : bool := (p =? zStack12) || (p =? zStack3x0) || (p =? zStack30x).

(** A part under way: its API object, where the program is, the waiter objects that it holds (Host.v). *)
Record part := mk_part { r_api : nat; r_place : place part_result; r_waiters : list (matcher * Z * Z) }.
(** ghost: what a start-up did: API object, task there, act *)
Notation deed := (nat * Z * act)%type.
(** A start-up that makes its requests.  [b_auto]: auto_form (application.py:88; True in reconnect, application.py:82);
    [b_part]: None outside [KRequests]; [b_deeds]: ghost: what the present attempt did so far, oldest first. *)
Record boot := mk_boot { b_auto : bool; b_part : option part; b_deeds : list deed }.

(** ghost observations.  [XTries t at_]: coroutine [t] opens the port, at that time; [XOver t auto ds r at_]: its attempt,
    which got as far as making requests and did [ds], ended with [r] *)
Inductive xobs := XTries (t : nat) (at_ : Z) | XOver (t : nat) (auto : bool) (ds : list deed) (r : result unit) (at_ : Z).

(** [x_boots]: the coroutines of [y_tasks], as start-ups; [x_until]: when their sleep ends (application.py:80, uart.py:210) *)
Record whole := mk_whole { x_world : world; x_boots : nat -> boot; x_until : nat -> Z; x_log : list xobs }.
Definition idle (auto : bool) : boot := mk_boot auto None [].
(** coroutines that reconnect made are start-ups with auto_form (application.py:82) *)
Definition whole_init (devs : devices) : whole := mk_whole (world_init devs) (fun _ => idle true) (fun _ => 0) [].

Definition put_at {A} (t : nat) (b : A) (f : nat -> A) : nat -> A := fun u => if Nat.eqb u t then b else f u.
Definition put_boot (t : nat) (b : boot) (x : whole) : whole := mk_whole (x_world x) (put_at t b (x_boots x)) (x_until x) (x_log x).
Definition xnote (o : xobs) (x : whole) : whole := mk_whole (x_world x) (x_boots x) (x_until x) (x_log x ++ [o]).
Definition happens (e : wevent) (x : whole) : whole := mk_whole (world_step e (x_world x)) (x_boots x) (x_until x) (x_log x).

Definition stage_of (w : world) (t : nat) : option stage := option_map k_stage (nth_error (y_tasks (w_life w)) t).
(** coroutine [t] has gone on: application.py:80 sleeps five seconds, uart.py:210 one *)
Definition falls_asleep (t : nat) (x : whole) : whole :=
  let until ms := mk_whole (x_world x) (x_boots x) (put_at t (w_now (x_world x) + ms) (x_until x)) (x_log x) in
  match stage_of (x_world x) t with
  | Some KSleep => until 5000
  | Some (KSettle _ _) => until SETTLE_MS
  | _ => x
  end.

(** ** A part goes on, if it can: as [go] in Host.v, on API object [r_api] *)
Definition deeds_of (a : nat) (l : list (Z * act)) : list deed := map (fun y => (a, fst y, snd y)) l.
Definition part_goes (p : part) (w : world) : world * part * list deed :=
  let a := r_api p in
  let ws := r_waiters p in
  match nth_error (w_apis w) a with
  | None => (w, p, [])
  | Some s =>
    match r_place p with
    | Ready (DRet _) | Ready (DRaise _) => (w, p, [])
    | Ready (DRequest sub cmd d x k) =>
        (world_step (VApiCall a (JCommand sub cmd d x)) w, mk_part a (Requesting (s_ntid s) sub cmd d x k) ws, [])
    | Ready (DListen m timeout k) =>
        (world_run [VApiCall a (JWaitFor m timeout); VTask a (s_ntid s)] w,
         mk_part a (Ready (k (m, timeout))) (ws ++ [(m, timeout, s_ntid s)]), [(a, s_ntid s, AListen m timeout)])
    | Ready (DAwait o k) =>
        match object o ws with
        | Some t => (world_step (VTask a t) w, mk_part a (Awaiting t (fst o) k) ws, [])
        | None => (w, p, [])
        end
    | Ready (DSpawn sub cmd d k) =>
        (world_step (VApiCall a (JCommand sub cmd d [0])) w, mk_part a (Ready k) ws, [(a, s_ntid s, ASpawn sub cmd d)])
    | Requesting t sub cmd d x k =>
        match came_back s t with
        | Some r => (w, mk_part a (Ready (k r)) ws, [(a, t, ARequest sub cmd d x (Some r))])
        | None => (w, p, [])
        end
    | Awaiting t m k =>
        match came_back s t with
        | Some r => (w, mk_part a (Ready (k r)) ws, [(a, t, AAwait m r)])
        | None => (w, p, [])
        end
    end
  end.

(** ** Start-up *)
(** the attempt is over: application.py:83-86 in reconnect, else back to the caller *)
Definition attempt_over (t : nat) (r : result unit) (x : whole) : whole :=
  let b := x_boots x t in
  falls_asleep t (put_boot t (idle (b_auto b))
    (xnote (XOver t (b_auto b) (b_deeds b) r (w_now (x_world x))) (happens (VLife (VGo t r)) x))).
(** the next part begins; AttributeError if [self._api] were None, which does not happen here *)
Definition next_part (t : nat) (p : prog part_result) (x : whole) : whole :=
  let b := x_boots x t in
  match y_cur (w_life (x_world x)) with
  | Some a => put_boot t (mk_boot (b_auto b) (Some (mk_part a (Ready p) [])) (b_deeds b)) x
  | None => attempt_over t (Err AttributeError) x
  end.
(** application.py:137, 396-406: set_led(Off) with the version and the API object that the application has then *)
Definition led_off (t : nat) (x : whole) : whole :=
  let w := x_world x in
  match y_cur (w_life w) with
  | Some a =>
    match nth_error (w_apis w) a with
    | Some s =>
        let b := x_boots x t in
        put_boot t (mk_boot (b_auto b) (b_part b) (b_deeds b ++ [(a, s_ntid s, ASpawn UTIL "ledControl" (led_payload LED_Off))]))
          (happens (VApiCall a (JCommand UTIL "ledControl" (led_payload LED_Off) [0])) x)
    | None => x
    end
  | None => x
  end.
(** application.py:88-117 between two awaits *)
Definition boot_goes (c : nwk_config) (t : nat) (x : whole) : whole :=
  let b := x_boots x t in
  match b_part b with
  | None => x
  | Some p =>
    match r_place p with
    | Ready (DRaise e) => attempt_over t (Err e) x
    | Ready (DRet TPong) => next_part t part_version x
    | Ready (DRet (TVersion product)) =>
        let x := happens (VGotVersion t product) x in
        if known_product product
        then next_part t (if b_auto b then part_form product c else part_device) x
        else attempt_over t (Err ValueError) x
    | Ready (DRet (TFormed _)) =>
        match set_led (w_version (x_world x)) LED_Off with
        | Err e => attempt_over t (Err e) x
        | Ok [] => next_part t part_device x
        | Ok _ => next_part t part_device (led_off t x)
        end
    | Ready (DRet (TDevice ieee nwk)) => attempt_over t (Ok tt) (happens (VGotDevice t ieee nwk) x)
    | _ =>
        let '(w, p', ds) := part_goes p (x_world x) in
        put_boot t (mk_boot (b_auto b) (Some p') (b_deeds b ++ ds)) (mk_whole w (x_boots x) (x_until x) (x_log x))
    end
  end.

(** ** Events and runs
    [XStartup auto r]: the user calls startup(auto_form); [r]: whether the port can be opened.
    [XGo t]: start-up [t] goes on between its requests.  [XWorld e]: anything else of World.v.  Requests, answers and
    outcomes of start-ups are no longer given from outside; nobody else calls the API; who sleeps goes on when the sleep
    is over or when cancelled. *)
Inductive xevent := XStartup (auto : bool) (r : result unit) | XGo (t : nat) | XWorld (e : wevent).
Definition from_outside (x : whole) (e : wevent) : bool :=
  match e with
  | VApiCall _ _ | VGotVersion _ _ | VGotDevice _ _ _ | VLife (VStartup _) => false
  | VLife (VGo t r) =>
      match stage_of (x_world x) t with
      | Some KRequests => false
      | Some KSleep | Some (KSettle _ _) =>
          (x_until x t <=? w_now (x_world x)) || match r with Err CancelledError => true | _ => false end
      | _ => true
      end
  | _ => true
  end.
(** coroutine [t] opens the port, and thereafter sleeps, or goes back to sleep, or starts with its requests *)
Definition tries (t : nat) (x : whole) : whole := xnote (XTries t (w_now (x_world x))) x.
Definition whole_step (c : nwk_config) (e : xevent) (x : whole) : whole :=
  let w := x_world x in
  match e with
  | XStartup auto r =>
      let t := length (y_tasks (w_life w)) in
      falls_asleep t (put_boot t (idle auto) (tries t (happens (VLife (VStartup r)) x)))
  | XGo t => boot_goes c t x
  | XWorld e =>
      if from_outside x e then
        match e with
        | VLife (VGo t r) =>
          let x := match stage_of w t, r with
                   | Some KSleep, Err CancelledError => x
                   | Some KSleep, _ => tries t x
                   | _, _ => x
                   end in
          let x := falls_asleep t (happens (VLife (VGo t r)) x) in
          if starting (x_world x) t then next_part t part_ping x else x
        | _ => happens e x
        end
      else x
  end.
Definition whole_run (c : nwk_config) (es : list xevent) (x : whole) : whole := fold_left (fun x e => whole_step c e x) es x.
