(** * World: the application with all its API objects.
    Machine.v is one API object with one semaphore.  Here the application survives the loss of the connection:
    every start-up makes a new API object and a new semaphore (application.py:92, 104), the coroutines of the
    application look up [self._api] and [self._semaphore] at the point where they use them, and the old objects
    live on with whoever still uses them.  Ports and reconnecting are those of Life.v, what happens inside one API
    object are the functions of Machine.v. *)
From Verif Require Import Base Types Uart Buffalo CmdTable Zpi Api App Machine Life.

(** Where a coroutine of the application is.  [OBegin]: not yet run.  [OSlot q]: waits for semaphore object [q].
    [OInside q a t]: has a slot of [q] and awaits request_raw of API object [a], where it is task [t].
    [OSettling q u]: sleeps until [u] with the slot (application.py:203, 302). *)
Inductive op_place :=
| OBegin | OSlot (q : nat) | OInside (q a : nat) (t : Z) | OSettling (q : nat) (until : Z) | OOver (r : outcome).

(** A coroutine of the application: what it does (a job that takes a slot), the object that it sends, the reply
    waiter that it made: API object and [waiter_id] (application.py:191-194, 242-246). *)
Record op := mk_op { op_job : job; op_obj : option zpi; op_waiter : option (nat * Z); op_at : op_place }.

(** ghost observations *)
Inductive wobs :=
| WCalled (n : nat)                          (* operation n called *)
| WWaiter (n a : nat) (i : Z)                (* operation n made waiter i of API object a *)
| WAdmitted (n q a : nat)                    (* operation n got a slot of q and turned to API object a *)
| WEnded (n : nat) (r : outcome)             (* operation n ended *)
| WNewSem (q : nat) (slots : Z)              (* semaphore object q made with that many slots *)
| WAdded (ieee : list Z) (nwk : Z)           (* start-up put the coordinator into the device table *)
| WEffect (a : nat) (e : effect)             (* the application handled a message of API object a *)
| WRaised (a : nat) (e : exn).               (* exception out of data_received of a gateway of a *)

(** [w_life]: ports, API objects, self._api ([y_cur]), start-ups and reconnect loops;
    [w_apis]: the API objects again, with their waiters, lock, requests (same numbering as [y_apis]);
    of each machine the fields s_sem, s_version and s_devs are not used, these are below;
    [w_sems]: free slots of every semaphore object; [w_sem]: self._semaphore (application.py:104);
    [w_version]: self.version["product"]; [w_devs]: self.devices; [w_ops]: the coroutines; [w_now]: loop time *)
Record world := mk_world {
  w_life : life; w_apis : list st; w_sems : list Z; w_sem : option nat;
  w_version : option Z; w_devs : devices; w_ops : list op; w_now : Z; w_log : list wobs }.

Definition set_life x w := mk_world x (w_apis w) (w_sems w) (w_sem w) (w_version w) (w_devs w) (w_ops w) (w_now w) (w_log w).
Definition set_apis x w := mk_world (w_life w) x (w_sems w) (w_sem w) (w_version w) (w_devs w) (w_ops w) (w_now w) (w_log w).
Definition set_sems x w := mk_world (w_life w) (w_apis w) x (w_sem w) (w_version w) (w_devs w) (w_ops w) (w_now w) (w_log w).
Definition set_wsem x w := mk_world (w_life w) (w_apis w) (w_sems w) x (w_version w) (w_devs w) (w_ops w) (w_now w) (w_log w).
Definition set_wversion x w := mk_world (w_life w) (w_apis w) (w_sems w) (w_sem w) x (w_devs w) (w_ops w) (w_now w) (w_log w).
Definition set_wdevs x w := mk_world (w_life w) (w_apis w) (w_sems w) (w_sem w) (w_version w) x (w_ops w) (w_now w) (w_log w).
Definition set_ops x w := mk_world (w_life w) (w_apis w) (w_sems w) (w_sem w) (w_version w) (w_devs w) x (w_now w) (w_log w).
Definition set_wnow x w := mk_world (w_life w) (w_apis w) (w_sems w) (w_sem w) (w_version w) (w_devs w) (w_ops w) x (w_log w).
Definition wnote o w :=
  mk_world (w_life w) (w_apis w) (w_sems w) (w_sem w) (w_version w) (w_devs w) (w_ops w) (w_now w) (w_log w ++ [o]).

(** application.py:62-67 *)
Definition world_init (devs : devices) : world := mk_world life_init [] [] None None devs [] 0 [].

(** ** API objects *)
Definition on_api (a : nat) (f : st -> st) (w : world) : world :=
  match nth_error (w_apis w) a with
  | Some s => set_apis (set_nth a (f s) (w_apis w)) w
  | None => w
  end.
(** api.py:77-84: a new API object; [_uart] and [_app] are None *)
Definition new_api (now : Z) : st := set_now now (Machine.set_open false (init 0 None [] false)).
(** [_uart is not None] and [_app is not None] are those of Life.v *)
Definition flags (x : api_obj) (s : st) : st :=
  set_app (a_app x) (Machine.set_open (match a_uart x with Some _ => true | None => false end) s).
Fixpoint sync (now : Z) (l : list api_obj) (ms : list st) : list st :=
  match l, ms with
  | [], _ => []
  | x :: l', [] => flags x (new_api now) :: sync now l' []
  | x :: l', s :: ms' => flags x s :: sync now l' ms'
  end.
(** something happens to ports, start-ups or reconnect loops (Life.v) *)
Definition life_event_happens (e : life_event) (w : world) : world :=
  let l := life_step e (w_life w) in
  set_apis (sync (w_now w) (y_apis l) (w_apis w)) (set_life l w).

(** api.py:119-121: request_raw(obj, waiter_id) up to its first await: a new task of the API object, in which the
    caller's coroutine goes on.  No await lies before the lock is asked for. *)
Definition call_raw (o : zpi) (waiter_id : option Z) (s : st) : st :=
  let t := s_ntid s in
  let k := mk_task (JRaw o [0]) PAdm (Some o) waiter_id in
  acquire_lock t k (note (OCalled t) (set_ntid (t + 1) (set_tasks (s_tasks s ++ [(t, k)]) s))).

(** ** operations of the application *)
Definition the_op (w : world) (n : nat) : option op := nth_error (w_ops w) n.
Definition put_op (n : nat) (o : op) (w : world) : world := set_ops (set_nth n o (w_ops w)) w.
Definition op_goto (n : nat) (p : op_place) (w : world) : world :=
  match the_op w n with
  | Some o => put_op n (mk_op (op_job o) (op_obj o) (op_waiter o) p) w
  | None => w
  end.
Definition op_end (n : nat) (r : outcome) (w : world) : world := wnote (WEnded n r) (op_goto n (OOver r) w).
(** one slot more or less in semaphore object [q] *)
Definition slot_change (q : nat) (d : Z) (w : world) : world :=
  match nth_error (w_sems w) q with
  | Some v => set_sems (set_nth q (v + d) (w_sems w)) w
  | None => w
  end.
(** leaving [async with self._semaphore] for good *)
Definition op_leave (n q : nat) (r : outcome) (w : world) : world := op_end n r (slot_change q 1 w).

(** the awaited request_raw has come back: in the code this is the same step of the same coroutine
    (application.py:197-208, 249-254, 296-310, 321) *)
Definition op_after (n : nat) (w : world) : world :=
  match the_op w n with
  | Some o =>
    match op_at o with
    | OInside q a t =>
      match nth_error (w_apis w) a with
      | Some s =>
        match get s t with
        | Some k =>
          match t_phase k with
          | PDone (ORet x) =>
              if settles (op_job o) then op_goto n (OSettling q (w_now w + 200)) w
              else op_leave n q (outcome_of_result (op_job o) x) w
          | PDone (OExn e) => op_leave n q (outcome_of_exn (op_job o) e) w
          | PDone (OStatus c) => op_leave n q (OStatus c) w     (* does not occur: request_raw returns or raises *)
          | _ => w
          end
        | None => w
        end
      | None => w
      end
    | _ => w
    end
  | None => w
  end.
Definition ops_after (w : world) : world := fold_left (fun w n => op_after n w) (seq 0 (length (w_ops w))) w.

(** past the semaphore: application.py:196-197, 248-249, 295-296, 320-321.  [self._api] is looked up here;
    AttributeError if it is None *)
Definition op_admitted (n q : nat) (w : world) : world :=
  match the_op w n, y_cur (w_life w) with
  | Some o, Some a =>
    match nth_error (w_apis w) a, op_obj o with
    | Some s, Some obj =>
        op_after n (op_goto n (OInside q a (s_ntid s))
          (on_api a (call_raw obj (option_map snd (op_waiter o))) (wnote (WAdmitted n q a) (slot_change q (-1) w))))
    | _, _ => w
    end
  | _, _ => op_end n (OExn AttributeError) w
  end.
(** asyncio.Semaphore.acquire (Python up to 3.9): immediate if a slot is free, else wait *)
Definition op_acquire (n q : nat) (w : world) : world :=
  match nth_error (w_sems w) q with
  | Some v => if 0 <? v then op_admitted n q w else op_goto n (OSlot q) w
  | None => w
  end.
(** [self._semaphore] is looked up here; AttributeError before the first one was made *)
Definition op_semaphore (n : nat) (w : world) : world :=
  match w_sem w with
  | Some q => op_acquire n q w
  | None => op_end n (OExn AttributeError) w
  end.
(** which operations call create_response_waiter (application.py:192, 243-244) *)
Definition wants_waiter (j : job) : option Z :=
  match j with
  | JRequest _ _ _ _ _ sequence _ true => Some sequence
  | JMulticast _ _ _ _ sequence _ => Some sequence
  | _ => None
  end.
(** first run: application.py:181-196, 239-248, 283-295, 313-320.  In permit_ncp the object is made inside the
    semaphore; making it cannot fail there once the duration is accepted. *)
Definition op_begin (n : nat) (o : op) (w : world) : world :=
  match build (op_job o) with
  | Err e => op_end n (OExn e) w
  | Ok obj =>
    match wants_waiter (op_job o) with
    | None => op_semaphore n (put_op n (mk_op (op_job o) (Some obj) None OBegin) w)
    | Some sequence =>
      match y_cur (w_life w) with
      | None => op_end n (OExn AttributeError) w
      | Some a =>
        match nth_error (w_apis w) a, create_response_waiter obj (Some sequence) with
        | Some s, Err e => op_end n (OExn e) w
        | Some s, Ok None => op_semaphore n (put_op n (mk_op (op_job o) (Some obj) None OBegin) w)
        | Some s, Ok (Some (m, q)) =>
            op_semaphore n (put_op n (mk_op (op_job o) (Some obj) (Some (a, s_next s)) OBegin)
              (wnote (WWaiter n a (s_next s)) (on_api a (wait_for m Timeouts_default q) w)))
        | None, _ => w
        end
      end
    end
  end.
(** the event loop resumes an operation; one that is inside an API object goes on with the task there *)
Definition op_run (n : nat) (w : world) : world :=
  match the_op w n with
  | Some o =>
    match op_at o with
    | OBegin => op_begin n o w
    | OSlot q => match nth_error (w_sems w) q with Some v => if 0 <? v then op_admitted n q w else w | None => w end
    | OInside q a t => w
    | OSettling q u => if u <=? w_now w then op_leave n q (outcome_of_result (op_job o) None) w else w
    | OOver _ => w
    end
  | None => w
  end.
(** task.cancel() *)
Definition op_cancel (n : nat) (w : world) : world :=
  match the_op w n with
  | Some o =>
    match op_at o with
    | OBegin | OSlot _ => op_end n (OExn CancelledError) w
    | OInside q a t => op_after n (on_api a (Machine.cancel t) w)
    | OSettling q u => op_leave n q (OExn CancelledError) w
    | OOver _ => w
    end
  | None => w
  end.

(** ** receiving *)
(** application.py:323-406 handle_znp with its effects; an LED command goes to [self._api] (application.py:401),
    which need not be the API object that received the message *)
Definition world_effect (a : nat) (w : world) (e : effect) : world :=
  let w := wnote (WEffect a e) w in
  match e, y_cur (w_life w) with
  | ELed mode, Some c => on_api c (spawn (JCommand UTIL "ledControl" (led_payload mode) [0])) w
  | _, _ => w
  end.
Definition world_handle (a : nat) (o : zpi) (w : world) : world * result unit :=
  let '(devs, effs, r) := handle_znp (w_version w) (w_devs w) o in
  (fold_left (world_effect a) effs (set_wdevs devs w), r).
(** api.py:233-257 data_received of API object [a] *)
Definition world_received (a : nat) (w : world) (f : frame) : world * result unit :=
  match nth_error (w_apis w) a, from_unpi_frame f with
  | None, _ => (w, Ok tt)
  | Some _, Err e => (w, Err e)
  | Some s, Ok o =>
    let s := note (OReceived o) s in
    let '(s, o, r) := dispatch (s_waiters s) o s in
    let w := on_api a (fun _ => s) w in
    match r with
    | Err e => (w, Err e)
    | Ok _ => if s_app s then world_handle a o w else (w, Ok tt)
    end
  end.
(** uart.py:143-155: bytes from the port of API object [a] *)
Definition world_receive (a : nat) (data : list Z) (w : world) : world :=
  match nth_error (w_apis w) a with
  | None => w
  | Some s =>
    let '(b, w1, r) := gw_data_received (world_received a) (s_buf s) w data in
    let w1 := on_api a (set_buf b) w1 in
    match r with Ok _ => w1 | Err e => wnote (WRaised a e) w1 end
  end.

(** ** start-up *)
(** start-up [t] is making its requests *)
Definition starting (w : world) (t : nat) : bool :=
  match nth_error (y_tasks (w_life w)) t with
  | Some k => match k_stage k with KRequests => true | _ => false end
  | None => false
  end.
(** application.py:99-104: the version answer is there *)
Definition got_version (product : Z) (w : world) : world :=
  let q := length (w_sems w) in
  let slots := concurrent product in
  wnote (WNewSem q slots) (set_wsem (Some q) (set_sems (w_sems w ++ [slots]) (set_wversion (Some product) w))).
(** application.py:112-117: the answer about the device is there *)
Definition got_device (ieee : list Z) (nwk : Z) (w : world) : world :=
  wnote (WAdded ieee nwk) (set_wdevs (join (w_devs w) nwk ieee) w).

(** ** events and runs.
    [VCall j]: an operation is called ([j] takes a slot); [VRun n], [VCancel n]: operation [n] goes on, is cancelled;
    [VApiCall a j]: somebody, start-up for example, calls request or wait_for of API object [a] ([j] takes no slot);
    [VTask a t], [VTimeout a t], [VTaskCancel a t], [VCleanup a i]: task or timer of API object [a];
    [VReceive a data]: bytes from its port; [VTick ms]: time passes;
    [VLife e]: ports, start-ups, reconnect loops; the outcome of a start-up is given with [e], its requests are
    among the [VApiCall]s.  [VGotVersion t p], [VGotDevice t ieee nwk]: start-up [t] gets these answers. *)
Inductive wevent :=
| VCall (j : job) | VRun (n : nat) | VCancel (n : nat)
| VApiCall (a : nat) (j : job) | VTask (a : nat) (t : Z) | VTimeout (a : nat) (t : Z) | VTaskCancel (a : nat) (t : Z)
| VCleanup (a : nat) (i : Z) | VReceive (a : nat) (data : list Z) | VTick (ms : Z)
| VLife (e : life_event) | VGotVersion (t : nat) (product : Z) | VGotDevice (t : nat) (ieee : list Z) (nwk : Z).

Definition world_step (e : wevent) (w : world) : world :=
  match e with
  | VCall j =>
      if uses_sem j then wnote (WCalled (length (w_ops w))) (set_ops (w_ops w ++ [mk_op j None None OBegin]) w) else w
  | VRun n => op_run n w
  | VCancel n => op_cancel n w
  | VApiCall a j => if uses_sem j then w else on_api a (spawn j) w
  | VTask a t => ops_after (on_api a (resume t) w)
  | VTimeout a t => ops_after (on_api a (wait_timeout t) w)
  | VTaskCancel a t => ops_after (on_api a (Machine.cancel t) w)
  | VCleanup a i => on_api a (cleanup i) w
  | VReceive a data => world_receive a data w
  | VTick ms =>
      if 0 <=? ms
      then set_wnow (w_now w + ms) (set_apis (map (fun s => set_now (s_now s + ms) s) (w_apis w)) w)
      else w
  | VLife e => life_event_happens e w
  | VGotVersion t product => if starting w t then got_version product w else w
  | VGotDevice t ieee nwk => if starting w t then got_device ieee nwk w else w
  end.
Definition world_run (es : list wevent) (w : world) : world := fold_left (fun w e => world_step e w) es w.
