(** * Machine: the concurrent machine of zigpy_cc/api.py, zigbee/application.py and uart.py.
    One API object with its application: coroutines as tasks, the link lock, the admission semaphore,
    waiters with their futures and clean-up timers, the clock, received bytes.
    Everything between two awaits is one atomic step (asyncio is single-threaded).  The environment
    picks the next event; an event that is not enabled changes nothing.  So a theorem about [run es init]
    for every [es] covers every schedule. *)
From Verif Require Import Base Types Uart Buffalo CmdTable Zpi Api App.

(** State of an asyncio future.  [FDone o] keeps the message as decoded; the sequence number that
    api.py:246 later stores in the same object is not read by whoever awaits the future. *)
Inductive fstate := FPending | FDone (o : zpi) | FCancelled.

(** What a coroutine was asked to do.
    [JRequest .. expect_reply]: application.py:211 request (without the retry decorator of zigpy);
    [JMulticast]: application.py:139 mrequest; [JBroadcast]: application.py:256 broadcast;
    [JPermit]: application.py:312 permit_ncp;
    [JCommand]: api.py:113 request without waiter_id, as every caller outside application.py uses it;
    [JRaw]: api.py:119 request_raw without waiter_id, for an arbitrary object;
    [JWaitFor]: wait_for without sequence and later [.wait()] on it (start_znp.py:138-144, 153-159, 207-212). *)
Inductive job :=
| JRequest (nwk profile cluster src_ep dst_ep sequence : Z) (data : list Z) (expect_reply : bool)
| JMulticast (group_id profile cluster src_ep sequence : Z) (data : list Z)
| JBroadcast (profile cluster src_ep dst_ep radius sequence : Z) (data : list Z) (broadcast_address : Z)
| JPermit (time_s : Z)
| JCommand (sub : subsystem) (command : string) (d : payload) (expected_status : list Z)
| JRaw (o : zpi) (expected_status : list Z)
| JWaitFor (m : matcher) (timeout : Z).

(** How a coroutine ended: returned a message (or None), returned a (status, text) pair, or raised. *)
Inductive outcome := ORet (r : option zpi) | OStatus (status : Z) | OExn (e : exn).

(** Where a coroutine is.  [PAdm], [PHold] and [PRel] only occur inside an atomic step.
    [PStart] not yet run; [PSem] waiting for the semaphore; [PAdm] admitted; [PLock] waiting for the
    lock; [PHold] holds the lock; [PWait i d] holds the lock, awaits waiter [i], time limit [d];
    [PRel] released the lock; [PSleep u] sleeps until [u] (application.py:203, 302);
    [PReg i t] registered waiter [i] (time-out [t]), not yet awaited; [PAwait i d] awaits it. *)
Inductive phase :=
| PStart | PSem | PAdm | PLock | PHold | PWait (i deadline : Z) | PRel | PSleep (until : Z)
| PReg (i timeout : Z) | PAwait (i deadline : Z) | PDone (r : outcome).

(** A task: job, phase, the object being sent, the id of the waiter for the final reply
    ([waiter_id] of api.py:119). *)
Record task := mk_task { t_job : job; t_phase : phase; t_obj : option zpi; t_wid : option Z }.

(** Ghost observations. *)
Inductive obs :=
| OCalled (t : Z)                              (* task t created *)
| ORegistered (i at_ timeout : Z)              (* waiter i registered *)
| OAdmitted (t : Z)                            (* task t passed the semaphore *)
| OQueued (t : Z)                              (* task t queued for the lock *)
| OGranted (t : Z)                             (* task t got the lock *)
| OWritten (t at_ : Z) (bs : list Z)           (* task t wrote a frame *)
| OFreed (t : Z)                               (* task t released the lock *)
| OEnded (t : Z) (r : outcome)                 (* task t ended *)
| OReceived (o : zpi)                          (* message decoded *)
| OCompleted (i : Z) (o : zpi)                 (* waiter i taken out of the table and given o *)
| OEffect (e : effect)
| ORaised (e : exn).                           (* exception out of Gateway.data_received *)

(** Fields of the state:
    s_next: api.py:80 self._waiter_id
    s_waiters: api.py:81 self._waiters, in insertion order
    s_futs: the future of each waiter, by waiter id
    s_timers: pending call_later clean-ups (api.py:229): due time in ms, waiter id
    s_now: loop time in ms
    s_wire: everything handed to transport.write, oldest first
    s_open: self._uart is not None (api.py:84, 103, 108)
    s_buf: Parser.buffer (uart.py:35)
    s_lock: task holding api._lock (api.py:79)
    s_queue: tasks waiting for api._lock, longest-waiting first
    s_sem: free slots of app._semaphore (application.py:104)
    s_tasks: all coroutines ever started
    s_ntid: next task id
    s_version: app.version[product] (application.py:67, 99)
    s_devs: app.devices
    s_app: api._app is not None (api.py:82, 99)
    s_log: ghost: what happened, oldest first; no code reads it *)
Record st := mk_st {
  s_next : Z;
  s_waiters : list waiter;
  s_futs : Z -> fstate;
  s_timers : list (Z * Z);
  s_now : Z;
  s_wire : list (list Z);
  s_open : bool;
  s_buf : list Z;
  s_lock : option Z;
  s_queue : list Z;
  s_sem : Z;
  s_tasks : list (Z * task);
  s_ntid : Z;
  s_version : option Z;
  s_devs : devices;
  s_app : bool;
  s_log : list obs }.

Definition set_next (x : Z) (s : st) : st :=
  mk_st x (s_waiters s) (s_futs s) (s_timers s) (s_now s) (s_wire s) (s_open s) (s_buf s) (s_lock s) (s_queue s) (s_sem s) (s_tasks s) (s_ntid s) (s_version s) (s_devs s) (s_app s) (s_log s).
Definition set_waiters (x : list waiter) (s : st) : st :=
  mk_st (s_next s) x (s_futs s) (s_timers s) (s_now s) (s_wire s) (s_open s) (s_buf s) (s_lock s) (s_queue s) (s_sem s) (s_tasks s) (s_ntid s) (s_version s) (s_devs s) (s_app s) (s_log s).
Definition set_futs (x : Z -> fstate) (s : st) : st :=
  mk_st (s_next s) (s_waiters s) x (s_timers s) (s_now s) (s_wire s) (s_open s) (s_buf s) (s_lock s) (s_queue s) (s_sem s) (s_tasks s) (s_ntid s) (s_version s) (s_devs s) (s_app s) (s_log s).
Definition set_timers (x : list (Z * Z)) (s : st) : st :=
  mk_st (s_next s) (s_waiters s) (s_futs s) x (s_now s) (s_wire s) (s_open s) (s_buf s) (s_lock s) (s_queue s) (s_sem s) (s_tasks s) (s_ntid s) (s_version s) (s_devs s) (s_app s) (s_log s).
Definition set_now (x : Z) (s : st) : st :=
  mk_st (s_next s) (s_waiters s) (s_futs s) (s_timers s) x (s_wire s) (s_open s) (s_buf s) (s_lock s) (s_queue s) (s_sem s) (s_tasks s) (s_ntid s) (s_version s) (s_devs s) (s_app s) (s_log s).
Definition set_wire (x : list (list Z)) (s : st) : st :=
  mk_st (s_next s) (s_waiters s) (s_futs s) (s_timers s) (s_now s) x (s_open s) (s_buf s) (s_lock s) (s_queue s) (s_sem s) (s_tasks s) (s_ntid s) (s_version s) (s_devs s) (s_app s) (s_log s).
Definition set_open (x : bool) (s : st) : st :=
  mk_st (s_next s) (s_waiters s) (s_futs s) (s_timers s) (s_now s) (s_wire s) x (s_buf s) (s_lock s) (s_queue s) (s_sem s) (s_tasks s) (s_ntid s) (s_version s) (s_devs s) (s_app s) (s_log s).
Definition set_buf (x : list Z) (s : st) : st :=
  mk_st (s_next s) (s_waiters s) (s_futs s) (s_timers s) (s_now s) (s_wire s) (s_open s) x (s_lock s) (s_queue s) (s_sem s) (s_tasks s) (s_ntid s) (s_version s) (s_devs s) (s_app s) (s_log s).
Definition set_lock (x : option Z) (s : st) : st :=
  mk_st (s_next s) (s_waiters s) (s_futs s) (s_timers s) (s_now s) (s_wire s) (s_open s) (s_buf s) x (s_queue s) (s_sem s) (s_tasks s) (s_ntid s) (s_version s) (s_devs s) (s_app s) (s_log s).
Definition set_queue (x : list Z) (s : st) : st :=
  mk_st (s_next s) (s_waiters s) (s_futs s) (s_timers s) (s_now s) (s_wire s) (s_open s) (s_buf s) (s_lock s) x (s_sem s) (s_tasks s) (s_ntid s) (s_version s) (s_devs s) (s_app s) (s_log s).
Definition set_sem (x : Z) (s : st) : st :=
  mk_st (s_next s) (s_waiters s) (s_futs s) (s_timers s) (s_now s) (s_wire s) (s_open s) (s_buf s) (s_lock s) (s_queue s) x (s_tasks s) (s_ntid s) (s_version s) (s_devs s) (s_app s) (s_log s).
Definition set_tasks (x : list (Z * task)) (s : st) : st :=
  mk_st (s_next s) (s_waiters s) (s_futs s) (s_timers s) (s_now s) (s_wire s) (s_open s) (s_buf s) (s_lock s) (s_queue s) (s_sem s) x (s_ntid s) (s_version s) (s_devs s) (s_app s) (s_log s).
Definition set_ntid (x : Z) (s : st) : st :=
  mk_st (s_next s) (s_waiters s) (s_futs s) (s_timers s) (s_now s) (s_wire s) (s_open s) (s_buf s) (s_lock s) (s_queue s) (s_sem s) (s_tasks s) x (s_version s) (s_devs s) (s_app s) (s_log s).
Definition set_version (x : option Z) (s : st) : st :=
  mk_st (s_next s) (s_waiters s) (s_futs s) (s_timers s) (s_now s) (s_wire s) (s_open s) (s_buf s) (s_lock s) (s_queue s) (s_sem s) (s_tasks s) (s_ntid s) x (s_devs s) (s_app s) (s_log s).
Definition set_devs (x : devices) (s : st) : st :=
  mk_st (s_next s) (s_waiters s) (s_futs s) (s_timers s) (s_now s) (s_wire s) (s_open s) (s_buf s) (s_lock s) (s_queue s) (s_sem s) (s_tasks s) (s_ntid s) (s_version s) x (s_app s) (s_log s).
Definition set_app (x : bool) (s : st) : st :=
  mk_st (s_next s) (s_waiters s) (s_futs s) (s_timers s) (s_now s) (s_wire s) (s_open s) (s_buf s) (s_lock s) (s_queue s) (s_sem s) (s_tasks s) (s_ntid s) (s_version s) (s_devs s) x (s_log s).
Definition set_log (x : list obs) (s : st) : st :=
  mk_st (s_next s) (s_waiters s) (s_futs s) (s_timers s) (s_now s) (s_wire s) (s_open s) (s_buf s) (s_lock s) (s_queue s) (s_sem s) (s_tasks s) (s_ntid s) (s_version s) (s_devs s) (s_app s) x.

Definition note (o : obs) (s : st) : st := set_log (s_log s ++ [o]) s.

(** ** tasks *)
Fixpoint assoc {A} (t : Z) (l : list (Z * A)) : option A :=
  match l with [] => None | (k, v) :: r => if k =? t then Some v else assoc t r end.
Fixpoint assoc_set {A} (t : Z) (v : A) (l : list (Z * A)) : list (Z * A) :=
  match l with [] => [] | (k, w) :: r => if k =? t then (k, v) :: r else (k, w) :: assoc_set t v r end.
Definition get (s : st) (t : Z) : option task := assoc t (s_tasks s).
Definition put (t : Z) (k : task) (s : st) : st := set_tasks (assoc_set t k (s_tasks s)) s.
Definition goto (t : Z) (p : phase) (s : st) : st :=
  match get s t with
  | Some k => put t (mk_task (t_job k) p (t_obj k) (t_wid k)) s
  | None => s
  end.

(** a new coroutine: asyncio.create_task, or a caller awaiting one *)
Definition spawn (j : job) (s : st) : st :=
  note (OCalled (s_ntid s))
    (set_ntid (s_ntid s + 1) (set_tasks (s_tasks s ++ [(s_ntid s, mk_task j PStart None None)]) s)).

(** jobs that go through the semaphore (application.py:196, 248, 295, 320) *)
Definition uses_sem (j : job) : bool :=
  match j with
  | JRequest _ _ _ _ _ _ _ _ | JMulticast _ _ _ _ _ _ | JBroadcast _ _ _ _ _ _ _ _ | JPermit _ => true
  | JCommand _ _ _ _ | JRaw _ _ | JWaitFor _ _ => false
  end.
(** [expected_status], default [0] (api.py:124-125) *)
Definition expected_of (j : job) : list Z :=
  match j with JCommand _ _ _ e | JRaw _ e => e | _ => [0] end.
(** multicasts and broadcasts sleep 200 ms after sending *)
Definition settles (j : job) : bool :=
  match j with JMulticast _ _ _ _ _ _ | JBroadcast _ _ _ _ _ _ _ _ => true | _ => false end.

(** ** waiters *)
Definition upd (f : Z -> fstate) (i : Z) (v : fstate) : Z -> fstate := fun j => if j =? i then v else f j.

(** api.py:194-231 wait_for; the id of the new waiter is [s_next] *)
Definition wait_for (m : matcher) (timeout : Z) (sequence : option Z) (s : st) : st :=
  note (ORegistered (s_next s) (s_now s) timeout)
    (set_timers (s_timers s ++ [(s_now s + timeout + 100, s_next s)])
       (set_next (s_next s + 1)
          (set_futs (upd (s_futs s) (s_next s) FPending)
             (set_waiters (s_waiters s ++ [mk_waiter (s_next s) m timeout sequence]) s)))).

Definition registered (s : st) (i : Z) : bool := existsb (fun w => w_id w =? i) (s_waiters s).
(** [self._waiters.pop(i)] of a registered id *)
Definition unregister (i : Z) (s : st) : st :=
  set_waiters (filter (fun w => negb (w_id w =? i)) (s_waiters s)) s.

(** asyncio's Future.set_result: raises unless the future is pending *)
Definition future_set_result (f : fstate) (o : zpi) : result fstate :=
  match f with FPending => Ok (FDone o) | FDone _ | FCancelled => Err InvalidStateError end.
(** api.py:49-55 Waiter.set_result *)
Definition set_result (f : fstate) (o : zpi) : result fstate :=
  match f with
  | FCancelled => Ok f
  | FDone _ => Ok f
  | FPending => future_set_result f o
  end.

(** pop and set_result, as in api.py:243-244 and 148 *)
Definition complete (i : Z) (o : zpi) (s : st) : st * result unit :=
  let s := note (OCompleted i o) (unregister i s) in
  match set_result (s_futs s i) o with
  | Ok f => (set_futs (upd (s_futs s) i f) s, Ok tt)
  | Err e => (s, Err e)
  end.

(** asyncio.wait_for giving up on a future (time-out or cancellation) *)
Definition cancel_fut (i : Z) (s : st) : st :=
  match s_futs s i with
  | FPending => set_futs (upd (s_futs s) i FCancelled) s
  | FDone _ | FCancelled => s
  end.

(** ** ends of coroutines *)
Definition finish (t : Z) (r : outcome) (s : st) : st := note (OEnded t r) (goto t (PDone r) s).

Definition free_sem (j : job) (s : st) : st := if uses_sem j then set_sem (s_sem s + 1) s else s.

(** leaving [async with self._lock] (api.py:120) *)
Definition free_lock (t : Z) (s : st) : st := note (OFreed t) (set_lock None (goto t PRel s)).

(** application.py:205-208, 251-254, 304-310: a CommandError becomes its status; other exceptions and
    those of permit_ncp and of api.request propagate *)
Definition outcome_of_exn (j : job) (e : exn) : outcome :=
  match e with
  | CommandError c => if uses_sem j && negb (match j with JPermit _ => true | _ => false end) then OStatus c else OExn e
  | _ => OExn e
  end.
Definition outcome_of_result (j : job) (r : option zpi) : outcome :=
  match j with
  | JRequest _ _ _ _ _ _ _ _ | JMulticast _ _ _ _ _ _ | JBroadcast _ _ _ _ _ _ _ _ => OStatus 0
  | JPermit _ => ORet None
  | _ => ORet r
  end.

(** _request_raw is left with an exception: the lock and the semaphore are released *)
Definition raw_raise (t : Z) (j : job) (e : exn) (s : st) : st :=
  finish t (outcome_of_exn j e) (free_sem j (free_lock t s)).

(** _request_raw returns: the lock is released; multicasts and broadcasts sleep inside the semaphore *)
Definition raw_return (t : Z) (j : job) (r : option zpi) (s : st) : st :=
  let s := free_lock t s in
  if settles j then goto t (PSleep (s_now s + 200)) s
  else finish t (outcome_of_result j r) (free_sem j s).

(** ** sending *)
(** api.py:140, 163, 167: [self._uart.send(frame)]; AttributeError if the port was closed *)
Definition uart_send (t : Z) (f : frame) (s : st) : st * result unit :=
  if s_open s then
    match gw_send [] f with
    | (w, Ok _) => (note (OWritten t (s_now s) (concat w)) (set_wire (s_wire s ++ w) s), Ok tt)
    | (_, Err e) => (s, Err e)
    end
  else (s, Err AttributeError).

(** api.py:137-141, 159-164: register, send, await *)
Definition send_and_wait (t : Z) (j : job) (f : frame) (m : matcher) (timeout : Z) (s : st) : st :=
  let i := s_next s in
  let s := wait_for m timeout None s in
  let '(s, r) := uart_send t f s in
  match r with
  | Err e => raw_raise t j e s
  | Ok _ => goto t (PWait i (s_now s + timeout)) s
  end.

(** api.py:123-171 _request_raw up to the first await; the lock is held *)
Definition request_raw (t : Z) (j : job) (o : zpi) (s : st) : st :=
  match to_unpi_frame o with
  | Err e => raw_raise t j e s
  | Ok f =>
    match z_type o with
    | SREQ => send_and_wait t j f (mk_matcher SRSP (z_sub o) (z_cmd o) []) (sreq_timeout (z_cmd o)) s
    | AREQ =>
        if is_reset_command o then
          send_and_wait t j f (mk_matcher AREQ SYS "resetInd" []) Timeouts_reset s
        else
          let '(s, r) := uart_send t f s in
          match r with
          | Err e => raw_raise t j e s
          | Ok _ => raw_return t j None s
          end
    | _ => raw_raise t j GenericException s
    end
  end.

(** api.py:141-157, 164: _request_raw after the await, with result [r] *)
Definition request_raw_resume (t : Z) (k : task) (o r : zpi) (s : st) : st :=
  match z_type o with
  | SREQ =>
    match unexpected_status r (expected_of (t_job k)) with
    | Some c =>
      match t_wid k with
      | None => raw_raise t (t_job k) (CommandError c) s
      | Some i =>
        if registered s i then
          let '(s, x) := complete i r s in
          raw_raise t (t_job k) (match x with Ok _ => CommandError c | Err e => e end) s
        else raw_raise t (t_job k) KeyError s
      end
    | None => raw_return t (t_job k) (Some r) s
    end
  | _ => raw_return t (t_job k) (Some r) s
  end.

(** got the lock: continue with _request_raw *)
Definition granted (t : Z) (k : task) (s : st) : st :=
  let s := note (OGranted t) (set_lock (Some t) (goto t PHold s)) in
  match t_obj k with Some o => request_raw t (t_job k) o s | None => s end.

(** asyncio.Lock.acquire: immediate if the lock is free and nobody waits, else queue up *)
Definition acquire_lock (t : Z) (k : task) (s : st) : st :=
  match s_lock s, s_queue s with
  | None, [] => granted t k s
  | _, _ => note (OQueued t) (set_queue (s_queue s ++ [t]) (goto t PLock s))
  end.

(** asyncio.Semaphore.acquire: immediate if a slot is free, else wait *)
Definition acquire_sem (t : Z) (k : task) (s : st) : st :=
  if uses_sem (t_job k) then
    if 0 <? s_sem s
    then acquire_lock t k (note (OAdmitted t) (set_sem (s_sem s - 1) (goto t PAdm s)))
    else s
  else acquire_lock t k (goto t PAdm s).

(** the object a job sends *)
Definition build (j : job) : result zpi :=
  match j with
  | JRequest nwk profile cluster src_ep dst_ep sequence data _ =>
      build_request nwk profile cluster src_ep dst_ep sequence data
  | JMulticast group_id profile cluster src_ep sequence data =>
      build_mrequest group_id profile cluster src_ep sequence data
  | JBroadcast profile cluster src_ep dst_ep radius sequence data a =>
      build_broadcast profile cluster src_ep dst_ep radius sequence data a
  | JPermit time_s => build_permit time_s
  | JCommand sub command d _ => in_coroutine (from_command sub command d)
  | JRaw o _ => Ok o
  | JWaitFor _ _ => Err Unmodelled
  end.
(** the waiter for the final reply (application.py:192, 243-244); broadcasts and permits have none *)
Definition response_waiter (j : job) (o : zpi) : result (option (matcher * option Z)) :=
  match j with
  | JRequest _ _ _ _ _ sequence _ true => create_response_waiter o (Some sequence)
  | JMulticast _ _ _ _ sequence _ => create_response_waiter o (Some sequence)
  | _ => Ok None
  end.

(** ready to be admitted: object built, waiter id known *)
Definition prepared (t : Z) (k : task) (s : st) : st := put t k s.

(** first run of a coroutine *)
Definition start (t : Z) (k : task) (s : st) : st :=
  match t_job k with
  | JWaitFor m timeout =>
      goto t (PReg (s_next s) timeout) (wait_for m timeout None s)
  | j =>
    match build j with
    | Err e => finish t (OExn e) s
    | Ok o =>
      match response_waiter j o with
      | Err e => finish t (OExn e) s
      | Ok None =>
          let k := mk_task j PSem (Some o) None in
          acquire_sem t k (prepared t k s)
      | Ok (Some (m, sequence)) =>
          let k := mk_task j PSem (Some o) (Some (s_next s)) in
          acquire_sem t k (prepared t k (wait_for m Timeouts_default sequence s))
      end
    end
  end.

(** the event loop resumes a coroutine that can go on *)
Definition resume (t : Z) (s : st) : st :=
  match get s t with
  | None => s
  | Some k =>
    match t_phase k with
    | PStart => start t k s
    | PSem => acquire_sem t k s
    | PLock =>
        match s_lock s, s_queue s with
        | None, h :: q => if h =? t then granted t k (set_queue q s) else s
        | _, _ => s
        end
    | PWait i _ =>
        match s_futs s i, t_obj k with
        | FDone r, Some o => request_raw_resume t k o r s
        | _, _ => s
        end
    | PSleep u =>
        if u <=? s_now s then finish t (outcome_of_result (t_job k) None) (free_sem (t_job k) s) else s
    | PReg i timeout => goto t (PAwait i (s_now s + timeout)) s
    | PAwait i _ =>
        match s_futs s i with FDone r => finish t (ORet (Some r)) s | _ => s end
    | PAdm | PHold | PRel | PDone _ => s
    end
  end.

(** asyncio.wait_for's timer (api.py:47) *)
Definition wait_timeout (t : Z) (s : st) : st :=
  match get s t with
  | None => s
  | Some k =>
    match t_phase k with
    | PWait i d =>
        match s_futs s i with
        | FPending => if d <=? s_now s then raw_raise t (t_job k) TimeoutError (cancel_fut i s) else s
        | _ => s
        end
    | PAwait i d =>
        match s_futs s i with
        | FPending => if d <=? s_now s then finish t (OExn TimeoutError) (cancel_fut i s) else s
        | _ => s
        end
    | _ => s
    end
  end.

Definition dequeue (t : Z) (s : st) : st := set_queue (filter (fun x => negb (x =? t)) (s_queue s)) s.

(** task.cancel().  A coroutine that was already given its result may also return it first; that is
    the schedule in which [resume] comes first. *)
Definition cancel (t : Z) (s : st) : st :=
  match get s t with
  | None => s
  | Some k =>
    match t_phase k with
    | PStart | PSem => finish t (OExn CancelledError) s
    | PLock => finish t (OExn CancelledError) (free_sem (t_job k) (dequeue t s))
    | PWait i _ => raw_raise t (t_job k) CancelledError (cancel_fut i s)
    | PSleep _ => finish t (OExn CancelledError) (free_sem (t_job k) s)
    | PReg _ _ => finish t (OExn CancelledError) s
    | PAwait i _ => finish t (OExn CancelledError) (cancel_fut i s)
    | PAdm | PHold | PRel | PDone _ => s
    end
  end.

(** api.py:215-227 the clean-up callback of waiter [i], once due *)
Definition cleanup (i : Z) (s : st) : st :=
  match find (fun x => (snd x =? i) && (fst x <=? s_now s)) (s_timers s) with
  | None => s
  | Some _ =>
    let s := set_timers (filter (fun x => negb (snd x =? i)) (s_timers s)) s in
    match s_futs s i with
    | FPending | FCancelled => unregister i s
    | FDone _ => s
    end
  end.

(** ** receiving *)
(** api.py:240-247: offer the message to the waiters of the snapshot [ws]; returns the object with the
    sequence number of the waiter that ended the loop.  [Some 0] is falsy. *)
Fixpoint dispatch (ws : list waiter) (o : zpi) (s : st) : st * zpi * result unit :=
  match ws with
  | [] => (s, o, Ok tt)
  | w :: r =>
    match waiter_match (w_matcher w) o with
    | Err e => (s, o, Err e)
    | Ok false => dispatch r o s
    | Ok true =>
        let '(s, x) := complete (w_id w) o s in
        match x with
        | Err e => (s, o, Err e)
        | Ok _ =>
          match w_seq w with
          | Some q => if q =? 0 then dispatch r o s else (s, with_seq o (Some q), Ok tt)
          | None => dispatch r o s
          end
        end
    end
  end.

Definition do_effect (e : effect) (s : st) : st :=
  match e with
  | ELed mode => spawn (JCommand UTIL "ledControl" (led_payload mode) [0]) (note (OEffect e) s)
  | _ => note (OEffect e) s
  end.

(** api.py:251-252 *)
Definition app_handle (o : zpi) (s : st) : st * result unit :=
  if s_app s then
    let '(devs, effs, r) := handle_znp (s_version s) (s_devs s) o in
    (fold_left (fun s e => do_effect e s) effs (set_devs devs s), r)
  else (s, Ok tt).

(** api.py:233-257 data_received ([_handle_*] only log) *)
Definition data_received (s : st) (f : frame) : st * result unit :=
  match from_unpi_frame f with
  | Err e => (s, Err e)
  | Ok o =>
    let s := note (OReceived o) s in
    let '(s, o, r) := dispatch (s_waiters s) o s in
    match r with
    | Err e => (s, Err e)
    | Ok _ => app_handle o s
    end
  end.

(** uart.py:143-155 one chunk from the serial port *)
Definition receive (data : list Z) (s : st) : st :=
  let '(b, s1, r) := gw_data_received data_received (s_buf s) s data in
  let s1 := set_buf b s1 in
  match r with Ok _ => s1 | Err e => note (ORaised e) s1 end.

(** ** events and runs *)
Inductive event :=
| ECall (j : job) | ERun (t : Z) | ETimeout (t : Z) | ECancel (t : Z) | ECleanup (i : Z)
| ETick (ms : Z) | ERecv (data : list Z) | EClose | EVersion (product : Z).

Definition step (e : event) (s : st) : st :=
  match e with
  | ECall j => spawn j s
  | ERun t => resume t s
  | ETimeout t => wait_timeout t s
  | ECancel t => cancel t s
  | ECleanup i => cleanup i s
  | ETick ms => if 0 <=? ms then set_now (s_now s + ms) s else s
  | ERecv data => receive data s
  | EClose => set_open false s                     (* api.py:105-108 *)
  | EVersion product => set_version (Some product) s  (* application.py:99 *)
  end.
Definition run (es : list event) (s : st) : st := fold_left (fun s e => step e s) es s.

(** application.py:101: slots of the semaphore *)
Definition concurrent (product : Z) : Z := if product =? zStack3x0 then 16 else 2.

(** A fresh API with an open port: [cap] slots (application.py:104), device table, application set
    or not. *)
Definition init (cap : Z) (version : option Z) (devs : devices) (has_app : bool) : st :=
  mk_st 0 [] (fun _ => FPending) [] 0 [] true [] None [] cap [] 0 version devs has_app [].
