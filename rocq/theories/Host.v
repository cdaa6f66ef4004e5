(** * Host: a start-up program (StartZnp.v, AppStart.v) running on the request machine (Machine.v).
    In the code the program is a coroutine that awaits API.request and Waiter.wait (api.py:46, 113); here each of
    these is a task of the machine and the program goes on when that task has ended.  In the code a request makes its
    first step at once and the program goes on in the step in which the request ends.  Here other events may
    come in between, so every schedule of the code is one of these and there are more.  Other operations of the
    application, received bytes, time-outs and cancellation go on meanwhile as in Machine.v.
    Cancelling the program is cancelling the task that it awaits. *)
From Verif Require Import Base Types Uart Buffalo Zpi Api App Machine Nv StartZnp SpecStart.

(** Where the program is: about to run [p]; awaiting the request made by task [t]; awaiting the waiter of task [t]. *)
Inductive place (A : Type) :=
| Ready (p : prog A)
| Requesting (t : Z) (sub : subsystem) (cmd : string) (d : payload) (x : list Z) (k : result zpi -> prog A)
| Awaiting (t : Z) (m : matcher) (k : result zpi -> prog A).
Arguments Ready {A} p.
Arguments Requesting {A} t sub cmd d x k.
Arguments Awaiting {A} t m k.

(** [h_waiters]: the waiter objects that the program holds, with the tasks that stand for them.
    [h_trace]: ghost: what the program did, with the tasks that did it, oldest first; no code reads it. *)
Record host (A : Type) := mk_host { h_st : st; h_place : place A; h_waiters : list (matcher * Z * Z); h_trace : list (Z * act) }.
Arguments mk_host {A} h_st h_place h_waiters h_trace.
Arguments h_st {A} h.
Arguments h_place {A} h.
Arguments h_waiters {A} h.
Arguments h_trace {A} h.

(** How task [t] ended, as the program sees it.  A request that returns None (api.py:166-171) is not among the
    requests of the programs: [C73_startup_answered]. *)
Definition came_back (s : st) (t : Z) : option (result zpi) :=
  match get s t with
  | Some k =>
    match t_phase k with
    | PDone (ORet (Some m)) => Some (Ok m)
    | PDone (OExn e) => Some (Err e)
    | _ => None
    end
  | None => None
  end.
(** the waiter object [w] of the program (the last one made with these arguments) *)
Definition same_waiter (a b : matcher * Z) : {a = b} + {a <> b}.
Proof. repeat decide equality. Defined.
Fixpoint object (w : matcher * Z) (l : list (matcher * Z * Z)) : option Z :=
  match l with
  | [] => None
  | (w', t) :: r =>
    match object w r with
    | Some u => Some u
    | None => if same_waiter w' w then Some t else None
    end
  end.

(** The program goes on, if it can (start_znp.py and application.py:88-137 between two awaits;
    api.py:46, 113-121, 194-231). *)
Definition go {A} (h : host A) : host A :=
  let s := h_st h in
  match h_place h with
  | Ready (DRet _) | Ready (DRaise _) => h
  | Ready (DRequest sub cmd d x k) =>
      mk_host (step (ECall (JCommand sub cmd d x)) s) (Requesting (s_ntid s) sub cmd d x k) (h_waiters h) (h_trace h)
  | Ready (DListen m timeout k) =>
      mk_host (run [ECall (JWaitFor m timeout); ERun (s_ntid s)] s) (Ready (k (m, timeout)))
        (h_waiters h ++ [(m, timeout, s_ntid s)]) (h_trace h ++ [(s_ntid s, AListen m timeout)])
  | Ready (DAwait w k) =>
      match object w (h_waiters h) with
      | Some t => mk_host (step (ERun t) s) (Awaiting t (fst w) k) (h_waiters h) (h_trace h)
      | None => h
      end
  | Ready (DSpawn sub cmd d k) =>
      mk_host (step (ECall (JCommand sub cmd d [0])) s) (Ready k) (h_waiters h) (h_trace h ++ [(s_ntid s, ASpawn sub cmd d)])
  | Requesting t sub cmd d x k =>
      match came_back s t with
      | Some r => mk_host s (Ready (k r)) (h_waiters h) (h_trace h ++ [(t, ARequest sub cmd d x (Some r))])
      | None => h
      end
  | Awaiting t m k =>
      match came_back s t with
      | Some r => mk_host s (Ready (k r)) (h_waiters h) (h_trace h ++ [(t, AAwait m r)])
      | None => h
      end
  end.

(** [HGo]: the program goes on; [HEnv e]: anything else that can happen (Machine.v) *)
Inductive hevent := HGo | HEnv (e : event).
Definition hstep {A} (e : hevent) (h : host A) : host A :=
  match e with
  | HGo => go h
  | HEnv e => mk_host (step e (h_st h)) (h_place h) (h_waiters h) (h_trace h)
  end.
Definition hrun {A} (es : list hevent) (h : host A) : host A := fold_left (fun h e => hstep e h) es h.
(** the program [p] is called in state [s] *)
Definition hosted {A} (p : prog A) (s : st) : host A := mk_host s (Ready p) [] [].
