(** * SpecWorldBlame: why a request, a wait or an operation of the world ends with an exception *)
From Verif Require Import Base Types Uart Buffalo Zpi Api App Machine Life World SpecApi SpecMachine SpecFirst SpecBlame SpecWorld.

(** API object [a] is like that *)
Definition on_link (a : nat) (P : st -> Prop) (w : world) : Prop := exists s, nth_error (w_apis w) a = Some s /\ P s.
(** at some moment of the run [es] from [w0] *)
Definition once (P : world -> Prop) (es : list wevent) (w0 : world) : Prop :=
  exists es1 es2, es = es1 ++ es2 /\ P (world_run es1 w0).
(** at some step of the run [es] from [w0]: event, world before, world after *)
Definition some_step (P : wevent -> world -> world -> Prop) (es : list wevent) (w0 : world) : Prop :=
  exists es1 e es2, es = es1 ++ e :: es2 /\ P e (world_run es1 w0) (world_run (es1 ++ [e]) w0).

(** What waiters look for exists in the messages that are received (as [fields_exist] of SpecFirst, for every API object) *)
Definition wfields_exist (w : world) : Prop := forall a s, nth_error (w_apis w) a = Some s -> fields_exist s.

(** In this step task [t] of API object [a] raises AttributeError; the API object had no port before the step. *)
Definition ends_shut (a : nat) (t : Z) (_ : wevent) (w w' : world) : Prop :=
  on_link a (fun s => s_open s = false /\ ~ In (OEnded t (OExn AttributeError)) (s_log s)) w /\
  on_link a (fun s => In (OEnded t (OExn AttributeError)) (s_log s)) w'.
(** In this step an operation of the application is cancelled while it awaits task [t] of API object [a]. *)
Definition cancelled_with_op (a : nat) (t : Z) (e : wevent) (w _ : world) : Prop :=
  exists n o q, e = VCancel n /\ the_op w n = Some o /\ op_at o = OInside q a t.

(** Why task [t], in state [k], of API object [a] raises an exception in the run [es] from [w0] that leaves the history [l]
    of that API object. *)
Inductive wblamed (es : list wevent) (w0 : world) (a : nat) (l : list obs) (t : Z) (k : task) : exn -> Prop :=
| G_cancelled : In (VTaskCancel a t) es -> wblamed es w0 a l t k CancelledError
| G_with_op : some_step (cancelled_with_op a t) es w0 -> wblamed es w0 a l t k CancelledError
| G_unsendable e : unsendable (t_job k) e -> wblamed es w0 a l t k e
| G_closed : some_step (ends_shut a t) es w0 -> wblamed es w0 a l t k AttributeError
| G_silence o : build (t_job k) = Ok o -> once (on_link a (silence t o)) es w0 -> wblamed es w0 a l t k TimeoutError
| G_refused c : refusal (t_job k) t l c -> wblamed es w0 a l t k (CommandError c)
| G_lost c i : refusal (t_job k) t l c -> t_wid k = Some i -> wblamed es w0 a l t k KeyError.

(** At this moment task [t] of API object [a] has been waiting, with wait_for, for a message that answers [m] for the
    [timeout] it gave; every such message received since was taken by the reply waiter of an operation. *)
Definition wunheard (a : nat) (t : Z) (m : matcher) (timeout : Z) (w : world) : Prop :=
  on_link a (fun s => exists la lb i at_ k x, s_log s = la ++ ORegistered i at_ timeout :: lb /\ get s t = Some k /\
    (t_phase k = PReg i x \/ t_phase k = PAwait i x) /\ at_ + timeout <= s_now s /\
    forall r, In (OReceived r) lb -> answers m r -> exists n i', In (WWaiter n a i') (w_log w) /\ In (OCompleted i' r) lb) w.

(** In this step operation [n] goes on and raises AttributeError; there was no semaphore or no API object to use. *)
Definition unconnected (n : nat) (e : wevent) (w w' : world) : Prop :=
  e = VRun n /\ (w_sem w = None \/ y_cur (w_life w) = None) /\
  ~ In (WEnded n (OExn AttributeError)) (w_log w) /\ In (WEnded n (OExn AttributeError)) (w_log w').
(** Why operation [n], in state [o], raises an exception in the run [es] from [w0] that leads to [w]. *)
Inductive op_blamed (es : list wevent) (w0 w : world) (n : nat) (o : op) : exn -> Prop :=
| H_cancelled : In (VCancel n) es -> op_blamed es w0 w n o CancelledError
| H_unsendable e : unsendable (op_job o) e -> op_blamed es w0 w n o e
| H_unconnected : some_step (unconnected n) es w0 -> op_blamed es w0 w n o AttributeError
| H_request q a s t k obj e : In (WAdmitted n q a) (w_log w) -> nth_error (w_apis w) a = Some s -> get s t = Some k ->
    build (op_job o) = Ok obj -> t_job k = JRaw obj [0] -> t_wid k = option_map snd (op_waiter o) ->
    (forall c, e = CommandError c -> exists d, op_job o = JPermit d) -> wblamed es w0 a (s_log s) t k e -> op_blamed es w0 w n o e.
