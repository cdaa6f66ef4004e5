(** * SpecWholeEnds: rounds in which everybody gets a turn, also the start-ups, while connections are lost and made again *)
From Verif Require Import Base Types Uart Buffalo CmdTable Zpi Api App Machine Life World SpecMachine SpecProgress SpecWorld SpecWorldProgress Nv StartZnp AppStart SpecStart Host Whole.

(** the time that passes *)
Definition xpassing (es : list xevent) : Z :=
  fold_right (fun e n => match e with XWorld (VTick ms) => Z.max 0 ms + n | _ => n end) 0 es.
(** coroutine [u] of API object [a] gets the chance to notice that its time is up and after this the chance to go on *)
Definition xturn (a : nat) (u : Z) (b : list xevent) : Prop :=
  exists b1 b2 b3, b = b1 ++ XWorld (VTimeout a u) :: b2 ++ XWorld (VTask a u) :: b3.
(** coroutine [t] of the application makes the requests of a start-up *)
Definition asking (x : whole) (t : nat) : Prop :=
  exists k, nth_error (y_tasks (w_life (x_world x))) t = Some k /\ k_stage k = KRequests.
(** At least [T] ms pass and then every unfinished operation and every unfinished coroutine of every API object, closed
    or open, gets its turn; and at some time in the round every start-up that makes its requests gets its turn.
    Anything else may happen meanwhile: new calls, received bytes, lost connections, other start-ups, cancellation. *)
Definition xserving (T : Z) (x : whole) (es : list xevent) : Prop :=
  (forall t, asking x t -> In (XGo t) es) /\
  exists a b, es = a ++ b /\ T <= xpassing a /\
    (forall n, In n (unfinished_ops (w_log (x_world x))) -> In (XWorld (VRun n)) b) /\
    (forall i s u, nth_error (w_apis (x_world x)) i = Some s -> In u (pending (s_log s)) -> xturn i u b).
Fixpoint xserving_rounds (c : nwk_config) (T : Z) (x : whole) (rs : list (list xevent)) : Prop :=
  match rs with
  | [] => True
  | r :: rest => xserving T x r /\ xserving_rounds c T (whole_run c r x) rest
  end.
(** operations called, and requests and waits made on all API objects, so far *)
Definition operations (w : world) : Z := Z.of_nat (length (called_ops (w_log w))).
Definition exchanges (w : world) : Z := fold_right (fun s n => calls (s_log s) + n) 0 (w_apis w).
(** What there is to do from [w] to [e]: 9 for each operation that is unfinished or newly called, 7 for each coroutine of
    an API object that is unfinished or new. *)
Definition burden (w e : world) : Z :=
  9 * (Z.of_nat (length (unfinished_ops (w_log w))) + (operations e - operations w)) + 7 * (waiting_tasks w + (exchanges e - exchanges w)).

(** ** rounds in which those that sleep get their turn as well *)
(** coroutine [t] of the application is yet to begin, sleeps before it tries again, or sleeps after it opened the port *)
Definition resting (x : whole) (t : nat) : Prop :=
  exists k, nth_error (y_tasks (w_life (x_world x))) t = Some k /\ match k_stage k with KBegin | KSleep | KSettle _ _ => True | _ => False end.
(** at least [T] ms pass and then each of these gets its turn, whether or not it can open the port then *)
Definition xwaking (T : Z) (x : whole) (es : list xevent) : Prop :=
  exists a b, es = a ++ b /\ T <= xpassing a /\ forall t, resting x t -> exists r, In (XWorld (VLife (VGo t r))) b.
Fixpoint xfair_rounds (c : nwk_config) (T : Z) (x : whole) (rs : list (list xevent)) : Prop :=
  match rs with
  | [] => True
  | r :: rest => xserving T x r /\ xwaking T x r /\ xfair_rounds c T (whole_run c r x) rest
  end.
(** coroutine [t] is a reconnect loop that goes on *)
Definition reconnecting (x : whole) (t : nat) : Prop :=
  exists k, nth_error (y_tasks (w_life (x_world x))) t = Some k /\ k_loop k = true /\ forall r, k_stage k <> KEnd r.
(** coroutine [t] has ended with [r] *)
Definition gave (x : whole) (t : nat) (r : result unit) : Prop :=
  exists k, nth_error (y_tasks (w_life (x_world x))) t = Some k /\ k_stage k = KEnd r.
