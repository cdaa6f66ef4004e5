(** * SpecWorldProgress: rounds in which everybody gets a turn while connections are lost and made again *)
From Verif Require Import Base Types Machine World SpecMachine SpecProgress SpecWorld.

(** operations that were called and have not ended *)
Definition unfinished_ops (l : list wobs) : list nat :=
  filter (fun n => negb (existsb (Nat.eqb n) (ended_ops l))) (called_ops l).
(** the time that passes *)
Definition passing (es : list wevent) : Z :=
  fold_right (fun e n => match e with VTick ms => Z.max 0 ms + n | _ => n end) 0 es.
(** coroutine [t] of API object [a] gets the chance to notice that its time is up and after this the chance to go on *)
Definition has_turn (a : nat) (t : Z) (b : list wevent) : Prop :=
  exists b1 b2 b3, b = b1 ++ VTimeout a t :: b2 ++ VTask a t :: b3.
(** At least [T] ms pass and then every unfinished operation and every unfinished coroutine of every API object, closed
    or open, gets its turn.  Anything else may happen meanwhile: new calls, received bytes, lost connections, start-ups
    and new API objects. *)
Definition wserving (T : Z) (w : world) (es : list wevent) : Prop :=
  exists a b, es = a ++ b /\ T <= passing a /\
    (forall n, In n (unfinished_ops (w_log w)) -> In (VRun n) b) /\
    (forall c s t, nth_error (w_apis w) c = Some s -> In t (pending (s_log s)) -> has_turn c t b).
Fixpoint wserving_rounds (T : Z) (w : world) (rs : list (list wevent)) : Prop :=
  match rs with
  | [] => True
  | r :: rest => wserving T w r /\ wserving_rounds T (world_run r w) rest
  end.
(** nobody is unfinished *)
Definition all_over (w : world) : Prop :=
  unfinished_ops (w_log w) = [] /\ forall a s, nth_error (w_apis w) a = Some s -> pending (s_log s) = [].
(** unfinished coroutines of all API objects *)
Definition waiting_tasks (w : world) : Z := fold_right (fun s n => Z.of_nat (length (pending (s_log s))) + n) 0 (w_apis w).
(** requests made on API objects otherwise than by operations: LED commands, start-up *)
Definition other_calls (w : world) : Z :=
  fold_right (fun s n => calls (s_log s) + n) 0 (w_apis w) - Z.of_nat (length (admitted_ops (w_log w))).
