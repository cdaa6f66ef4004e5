(** * SpecProgress: rounds in which everybody gets a turn while other things go on *)
From Verif Require Import Base Types Machine SpecMachine.

(** number of operations called in the history [l] *)
Definition calls (l : list obs) : Z := Z.of_nat (length (filter (fun x => match x with OCalled _ => true | _ => false end) l)).
(** In [b] coroutine [t] gets the chance to notice that its time is up and after this the chance to go on. *)
Definition served (t : Z) (b : list event) : Prop := exists b1 b2 b3, b = b1 ++ ETimeout t :: b2 ++ ERun t :: b3.
(** At least [T] ms pass and then each of [ids] gets its turn; anything else may happen meanwhile, new calls and
    received bytes included. *)
Definition serving (T : Z) (ids : list Z) (es : list event) : Prop :=
  exists a b, es = a ++ b /\ T <= elapsed a /\ forall t, In t ids -> served t b.
(** rounds from state [s] on, each serving those who are unfinished when it begins *)
Fixpoint serving_rounds (T : Z) (s : st) (rs : list (list event)) : Prop :=
  match rs with
  | [] => True
  | r :: rest => serving T (pending (s_log s)) r /\ serving_rounds T (run r s) rest
  end.
