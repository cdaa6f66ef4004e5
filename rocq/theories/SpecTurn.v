(** * SpecTurn: words for the turn of a coroutine that waits for its next step (C153) *)
From Verif Require Import Base Types Zpi Api App Machine Life World Whole.

(** about to begin (application.py:96), asleep between two attempts (application.py:80), or letting the port settle (uart.py:210) *)
Definition waiting (s : stage) : Prop := match s with KBegin | KSleep | KSettle _ _ => True | _ => False end.
(** coroutine [t] goes on; [r] is what the wait, or the opening of the port, gives it *)
Definition turn (t : nat) (r : result unit) : xevent := XWorld (VLife (VGo t r)).
(** the gateways, the API objects and the coroutines *)
Definition old (x : whole) : life := w_life (x_world x).
