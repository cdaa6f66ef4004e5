(** * SpecSerial: start-ups that come one after the other *)
From Verif Require Import Base Types App Life Machine World Nv StartZnp AppStart SpecStart Host Whole SpecWhole.

(** Coroutine [t], a start-up or a reconnect loop, has not ended. *)
Definition at_work (w : world) (t : nat) : Prop := exists k, nth_error (y_tasks (w_life w)) t = Some k /\ forall r, k_stage k <> KEnd r.
(** how many start-ups and reconnect loops there have been *)
Definition coroutines (x : whole) : nat := length (y_tasks (w_life (x_world x))).
(** From [x] on, start-up is called, and a reconnect loop is started, only when all the others have ended. *)
Fixpoint one_by_one (c : nwk_config) (es : list xevent) (x : whole) : Prop :=
  match es with
  | [] => True
  | e :: r => ((coroutines x < coroutines (whole_step c e x))%nat -> forall t, ~ at_work (x_world x) t) /\ one_by_one c r (whole_step c e x)
  end.
