(** * SpecUndisturbed: start-ups whose link nobody closes *)
From Verif Require Import Base Types App Life Machine World Nv StartZnp AppStart SpecStart Host Whole SpecWhole.

(** The user does not shut the application down. *)
Definition no_shutdown (e : xevent) : Prop := e <> XWorld (VLife VShutdown).
(** API object [a] is the application's, has a port, and this port was not closed. *)
Definition link_open (w : world) (a : nat) : Prop :=
  y_cur (w_life w) = Some a /\ exists y g x s, nth_error (y_apis (w_life w)) a = Some y /\ a_uart y = Some g /\
    nth_error (y_gws (w_life w)) g = Some x /\ g_open x = true /\ nth_error (w_apis w) a = Some s /\ s_open s = true.
