(** * SpecFair: how many wait for the links *)
From Verif Require Import Base Types Uart Buffalo CmdTable Zpi Api App Machine Life World SpecMachine Nv StartZnp AppStart SpecStart Host Whole.

(** When each of the rounds begins, on no API object more than [M] wait for the link. *)
Fixpoint uncrowded (c : nwk_config) (M : Z) (x : whole) (rs : list (list xevent)) : Prop :=
  match rs with
  | [] => True
  | r :: rest => (forall a s, nth_error (w_apis (x_world x)) a = Some s -> Z.of_nat (length (waiting (s_log s))) <= M) /\
      uncrowded c M (whole_run c r x) rest
  end.
