(** * SpecChron: what start-ups did, in the order in which it happened *)
From Verif Require Import Base Types App Life Machine World Nv StartZnp AppStart SpecStart Host Whole SpecWhole SpecSerial.

Definition over_deeds (o : xobs) : list deed := match o with XOver _ _ ds _ _ => ds | _ => [] end.
(** what coroutine [t] did so far, in all its attempts *)
Definition did (x : whole) (t : nat) : list deed :=
  concat (map (fun o => match o with XOver u _ ds _ _ => if Nat.eqb u t then ds else [] | _ => [] end) (x_log x)) ++ b_deeds (x_boots x t).
(** What start-ups did from [x] on, event by event, oldest first. *)
Fixpoint chronicle (c : nwk_config) (es : list xevent) (x : whole) : list deed :=
  match es with
  | [] => []
  | e :: r =>
      match e with XGo t => skipn (length (did x t)) (did (whole_step c e x) t) | _ => [] end ++ chronicle c r (whole_step c e x)
  end.
(** What the attempts that ended did, attempt by attempt, in the order in which they ended. *)
Definition by_attempt (x : whole) : list deed := concat (map over_deeds (x_log x)).
(** The request that is under way, if any. *)
Definition under_way (x : whole) (l : list deed) : Prop :=
  (exists t p, b_part (x_boots x t) = Some p /\
     l = match r_place p with Requesting u sub cmd d y _ => [(r_api p, u, ARequest sub cmd d y None)] | _ => [] end) \/
  l = [] /\ forall t, b_part (x_boots x t) = None.
