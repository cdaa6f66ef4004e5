(** * SpecDuel: reconnect loops that hinder each other *)
From Verif Require Import Base Types App Life Machine World Nv StartZnp AppStart SpecStart Host Whole SpecWhole SpecOverlap.

(** The connection is lost. *)
Definition loses (e : xevent) : bool := match e with XWorld (VLife (VLost _)) => true | _ => false end.
(** Whenever the port is opened, that works; nobody is cancelled. *)
Definition all_opens (e : xevent) : Prop :=
  match e with
  | XStartup _ r | XWorld (VLife (VGo _ r)) => r = Ok tt
  | XWorld (VCancel _) | XWorld (VTaskCancel _ _) | XWorld (VLife VShutdown) => False
  | _ => True
  end.
(** Every link over which anything has been sent is closed. *)
Definition cut_short (x : whole) : Prop := forall s, In s (w_apis (x_world x)) -> s_wire s <> [] -> s_open s = false.
(** Whenever time passes, from [x] on, that is so: no stick has any time to answer. *)
Fixpoint no_time_to_answer (c : nwk_config) (es : list xevent) (x : whole) : Prop :=
  match es with
  | [] => True
  | e :: r => match e with XWorld (VTick _) => cut_short x | _ => True end /\ no_time_to_answer c r (whole_step c e x)
  end.
(** start-up was tried, and failed *)
Definition failed (o : xobs) : bool := match o with XOver _ _ _ (Err _) _ => true | _ => false end.
Definition succeeded (o : xobs) : bool := match o with XOver _ _ _ (Ok _) _ => true | _ => false end.
