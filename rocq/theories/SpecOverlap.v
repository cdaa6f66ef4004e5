(** * SpecOverlap: start-ups that talk to one stick at the same time *)
From Verif Require Import Base Types Machine World Nv StartZnp AppStart SpecStart Host Whole SpecWhole.

(** The tasks that wrote to a link, oldest first. *)
Definition writers (h : list obs) : list Z := flat_map (fun o => match o with OWritten u _ _ => [u] | _ => [] end) h.
(** The tasks of API object [a] that these requests belong to. *)
Definition asked (a : nat) (l : list deed) : list Z :=
  flat_map (fun d => match d with (b, u, ARequest _ _ _ _ _) => if Nat.eqb a b then [u] else [] | _ => [] end) l.
(** The requests among [l] went over each link in this order. *)
Definition wire_order (x : whole) (l : list deed) : Prop :=
  forall a, asked a l = filter (fun u => existsb (Z.eqb u) (asked a l)) (writers (history (x_world x) a)).
(** The user calls start-up. *)
Definition calls_startup (e : xevent) : bool := match e with XStartup _ _ => true | _ => false end.
