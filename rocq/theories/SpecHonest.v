(** * SpecHonest: a stick whose mark can be believed *)
From Verif Require Import Base Types Machine World Nv StartZnp AppStart SpecStart SpecAppStart Whole SpecWhole.

(** If the mark is set, the whole requested configuration is stored. *)
Definition honest (v : firmware) (o : options) (s : store) : Prop := marked v s -> config_matches v o s.

(** What can become of a stick of firmware [v] that serves one start-up of the application after the other, with and
    without forming, complete, failed, cut off by the loss of a connection or still under way, in any histories. *)
Inductive serves (c : nwk_config) (v : firmware) : store -> store -> Prop :=
| serves_none s : serves c v s s
| serves_one s x t auto ds s1 s2 : serves c v s s1 -> xreachable c x -> attempted x t auto ds -> stick s1 (map snd ds) s2 ->
    (forall p, reports (map snd ds) p -> p = version_of v) -> serves c v s s2.
