(** * SpecLinkStart: what a stick stores, as far as it can tell it over the link *)
From Verif Require Import Base Types SpecCodec Nv StartZnp SpecStart.

(** Every stored item is a sequence of bytes that a frame of the wire has room for. *)
Definition tellable (s : store) : Prop := forall i b, s i = Some b -> bytes_ok b /\ (length b <= 240)%nat.
(** What start compares with the requested settings once the mark is set, in this order *)
Definition compared (o : options) : list (Z * list Z) :=
  [(132, le4 (o_channels o)); (99, flag (o_distribute o)); (98, o_key o); (131, le2 (o_pan o)); (45, o_ext o)].
(** The first of them that is not stored as requested is not stored at all. *)
Fixpoint stuck (l : list (Z * list Z)) (s : store) : Prop :=
  match l with
  | [] => False
  | (i, b) :: r => s i = None \/ s i = Some b /\ stuck r s
  end.
Definition locked_out (v : firmware) (o : options) (s : store) : Prop := marked v s /\ stuck (compared o) s.
(** An address as the stick reports it. *)
Definition address_ok (ieee : list Z) (nwk : Z) : Prop := length ieee = 8%nat /\ bytes_ok ieee /\ 0 <= nwk < 65536.
