(** * SpecExact: exact behaviour where a property fails in corners *)
From Verif Require Import Base Types Uart Buffalo Zpi App SpecCodec.

(** What is left of a 22-byte neighbour entry: the top bit of the device-type byte and the upper six bits of the permit-join
    byte, reserved in the standard, are cleared. *)
Definition entry_kept (e : list Z) : list Z := firstn 18 e ++ [nth 18 e 0 mod 128; nth 19 e 0 mod 4; nth 20 e 0; nth 21 e 0].
(** The body of a management-LQI reply of the node [nwk]. *)
Definition lqi_reply (nwk status total start : Z) (es : list (list Z)) (rest : list Z) : list Z :=
  le2 nwk ++ [status; total; start; Z.of_nat (length es)] ++ concat es ++ rest.
Definition lqi_entries (es : list (list Z)) : Prop := (length es <= 255)%nat /\ Forall (fun e => length e = 22%nat /\ bytes_ok e) es.
(** The object is the same up to the sequence number. *)
Definition same_but_seq (a b : result zpi) : Prop :=
  match a, b with Ok x, Ok y => with_seq x None = with_seq y None | Err x, Err y => x = y | _, _ => False end.
