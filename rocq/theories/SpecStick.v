(** * SpecStick: how a stick reads its serial line (specification, no model helpers).
    The receiver of TI's monitor-and-test interface goes byte by byte: start byte, length, two command bytes, that many bytes of
    data, checksum.  It waits for the start byte first, and again after the checksum, whether that was right or not. *)
From Verif Require Import Base Types Uart Zpi Machine SpecWire SpecMachine.

Inductive receiver :=
| RStart                                                    (* waits for the start byte *)
| RLength
| RFirst (len : Z)
| RSecond (len c0 : Z)
| RData (len c0 c1 : Z) (left : nat) (got : list Z)         (* [S left] bytes are still to come *)
| RSum (len c0 c1 : Z) (got : list Z).
(** type and subsystem in one byte, command, data *)
Definition message : Type := Z * Z * list Z.

Definition read_byte (r : receiver) (b : Z) : receiver * list message :=
  match r with
  | RStart => (if b =? 254 then RLength else RStart, [])
  | RLength => (RFirst b, [])
  | RFirst n => (RSecond n b, [])
  | RSecond n c0 => (match Z.to_nat n with O => RSum n c0 b [] | S k => RData n c0 b k [] end, [])
  | RData n c0 c1 k got => (match k with O => RSum n c0 c1 (got ++ [b]) | S k' => RData n c0 c1 k' (got ++ [b]) end, [])
  | RSum n c0 c1 got => (RStart, if b =? xor_all (n :: c0 :: c1 :: got) then [(c0, c1, got)] else [])
  end.
Fixpoint read_bytes (r : receiver) (bs : list Z) : receiver * list message :=
  match bs with
  | [] => (r, [])
  | b :: bs => let (r1, m1) := read_byte r b in let (r2, m2) := read_bytes r1 bs in (r2, m1 ++ m2)
  end.

(** The message is the request that task [t] made. *)
Definition asked_by (s : st) (t : Z) (m : message) : Prop :=
  exists k o f, get s t = Some k /\ build (t_job k) = Ok o /\ to_unpi_frame o = Ok f /\
    m = (32 * type_code (z_type o) + sub_code (z_sub o), z_id o, f_data f).
