(** * Base: the part of the Python runtime the model needs.
    Python [int] is [Z]; Python [bytes] is [list Z] with elements 0..255; exceptions are values. *)
From Coq Require Export Ascii String List ZArith Bool Lia.
Export ListNotations.
#[global] Open Scope string_scope.
#[global] Open Scope list_scope.
#[global] Open Scope Z_scope.

(** Python exception classes that the modelled code can raise.
    [StopIteration] raised inside a coroutine body surfaces as [RuntimeError] (PEP 479).
    [CommandError st] is zigpy_cc/exception.py:14-21, [TODO] is exception.py:8-11.
    [TimeoutError] and [CancelledError] are asyncio's. [GenericException] is a plain [Exception].
    [Unmodelled] marks a case the model deliberately leaves out (never a Python exception). *)
Inductive exn :=
| ValueError | OverflowError | KeyError | TypeError | AttributeError | IndexError
| StopIteration | RuntimeError | AssertionError | TODO | GenericException
| TimeoutError | CancelledError | SerialException | InvalidStateError
| CommandError (status : Z)
| Unmodelled.

(** A Python computation that may raise. *)
Inductive result (A : Type) := Ok (a : A) | Err (e : exn).
Arguments Ok {A} a.
Arguments Err {A} e.

Definition bind {A B} (x : result A) (f : A -> result B) : result B :=
  match x with Ok a => f a | Err e => Err e end.
Notation "'do' x <- a ; b" := (bind a (fun x => b))
  (at level 200, x pattern, a at level 100, b at level 200, right associativity).

(** [next(generator)] used directly in a coroutine: PEP 479 turns StopIteration into RuntimeError. *)
Definition in_coroutine {A} (x : result A) : result A :=
  match x with Err StopIteration => Err RuntimeError | y => y end.

Definition is_ok {A} (x : result A) : bool := match x with Ok _ => true | Err _ => false end.

(** ** bytes *)
Definition byte_ok (b : Z) : Prop := 0 <= b < 256.
Definition byte_okb (b : Z) : bool := (0 <=? b) && (b <? 256).
Definition bytes_ok (l : list Z) : Prop := Forall byte_ok l.

(** Python [bytes([a, b, ...])]: ValueError unless every element is in range(0, 256). *)
Definition py_bytes (l : list Z) : result (list Z) :=
  if forallb byte_okb l then Ok l else Err ValueError.

Definition zlen {A} (l : list A) : Z := Z.of_nat (length l).

(** Python [buf[i]] for a non-negative index. *)
Definition py_index {A} (l : list A) (i : nat) : result A :=
  match nth_error l i with Some x => Ok x | None => Err IndexError end.

(** Python slice [buf[a:b]] with 0 <= a <= b. *)
Definition py_slice {A} (l : list A) (a b : nat) : list A := firstn (b - a) (skipn a l).

(** little-endian digits of [z], [n] of them *)
Fixpoint le_bytes (n : nat) (z : Z) : list Z :=
  match n with
  | O => []
  | S k => z mod 256 :: le_bytes k (z / 256)
  end.

(** Python [z.to_bytes(n, "little", signed=False)] *)
Definition to_bytes (n : nat) (z : Z) : result (list Z) :=
  if (0 <=? z) && (z <? 256 ^ Z.of_nat n) then Ok (le_bytes n z) else Err OverflowError.

(** Python [int.from_bytes(l, "little", signed=False)] *)
Fixpoint from_bytes (l : list Z) : Z :=
  match l with
  | [] => 0
  | b :: r => b + 256 * from_bytes r
  end.

(** Python [int.from_bytes(l, "little", signed=True)] (two's complement) *)
Definition from_bytes_signed (l : list Z) : Z :=
  let u := from_bytes l in
  let m := 256 ^ Z.of_nat (length l) in
  if u <? m / 2 then u else u - m.

(** ** dict: insertion-ordered association list *)
Fixpoint dict_get {A} (d : list (string * A)) (k : string) : option A :=
  match d with
  | [] => None
  | (k', v) :: r => if String.eqb k k' then Some v else dict_get r k
  end.

(** [d[k] = v]: overwrite in place, else append *)
Fixpoint dict_set {A} (d : list (string * A)) (k : string) (v : A) : list (string * A) :=
  match d with
  | [] => [(k, v)]
  | (k', v') :: r => if String.eqb k k' then (k', v) :: r else (k', v') :: dict_set r k v
  end.

Definition dict_getE {A} (d : list (string * A)) (k : string) : result A :=
  match dict_get d k with Some v => Ok v | None => Err KeyError end.

(** ** str *)
(** Python [s.endswith(t)] *)
Definition endswith (s t : string) : bool :=
  let n := String.length s in
  let m := String.length t in
  if Nat.leb m n then String.eqb (String.substring (n - m) m s) t else false.

(** Python [s.startswith(t)] *)
Definition startswith (s t : string) : bool := String.prefix t s.

(** Python [s.replace("Req", "Rsp")] (all non-overlapping occurrences, left to right) *)
Fixpoint replace_req (s : string) : string :=
  match s with
  | String c (String c1 (String c2 r) as t) =>
      if (Ascii.eqb c "R" && Ascii.eqb c1 "e" && Ascii.eqb c2 "q")%bool%char
      then String "R" (String "s" (String "p" (replace_req r)))
      else String c (replace_req t)
  | String c r => String c (replace_req r)
  | EmptyString => EmptyString
  end.
