(** * Buffalo: zigpy_cc/buffalo.py *)
From Verif Require Import Base Types.

(** A neighbour table entry: the dict of buffalo.py:55-68 / 124-139. *)
Record neighbor := mk_neighbor {
  n_extPanId : list Z; n_extAddr : list Z; n_nwkAddr : Z;
  n_deviceType : Z; n_rxOnWhenIdle : Z; n_relationship : Z;
  n_permitJoin : Z; n_depth : Z; n_lqi : Z }.

(** Python values that occur in payloads.  [VInt] covers [int] and its subclasses (NWK, AddressMode,
    enum members, bool): they compare and serialise as integers.  [VEui] is zigpy's EUI64 (a list of
    8 ints), [VList] a list of ints, [VNeighbors] a list of neighbour dicts. *)
Inductive value :=
| VInt (z : Z) | VBytes (l : list Z) | VEui (l : list Z) | VList (l : list Z)
| VNeighbors (l : list neighbor).

Definition payload := list (string * value).

Definition neighbor_eqb (a b : neighbor) : bool :=
  (if list_eq_dec Z.eq_dec (n_extPanId a) (n_extPanId b) then true else false) &&
  (if list_eq_dec Z.eq_dec (n_extAddr a) (n_extAddr b) then true else false) &&
  (n_nwkAddr a =? n_nwkAddr b) && (n_deviceType a =? n_deviceType b) &&
  (n_rxOnWhenIdle a =? n_rxOnWhenIdle b) && (n_relationship a =? n_relationship b) &&
  (n_permitJoin a =? n_permitJoin b) && (n_depth a =? n_depth b) && (n_lqi a =? n_lqi b).

Fixpoint neighbors_eqb (a b : list neighbor) : bool :=
  match a, b with
  | [], [] => true
  | x :: a, y :: b => neighbor_eqb x y && neighbors_eqb a b
  | _, _ => false
  end.

(** Python [a == b] on payload values: ints by value, bytes with bytes, lists with lists. *)
Definition value_eqb (a b : value) : bool :=
  match a, b with
  | VInt x, VInt y => x =? y
  | VBytes x, VBytes y => if list_eq_dec Z.eq_dec x y then true else false
  | (VEui x | VList x), (VEui y | VList y) => if list_eq_dec Z.eq_dec x y then true else false
  | VNeighbors x, VNeighbors y => neighbors_eqb x y
  | VNeighbors [], (VList [] | VEui []) | (VList [] | VEui []), VNeighbors [] => true
  | _, _ => false
  end.

(** buffalo.py:52-53 write: [value.to_bytes(length, "little")]; only ints have to_bytes. *)
Definition write (v : value) (length : nat) : result (list Z) :=
  match v with VInt z => to_bytes length z | _ => Err AttributeError end.

(** a Python [for] loop of writes over integers *)
Fixpoint write_each (length : nat) (l : list Z) : result (list Z) :=
  match l with
  | [] => Ok []
  | z :: r => do a <- to_bytes length z; do b <- write_each length r; Ok (a ++ b)
  end.

(** buffalo.py:55-68 write_neighbor_lqi *)
Definition write_neighbor_lqi (n : neighbor) : result (list Z) :=
  do a <- write_each 1 (n_extPanId n);
  do b <- write_each 1 (n_extAddr n);
  do c <- to_bytes 2 (n_nwkAddr n);
  do d <- to_bytes 1 (Z.lor (Z.lor (n_deviceType n) (n_rxOnWhenIdle n * 4)) (n_relationship n * 16));
  do e <- to_bytes 1 (n_permitJoin n);
  do f <- to_bytes 1 (n_depth n);
  do g <- to_bytes 1 (n_lqi n);
  Ok (a ++ b ++ c ++ d ++ e ++ f ++ g).

Fixpoint write_neighbors (l : list neighbor) : result (list Z) :=
  match l with
  | [] => Ok []
  | n :: r => do a <- write_neighbor_lqi n; do b <- write_neighbors r; Ok (a ++ b)
  end.

(** buffalo.py:23-50 write_parameter: the bytes appended to the buffer.
    For a wrong kind of value the Python exception class is given. *)
Definition write_parameter (t : ptype) (v : value) : result (list Z) :=
  match t with
  | UINT8 => write v 1
  | UINT16 => write v 2
  | UINT32 => write v 4
  | IEEEADDR =>
      match v with
      | VInt _ => write v 8
      | VBytes l | VEui l | VList l => write_each 1 l
      | VNeighbors [] => Ok []
      | VNeighbors _ => Err AttributeError
      end
  | BUFFER => match v with VBytes l => Ok l | _ => Err TypeError end
  | LIST_UINT8 =>
      match v with
      | VInt _ => Err TypeError
      | VBytes l | VEui l | VList l => write_each 1 l
      | VNeighbors [] => Ok []
      | VNeighbors _ => Err AttributeError
      end
  | LIST_UINT16 =>
      match v with
      | VInt _ => Err TypeError
      | VBytes l | VEui l | VList l => write_each 2 l
      | VNeighbors [] => Ok []
      | VNeighbors _ => Err AttributeError
      end
  | LIST_NEIGHBOR_LQI =>
      match v with
      | VNeighbors l => write_neighbors l
      | VBytes [] | VEui [] | VList [] => Ok []
      | VInt _ | VBytes _ | VEui _ | VList _ => Err TypeError
      end
  | BUFFER8 | BUFFER16 | BUFFER18 | BUFFER32 | BUFFER42 | BUFFER100
  | LIST_ROUTING_TABLE | LIST_BIND_TABLE | LIST_NETWORK | LIST_ASSOC_DEV | INT8 => Err TODO
  end.

(** ** Reading.  The reader state is the list of bytes not yet read ([buffer[position:]]). *)

(** buffalo.py:114-119 read: OverflowError if fewer than [n] bytes are left. *)
Definition read (n : nat) (rem : list Z) : result (list Z * list Z) :=
  if Nat.ltb (length rem) n then Err OverflowError else Ok (firstn n rem, skipn n rem).

(** buffalo.py:111-112 read_int *)
Definition read_int (n : nat) (rem : list Z) : result (Z * list Z) :=
  do (b, r) <- read n rem; Ok (from_bytes b, r).

(** buffalo.py:121-122 read_ieee_addr (EUI64(bytes) is the list of the 8 bytes) *)
Definition read_ieee_addr (rem : list Z) : result (list Z * list Z) := read 8 rem.

(** buffalo.py:124-139 read_neighbor_lqi *)
Definition read_neighbor_lqi (rem : list Z) : result (neighbor * list Z) :=
  do (pan, r) <- read_ieee_addr rem;
  do (ext, r) <- read_ieee_addr r;
  do (nwk, r) <- read_int 2 r;
  do (value1, r) <- read_int 1 r;
  do (pj, r) <- read_int 1 r;
  do (dep, r) <- read_int 1 r;
  do (lq, r) <- read_int 1 r;
  Ok (mk_neighbor pan ext nwk (Z.land value1 3) (Z.shiftr (Z.land value1 12) 2)
        (Z.shiftr (Z.land value1 112) 4) (Z.land pj 3) dep lq, r).

Fixpoint read_ints (w : nat) (n : nat) (rem : list Z) : result (list Z * list Z) :=
  match n with
  | O => Ok ([], rem)
  | S k => do (x, r) <- read_int w rem; do (l, r) <- read_ints w k r; Ok (x :: l, r)
  end.

Fixpoint read_neighbors (n : nat) (rem : list Z) : result (list neighbor * list Z) :=
  match n with
  | O => Ok ([], rem)
  | S k => do (x, r) <- read_neighbor_lqi rem; do (l, r) <- read_neighbors k r; Ok (x :: l, r)
  end.

(** buffalo.py:98-105: [range(0, options.length)]; TypeError if the length is None; a negative
    length gives an empty range. *)
Definition list_length (len : option Z) : result nat :=
  match len with Some n => Ok (Z.to_nat n) | None => Err TypeError end.

(** buffalo.py:70-109 read_parameter (the BUFFERn branch is buffalo.py:88-91 with types.py:89-98).  [len] is [options.length].
    [zigpy.types.NWK(res)] is the identity on the two-byte ints it is applied to.
    A negative BUFFER length is outside the model: only an INT8 parameter can be negative and no
    command has a buffer after one (proved for the table: [int8_never_a_length]). *)
Definition read_parameter (name : string) (t : ptype) (len : option Z) (rem : list Z)
    : result (value * list Z) :=
  match t with
  | UINT8 =>
      do (z, r) <- read_int 1 rem;
      if endswith name "addrmode"
      then do m <- address_mode_of z; Ok (VInt m, r)
      else Ok (VInt z, r)
  | UINT16 => do (z, r) <- read_int 2 rem; Ok (VInt z, r)
  | UINT32 => do (z, r) <- read_int 4 rem; Ok (VInt z, r)
  | IEEEADDR => do (a, r) <- read_ieee_addr rem; Ok (VEui a, r)
  | BUFFER =>
      match len with
      | None => Err TypeError
      | Some n =>
          if n <? 0 then Err Unmodelled
          else do (b, r) <- read (Z.to_nat n) rem; Ok (VBytes b, r)
      end
  | BUFFER8 => do (b, r) <- read 8 rem; Ok (VBytes b, r)
  | BUFFER16 => do (b, r) <- read 16 rem; Ok (VBytes b, r)
  | BUFFER18 => do (b, r) <- read 18 rem; Ok (VBytes b, r)
  | BUFFER32 => do (b, r) <- read 32 rem; Ok (VBytes b, r)
  | BUFFER42 => do (b, r) <- read 42 rem; Ok (VBytes b, r)
  | BUFFER100 => do (b, r) <- read 100 rem; Ok (VBytes b, r)
  | INT8 => do (b, r) <- read 1 rem; Ok (VInt (from_bytes_signed b), r)
  | LIST_UINT8 =>
      do n <- list_length len; do (l, r) <- read_ints 1 n rem; Ok (VList l, r)
  | LIST_UINT16 =>
      do n <- list_length len; do (l, r) <- read_ints 2 n rem; Ok (VList l, r)
  | LIST_NEIGHBOR_LQI =>
      do n <- list_length len; do (l, r) <- read_neighbors n rem; Ok (VNeighbors l, r)
  | LIST_ROUTING_TABLE | LIST_BIND_TABLE | LIST_NETWORK | LIST_ASSOC_DEV => Err TODO
  end.
