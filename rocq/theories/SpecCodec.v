(** * SpecCodec: the wire format of message parameters (specification, no model helpers).
    A parameter list is encoded by concatenating the encodings of its parameters in order.  Integers
    are little endian; addresses are eight bytes as stored; buffers and lists are preceded by an
    integer parameter holding their length. *)
From Verif Require Import Base Types Buffalo.

(** number of bytes -> value, little endian *)
Definition le2 (z : Z) : list Z := [z mod 256; z / 256].
Definition le4 (z : Z) : list Z := [z mod 256; z / 256 mod 256; z / 65536 mod 256; z / 16777216].

(** the address modes of TI's protocol *)
Definition address_modes : list Z := [0; 1; 2; 3; 15].

(** The 22 bytes of a neighbour table entry and the entry they stand for. *)
Definition neighbor_of (pan ext : list Z) (nwk bits pj depth lqi : Z) : neighbor :=
  mk_neighbor pan ext nwk (bits mod 4) (bits / 4 mod 4) (bits / 16 mod 8) (pj mod 4) depth lqi.
Inductive neighbor_wire : neighbor -> list Z -> Prop :=
| nw_intro pan ext nwk bits pj depth lqi :
    length pan = 8%nat -> length ext = 8%nat -> bytes_ok pan -> bytes_ok ext -> 0 <= nwk < 65536 ->
    byte_ok bits -> byte_ok pj -> byte_ok depth -> byte_ok lqi ->
    neighbor_wire (neighbor_of pan ext nwk bits pj depth lqi)
      (pan ++ ext ++ le2 nwk ++ [bits; pj; depth; lqi]).

Inductive neighbors_wire : list neighbor -> list Z -> Prop :=
| nws_nil : neighbors_wire [] []
| nws_cons n l a b : neighbor_wire n a -> neighbors_wire l b -> neighbors_wire (n :: l) (a ++ b).

(** fixed-size buffer types *)
Definition fixed_size (t : ptype) : option nat :=
  match t with
  | BUFFER8 => Some 8%nat | BUFFER16 => Some 16%nat | BUFFER18 => Some 18%nat
  | BUFFER32 => Some 32%nat | BUFFER42 => Some 42%nat | BUFFER100 => Some 100%nat
  | _ => None
  end.

(** [value_wire name t prev v bs]: [bs] encodes the value [v] of parameter [name] of type [t] when
    the preceding parameter is the integer [prev]. *)
Inductive value_wire (name : string) : ptype -> option Z -> value -> list Z -> Prop :=
| vw_u8 prev z : byte_ok z -> (endswith name "addrmode" = true -> In z address_modes) ->
    value_wire name UINT8 prev (VInt z) [z]
| vw_u16 prev z : 0 <= z < 65536 -> value_wire name UINT16 prev (VInt z) (le2 z)
| vw_u32 prev z : 0 <= z < 4294967296 -> value_wire name UINT32 prev (VInt z) (le4 z)
| vw_i8 prev z : -128 <= z < 128 -> value_wire name INT8 prev (VInt z) [z mod 256]
| vw_ieee prev l : length l = 8%nat -> bytes_ok l -> value_wire name IEEEADDR prev (VEui l) l
| vw_buffer l : bytes_ok l -> value_wire name BUFFER (Some (Z.of_nat (length l))) (VBytes l) l
| vw_fixed t n prev l : fixed_size t = Some n -> length l = n -> bytes_ok l ->
    value_wire name t prev (VBytes l) l
| vw_list8 l k : bytes_ok l -> length l = Z.to_nat k -> value_wire name LIST_UINT8 (Some k) (VList l) l
| vw_list16 l k : Forall (fun z => 0 <= z < 65536) l -> length l = Z.to_nat k ->
    value_wire name LIST_UINT16 (Some k) (VList l) (concat (map le2 l))
| vw_lqi l k bs : neighbors_wire l bs -> length l = Z.to_nat k ->
    value_wire name LIST_NEIGHBOR_LQI (Some k) (VNeighbors l) bs.

Definition int_of (v : value) : option Z := match v with VInt z => Some z | _ => None end.

(** [payload_wire prev ps pl bs]: [bs] encodes the named values [pl] of the parameter list [ps]. *)
Inductive payload_wire : option Z -> list param -> payload -> list Z -> Prop :=
| pw_nil prev : payload_wire prev [] [] []
| pw_cons prev n t v a ps pl b :
    value_wire n t prev v a -> payload_wire (int_of v) ps pl b ->
    payload_wire prev ((n, t) :: ps) ((n, v) :: pl) (a ++ b).

(** Values a caller may put in a payload, type by type (the types the code can write). *)
Definition neighbor_fits (n : neighbor) : Prop :=
  length (n_extPanId n) = 8%nat /\ bytes_ok (n_extPanId n) /\
  length (n_extAddr n) = 8%nat /\ bytes_ok (n_extAddr n) /\
  0 <= n_nwkAddr n < 65536 /\ 0 <= n_deviceType n < 4 /\ 0 <= n_rxOnWhenIdle n < 4 /\
  0 <= n_relationship n < 8 /\ 0 <= n_permitJoin n < 4 /\ byte_ok (n_depth n) /\ byte_ok (n_lqi n).

Definition value_fits (name : string) (t : ptype) (prev : option Z) (v : value) : Prop :=
  match t, v with
  | UINT8, VInt z => byte_ok z /\ (endswith name "addrmode" = true -> In z address_modes)
  | UINT16, VInt z => 0 <= z < 65536
  | UINT32, VInt z => 0 <= z < 4294967296
  | IEEEADDR, VEui l => length l = 8%nat /\ bytes_ok l
  | BUFFER, VBytes l => bytes_ok l /\ prev = Some (Z.of_nat (length l))
  | LIST_UINT8, VList l => bytes_ok l /\ prev = Some (Z.of_nat (length l))
  | LIST_UINT16, VList l => Forall (fun z => 0 <= z < 65536) l /\ prev = Some (Z.of_nat (length l))
  | LIST_NEIGHBOR_LQI, VNeighbors l => Forall neighbor_fits l /\ prev = Some (Z.of_nat (length l))
  | _, _ => False
  end.

Fixpoint payload_fits (prev : option Z) (ps : list param) (pl : payload) : Prop :=
  match ps, pl with
  | [], [] => True
  | (n, t) :: ps, (n', v) :: pl => n' = n /\ value_fits n t prev v /\ payload_fits (int_of v) ps pl
  | _, _ => False
  end.

(** The dict made from named values, in order; of values with the same name the last one stays. *)
Definition dict_of (vs : payload) : payload := fold_left (fun d p => dict_set d (fst p) (snd p)) vs [].
(** A dict holding (at least) the named values. *)
Definition holds (d pl : payload) : Prop := forall n v, In (n, v) pl -> dict_get d n = Some v.

(** Types the code can write. *)
Definition writable (t : ptype) : bool :=
  match t with
  | UINT8 | UINT16 | UINT32 | IEEEADDR | BUFFER | LIST_UINT8 | LIST_UINT16 | LIST_NEIGHBOR_LQI => true
  | _ => false
  end.

(** A parameter list that can be decoded at all: no type the code cannot read, and every buffer or
    list of variable length directly preceded by an integer parameter. *)
Definition is_int (t : ptype) : bool :=
  match t with UINT8 | UINT16 | UINT32 | INT8 => true | _ => false end.
Fixpoint decodable (prev_int : bool) (ps : list param) : bool :=
  match ps with
  | [] => true
  | (_, t) :: ps =>
      match t with
      | LIST_ROUTING_TABLE | LIST_BIND_TABLE | LIST_NETWORK | LIST_ASSOC_DEV => false
      | BUFFER | LIST_UINT8 | LIST_UINT16 | LIST_NEIGHBOR_LQI => prev_int
      | _ => true
      end && decodable (is_int t) ps
  end.

(** The encoding of an integer of a declared width, and the widths. *)
Definition int_width (t : ptype) : option nat :=
  match t with UINT8 => Some 1%nat | UINT16 => Some 2%nat | UINT32 => Some 4%nat | _ => None end.

(** value of a little-endian byte string *)
Fixpoint le_value (bs : list Z) : Z := match bs with [] => 0 | b :: r => b + 256 * le_value r end.

(** [w] is a faithful encoding of the value [v] for type [t]: nothing of [v] is lost or cut. *)
Definition faithful (t : ptype) (v : value) (w : list Z) : Prop :=
  match t, v with
  | (UINT8 | UINT16 | UINT32), VInt z =>
      bytes_ok w /\ int_width t = Some (length w) /\ 0 <= z < 256 ^ Z.of_nat (length w) /\ le_value w = z
  | IEEEADDR, VInt z => bytes_ok w /\ length w = 8%nat /\ 0 <= z < 256 ^ 8 /\ le_value w = z
  | (IEEEADDR | LIST_UINT8), (VEui l | VBytes l | VList l) => w = l /\ bytes_ok l
  | BUFFER, VBytes l => w = l
  | LIST_UINT16, (VEui l | VBytes l | VList l) => Forall (fun z => 0 <= z < 65536) l /\ w = concat (map le2 l)
  | (IEEEADDR | LIST_UINT8 | LIST_UINT16), VNeighbors l => l = [] /\ w = []
  | LIST_NEIGHBOR_LQI, _ => True
  | _, _ => False
  end.

(** A byte of a re-encoded message: unchanged, or with the reserved high bits cleared. *)
Definition masked (b b' : Z) : Prop := b' = b \/ b' = b mod 128 \/ b' = b mod 4.

(** What the stick should be given for a ZDO request: the destination, then the caller's payload
    without its leading sequence byte; permit-join is preceded by the address mode, which is
    15 (broadcast) for 0xFFFC and 2 (16 bit) otherwise. *)
Definition zdo_body (permit_join : bool) (nwk : Z) (data : list Z) : list Z :=
  (if permit_join then [if nwk =? 65532 then 15 else 2] else []) ++ le2 nwk ++ skipn 1 data.

(** Fields of an application data request that fit their widths; [limit] is the longest payload. *)
Definition af_fields_ok (nwk cluster src_ep dst_ep sequence radius : Z) (data : list Z) : Prop :=
  0 <= nwk < 65536 /\ byte_ok dst_ep /\ byte_ok src_ep /\ 0 <= cluster < 65536 /\ byte_ok sequence /\
  byte_ok radius /\ (length data <= 245)%nat.
Definition af_ext_fields_ok (mode nwk cluster src_ep dst_ep sequence radius : Z) (data : list Z) : Prop :=
  byte_ok mode /\ 0 <= nwk < 256 ^ 8 /\ byte_ok dst_ep /\ byte_ok src_ep /\ 0 <= cluster < 65536 /\
  byte_ok sequence /\ byte_ok radius /\ (length data <= 235)%nat.
