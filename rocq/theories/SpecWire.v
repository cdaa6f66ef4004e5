(** * SpecWire: what a frame looks like on the wire (specification, no model helpers).
    TI "UNPI" format: start byte, payload length, type*32+subsystem, command id, payload, and the
    exclusive-or of everything between start byte and checksum. *)
From Verif Require Import Base Types Uart.

Definition xor_all (l : list Z) : Z := fold_right Z.lxor 0 l.

Definition wire (ct sub id : Z) (data : list Z) : list Z :=
  let body := Z.of_nat (length data) :: (32 * ct + sub) :: id :: data in
  254 :: body ++ [xor_all body].

(** The numbers TI's protocol gives to message types and subsystems. *)
Definition type_code (c : command_type) : Z :=
  match c with POLL => 0 | SREQ => 1 | AREQ => 2 | SRSP => 3 end.
Definition sub_code (s : subsystem) : Z :=
  match s with
  | RESERVED => 0 | SYS => 1 | MAC => 2 | NWK => 3 | AF => 4 | ZDO => 5 | SAPI => 6 | UTIL => 7
  | DEBUG => 8 | APP => 9 | APP_CNF => 15 | GREENPOWER => 21
  end.

(** The bytes of a frame record. *)
Definition wire_of (f : frame) : list Z := wire (type_code (f_type f)) (sub_code (f_sub f)) (f_id f) (f_data f).

(** A frame that can be represented: id is a byte, payload is at most 255 bytes. *)
Definition sendable (f : frame) : Prop :=
  byte_ok (f_id f) /\ bytes_ok (f_data f) /\ (length (f_data f) <= 255)%nat.

(** What the receiver reports for a sent frame: same contents, plus length and checksum. *)
Definition received (f : frame) : frame :=
  mk_frame (f_type f) (f_sub f) (f_id f) (f_data f)
    (Some (Z.of_nat (length (f_data f))))
    (Some (xor_all (Z.of_nat (length (f_data f)) :: (32 * type_code (f_type f) + sub_code (f_sub f)) :: f_id f :: f_data f))).

(** Frames sent back to back. *)
Definition stream (fs : list frame) : list Z := concat (map wire_of fs).

(** specification of the outcome of feeding a stream of frames to an idle parser *)
Definition stream_outcome (fs : list frame) : list Z * list (result frame) :=
  match rev fs with
  | [] => ([], [])
  | l :: before =>
      if (match f_data l with [] => true | _ => false end)
      then (wire_of l, map (fun f => Ok (received f)) (rev before))
      else ([], map (fun f => Ok (received f)) fs)
  end.

(** Frames each preceded by some other bytes. *)
Definition noisy_stream (l : list (list Z * frame)) : list Z :=
  concat (map (fun p => fst p ++ wire_of (snd p)) l).

(** Everything received decomposes into delivered frames, discarded bytes and the current buffer. *)
Fixpoint segments (js : list (list Z)) (fs : list frame) : list Z :=
  match js, fs with
  | j :: js, f :: fs => j ++ wire_of f ++ segments js fs
  | _, _ => []
  end.

Definition delivered (os : list (result frame)) : list frame :=
  flat_map (fun o => match o with Ok f => [f] | Err _ => [] end) os.

(** [l] with position [i] overwritten by [v]. *)
Definition overwrite (l : list Z) (i : nat) (v : Z) : list Z := firstn i l ++ v :: skipn (S i) l.

(** A receiver callback that just records the frames it is given. *)
Definition record_frames (s : list frame) (f : frame) : list frame * result unit := (s ++ [f], Ok tt).

(** A message on the wire as four numbers/bytes: type, subsystem, id, payload; not all types and
    subsystems exist. *)
Definition raw := (Z * Z * Z * list Z)%type.
Definition raw_ok (r : raw) : Prop :=
  let '(ct, sub, id, d) := r in
  0 <= ct < 8 /\ 0 <= sub < 32 /\ byte_ok id /\ bytes_ok d /\ d <> [] /\ (length d <= 255)%nat.
Definition raw_wire (r : raw) : list Z := let '(ct, sub, id, d) := r in wire ct sub id d.
(** The frame a raw message stands for, if its type and subsystem exist. *)
Definition raw_frame (r : raw) : option frame :=
  let '(ct, sub, id, d) := r in
  match find (fun c => type_code c =? ct) [POLL; SREQ; AREQ; SRSP],
        find (fun s => sub_code s =? sub)
          [RESERVED; SYS; MAC; NWK; AF; ZDO; SAPI; UTIL; DEBUG; APP; APP_CNF; GREENPOWER] with
  | Some c, Some s => Some (received (mk_frame c s id d None None))
  | _, _ => None
  end.

(** The state left by the API callback [h] when it is given a raw message (nothing if the message
    stands for no frame). *)
Definition deliver {S} (h : S -> frame -> S * result unit) (s : S) (r : raw) : S :=
  match raw_frame r with Some f => fst (h s f) | None => s end.

(** What a read consisting of the raw messages [rs] amounts to: each in turn is handed to the API callback
    [h], up to and including the first that stands for no frame or makes [h] raise. *)
Fixpoint read_of {S} (h : S -> frame -> S * result unit) (s : S) (rs : list raw) : S * result unit :=
  match rs with
  | [] => (s, Ok tt)
  | r :: rest =>
    match raw_frame r with
    | None => (s, Err ValueError)
    | Some f => match h s f with (s1, Ok _) => read_of h s1 rest | (s1, Err e) => (s1, Err e) end
    end
  end.
(** several reads in a row: the next one goes on with the state the last one left *)
Fixpoint reads_of {S} (h : S -> frame -> S * result unit) (s : S) (rss : list (list raw)) : S * list exn :=
  match rss with
  | [] => (s, [])
  | rs :: rest =>
    let '(s1, o) := read_of h s rs in
    let '(s2, es) := reads_of h s1 rest in
    (s2, match o with Ok _ => es | Err e => e :: es end)
  end.

(** The frames of the stream that have arrived when [k] bytes of it were received: a frame has arrived with its last byte,
    an empty one with the byte after it. *)
Fixpoint arrived (k : nat) (fs : list frame) : list frame :=
  match fs with
  | [] => []
  | f :: rest =>
    let n := length (wire_of f) in
    if Nat.ltb n k || (Nat.eqb n k && match f_data f with [] => false | _ => true end)
    then f :: arrived (k - n) rest else []
  end.
(** The start byte occurs only at the start of the frame. *)
Definition clean (f : frame) : Prop := ~ In 254 (skipn 1 (wire_of f)).
