(** * Uart: zigpy_cc/uart.py *)
From Verif Require Import Base Types.

(** uart.py:15-23 constants.  [MaxDataSize] is defined but never used by the code. *)
Definition DataStart : nat := 4.
Definition SOF : Z := 254.
Definition PositionDataLength : nat := 1.
Definition PositionCmd0 : nat := 2.
Definition PositionCmd1 : nat := 3.
Definition MinMessageLength : nat := 5.
Definition MaxDataSize : Z := 250.

(** uart.py:60-75 class UnpiFrame: fields *)
Record frame := mk_frame {
  f_type : command_type; f_sub : subsystem; f_id : Z; f_data : list Z;
  f_length : option Z; f_fcs : option Z }.

(** uart.py:61-75 UnpiFrame.__init__: the two enum conversions may raise ValueError *)
Definition unpi_init (ct sub id : Z) (data : list Z) (len fcs : option Z) : result frame :=
  do c <- ct_of ct;
  do s <- sub_of sub;
  Ok (mk_frame c s id data len fcs).

(** uart.py:92-99 calculate_checksum *)
Definition checksum (values : list Z) : Z := fold_left Z.lxor values 0.

(** uart.py:77-90 from_buffer.  [None] = wrong checksum. *)
Definition from_buffer (len : Z) (fcs_position : nat) (buffer : list Z) : result (option frame) :=
  do b2 <- py_index buffer PositionCmd0;
  let sub := Z.land b2 31 in
  let ct := Z.shiftr (Z.land b2 224) 5 in
  do id <- py_index buffer PositionCmd1;
  let data := py_slice buffer DataStart fcs_position in
  do fcs <- py_index buffer fcs_position;
  if checksum (py_slice buffer 1 fcs_position) =? fcs
  then do f <- unpi_init ct sub id data (Some len) (Some fcs); Ok (Some f)
  else Ok None.

(** uart.py:101-109 to_buffer *)
Definition to_buffer (f : frame) : result (list Z) :=
  let len := zlen (f_data f) in
  let cmd0 := Z.lor (Z.land (Z.shiftl (ct_val (f_type f)) 5) 224) (Z.land (sub_val (f_sub f)) 31) in
  do hd <- py_bytes [SOF; len; cmd0; f_id f];
  let res := hd ++ f_data f in
  let fcs := checksum (skipn 1 res) in
  do t <- py_bytes [fcs];
  Ok (res ++ t).

(** uart.py:37-57 Parser.write.  The state is [self.buffer]; it is updated before the frame is
    built, so it stays updated if building the frame raises. *)
Definition parser_write (buffer : list Z) (b : Z) : list Z * result (option frame) :=
  match py_bytes [b] with
  | Err e => (buffer, Err e)
  | Ok bb =>
    let buffer := buffer ++ bb in
    match py_index buffer 0 with
    | Err e => (buffer, Err e)
    | Ok b0 =>
      if SOF =? b0 then
        if Nat.ltb MinMessageLength (length buffer) then
          match py_index buffer PositionDataLength with
          | Err e => (buffer, Err e)
          | Ok dataLength =>
            let fcsPosition := (DataStart + Z.to_nat dataLength)%nat in
            let frameLength := (fcsPosition + 1)%nat in
            if Nat.leb frameLength (length buffer) then
              let frameBuffer := py_slice buffer 0 frameLength in
              (skipn frameLength buffer, from_buffer dataLength fcsPosition frameBuffer)
            else (buffer, Ok None)
          end
        else (buffer, Ok None)
      else ([], Ok None)
    end
  end.

(** A byte-by-byte run of the parser: final buffer and everything [write] returned or raised,
    in order, except [None] (repeated uart.py:37). *)
Fixpoint parser_run (buffer : list Z) (bs : list Z) : list Z * list (result frame) :=
  match bs with
  | [] => (buffer, [])
  | b :: r =>
    let '(buffer1, o) := parser_write buffer b in
    let '(buffer2, os) := parser_run buffer1 r in
    (buffer2, match o with
              | Ok None => os
              | Ok (Some f) => Ok f :: os
              | Err e => Err e :: os
              end)
  end.

(** uart.py:143-155 Gateway.data_received for one chunk.  [h] is [self._api.data_received]; an
    exception of the parser or of the API leaves the loop and the rest of the chunk is lost. *)
Fixpoint gw_data_received {S : Type} (h : S -> frame -> S * result unit)
    (buffer : list Z) (s : S) (data : list Z) : list Z * S * result unit :=
  match data with
  | [] => (buffer, s, Ok tt)
  | b :: r =>
    let '(buffer1, o) := parser_write buffer b in
    match o with
    | Err e => (buffer1, s, Err e)
    | Ok None => gw_data_received h buffer1 s r
    | Ok (Some f) =>
      let '(s1, o1) := h s f in
      match o1 with
      | Err e => (buffer1, s1, Err e)
      | Ok _ => gw_data_received h buffer1 s1 r
      end
    end
  end.

(** Successive calls of data_received by the event loop: an exception of one call is logged by
    asyncio and the next chunk is processed with the state left behind.  Returns the exceptions. *)
Fixpoint gw_chunks {S : Type} (h : S -> frame -> S * result unit)
    (buffer : list Z) (s : S) (chunks : list (list Z)) : list Z * S * list exn :=
  match chunks with
  | [] => (buffer, s, [])
  | c :: r =>
    let '(buffer1, s1, o) := gw_data_received h buffer s c in
    let '(buffer2, s2, es) := gw_chunks h buffer1 s1 r in
    (buffer2, s2, match o with Ok _ => es | Err e => e :: es end)
  end.

(** uart.py:137-141 Gateway.send: one write of the serialised frame; [wire] is everything written. *)
Definition gw_send (wire : list (list Z)) (f : frame) : list (list Z) * result unit :=
  match to_buffer f with
  | Ok data => (wire ++ [data], Ok tt)
  | Err e => (wire, Err e)
  end.
