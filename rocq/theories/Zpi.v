(** * Zpi: zigpy_cc/zpi_object.py *)
From Verif Require Import Base Types Uart Buffalo CmdTable.

(** zpi_object.py:27-44 class ZpiObject: fields *)
Record zpi := mk_zpi {
  z_type : command_type; z_sub : subsystem; z_cmd : string; z_id : Z;
  z_payload : payload; z_params : list param; z_seq : option Z }.

(** zpi_object.py:9-24 BufferAndListTypes *)
Definition buffer_or_list (t : ptype) : bool :=
  match t with
  | BUFFER | BUFFER8 | BUFFER16 | BUFFER18 | BUFFER32 | BUFFER42 | BUFFER100
  | LIST_UINT16 | LIST_ROUTING_TABLE | LIST_BIND_TABLE | LIST_NEIGHBOR_LQI | LIST_NETWORK
  | LIST_ASSOC_DEV | LIST_UINT8 => true
  | UINT8 | UINT16 | UINT32 | IEEEADDR | INT8 => false
  end.

(** zpi_object.py:46-49 is_reset_command *)
Definition is_reset_command (o : zpi) : bool :=
  (String.eqb (z_cmd o) "resetReq" && sub_eqb (z_sub o) SYS) ||
  (String.eqb (z_cmd o) "systemReset" && sub_eqb (z_sub o) SAPI).

(** zpi_object.py:51-56 the loop of to_unpi_frame *)
Fixpoint write_params (ps : list param) (d : payload) : result (list Z) :=
  match ps with
  | [] => Ok []
  | (n, t) :: r =>
      do v <- dict_getE d n;
      do a <- write_parameter t v;
      do b <- write_params r d;
      Ok (a ++ b)
  end.

(** zpi_object.py:51-60 to_unpi_frame *)
Definition to_unpi_frame (o : zpi) : result frame :=
  do data <- write_params (z_params o) (z_payload o);
  Ok (mk_frame (z_type o) (z_sub o) (z_id o) data None None).

(** [isinstance(v, int)] *)
Definition int_value (v : value) : option Z := match v with VInt z => Some z | _ => None end.

(** zpi_object.py:171-192 the loop of read_parameters: [len] is the variable [length] (the previous
    value if it is an int), [res] the dict built so far.  [start_index] only feeds
    [options.startIndex], which no reader uses. *)
Fixpoint read_params (ps : list param) (len : option Z) (res : payload) (rem : list Z)
    : result payload :=
  match ps with
  | [] => Ok res
  | (n, t) :: r =>
      do (v, rem') <- read_parameter n t (if buffer_or_list t then len else None) rem;
      read_params r (int_value v) (dict_set res n v) rem'
  end.

(** zpi_object.py:166-194 read_parameters *)
Definition read_parameters (data : list Z) (ps : list param) : result payload :=
  read_params ps None [] data.

(** [next(c for c in l if p(c))] *)
Definition next_cmd (p : cmd -> bool) (l : list cmd) : result cmd :=
  match find p l with Some c => Ok c | None => Err StopIteration end.

Definition key {A} (o : option A) : result A := match o with Some x => Ok x | None => Err KeyError end.

(** zpi_object.py:65-67, 76-80, 116-118: response list for SRSP, request list otherwise *)
Definition select_params (t : command_type) (c : cmd) : result (list param) :=
  if ct_eqb t SRSP then key (c_response c) else key (c_request c).

(** zpi_object.py:62-69 from_command *)
Definition from_command (s : subsystem) (command : string) (d : payload) : result zpi :=
  do cs <- definition s;
  do c <- next_cmd (fun c => String.eqb (c_name c) command) cs;
  do ps <- select_params (c_type c) c;
  Ok (mk_zpi (c_type c) s (c_name c) (c_ID c) d ps None).

(** zpi_object.py:71-90 from_unpi_frame *)
Definition from_unpi_frame (f : frame) : result zpi :=
  do cs <- definition (f_sub f);
  do c <- next_cmd (fun c => c_ID c =? f_id f) cs;
  do ps <- select_params (f_type f) c;
  do d <- read_parameters (f_data f) ps;
  Ok (mk_zpi (f_type f) (f_sub f) (c_name c) (c_ID c) d ps None).

(** zigpy.profiles.zha.PROFILE_ID and zigpy BroadcastAddress.ALL_ROUTERS_AND_COORDINATOR *)
Definition ZHA_PROFILE : Z := 260.
Definition ALL_ROUTERS_AND_COORDINATOR : Z := 65532.

(** zpi_object.py:92-164 from_cluster.  All scalar arguments are ints. *)
Definition from_cluster (nwk profile cluster src_ep dst_ep sequence : Z) (data : list Z)
    (radius : Z) (addr_mode : option Z) : result zpi :=
  let s := if profile =? ZHA_PROFILE then AF else ZDO in
  let wanted :=
    if profile =? ZHA_PROFILE
    then match addr_mode with None => 1 | Some _ => 2 end
    else cluster in
  do cs <- definition s;
  do c <- next_cmd (fun c => c_ID c =? wanted) cs;
  do ps <- select_params (c_type c) c;
  do d <-
    (if String.eqb (c_name c) "dataRequest" then
       Ok [("dstaddr", VInt nwk); ("destendpoint", VInt dst_ep); ("srcendpoint", VInt src_ep);
           ("clusterid", VInt cluster); ("transid", VInt sequence); ("options", VInt 0);
           ("radius", VInt radius); ("len", VInt (zlen data)); ("data", VBytes data)]
     else if String.eqb (c_name c) "dataRequestExt" then
       Ok [("dstaddrmode", VInt (match addr_mode with Some m => m | None => 0 end));
           ("dstaddr", VInt nwk); ("destendpoint", VInt dst_ep); ("dstpanid", VInt 0);
           ("srcendpoint", VInt src_ep); ("clusterid", VInt cluster); ("transid", VInt sequence);
           ("options", VInt 0); ("radius", VInt radius); ("len", VInt (zlen data));
           ("data", VBytes data)]
     else if String.eqb (c_name c) "mgmtPermitJoinReq" then
       let addrmode := if nwk =? ALL_ROUTERS_AND_COORDINATOR then ADDR_BROADCAST else ADDR_16BIT in
       do m <- py_bytes [addrmode];
       do a <- to_bytes 2 nwk;
       read_parameters (m ++ a ++ skipn 1 data) ps
     else
       do a <- to_bytes 2 nwk;
       read_parameters (a ++ skipn 1 data) ps);
  Ok (mk_zpi (c_type c) s (c_name c) (c_ID c) d ps (Some sequence)).
