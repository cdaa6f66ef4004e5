(** * Api: the pure part of zigpy_cc/api.py (matching of replies, response waiters, status check) *)
From Verif Require Import Base Types Uart Buffalo CmdTable Zpi.

(** api.py:21-26 class Matcher.  [m_payload] is [] for None and for {}: both are falsy (api.py:66). *)
Record matcher := mk_matcher {
  m_type : command_type; m_sub : subsystem; m_cmd : string; m_payload : payload }.

(** api.py:67-69: the loop over the expected fields; [obj.payload[f]] raises KeyError if absent. *)
Fixpoint match_payload (expected : payload) (d : payload) : result bool :=
  match expected with
  | [] => Ok true
  | (f, v) :: r =>
      do x <- dict_getE d f;
      if value_eqb v x then match_payload r d else Ok false
  end.

(** api.py:57-71 Waiter.match *)
Definition waiter_match (m : matcher) (o : zpi) : result bool :=
  if negb (ct_eqb (m_type m) (z_type o)) || negb (sub_eqb (m_sub m) (z_sub o))
     || negb (String.eqb (m_cmd m) (z_cmd o))
  then Ok false
  else match_payload (m_payload m) (z_payload o).

(** api.py:29-44 class Waiter without its future (the future lives in the machine state, under the
    waiter's id). *)
Record waiter := mk_waiter { w_id : Z; w_matcher : matcher; w_timeout : Z; w_seq : option Z }.

(** api.py:173-192 create_response_waiter: the matcher and the sequence number of the waiter to
    register (with the default time-out), or None.  [Definition[obj.subsystem]] raises KeyError for a
    subsystem without commands. *)
Definition create_response_waiter (o : zpi) (sequence : option Z) : result (option (matcher * option Z)) :=
  if ct_eqb (z_type o) SREQ && startswith (z_cmd o) "dataRequest" then
    do t <- dict_getE (z_payload o) "transid";
    Ok (Some (mk_matcher AREQ AF "dataConfirm" [("transid", t)], None))
  else if ct_eqb (z_type o) SREQ && endswith (z_cmd o) "Req" then
    let rsp := replace_req (z_cmd o) in
    do cs <- definition (z_sub o);
    match find (fun c => String.eqb rsp (c_name c)) cs with
    | Some _ =>
        do a <- dict_getE (z_payload o) "dstaddr";
        Ok (Some (mk_matcher AREQ ZDO rsp [("srcaddr", a)], sequence))
    | None => Ok None
    end
  else Ok None.

(** api.py:131-136: time limit of a synchronous request, in ms *)
Definition sreq_timeout (command : string) : Z :=
  if String.eqb command "bdbStartCommissioning" || String.eqb command "startupFromApp"
  then 20000 else Timeouts_SREQ.

(** api.py:142-146: the status of a response that is not among the expected ones.  A status that is
    not an int never occurs in a decoded message (proved: [status_is_int]). *)
Definition unexpected_status (r : zpi) (expected : list Z) : option Z :=
  match dict_get (z_payload r) "status" with
  | Some (VInt s) => if existsb (Z.eqb s) expected then None else Some s
  | _ => None
  end.
