(** * PropsMatch: property C146, when a message is what somebody waits for, and what an operation waits for *)
From Verif Require Import Base Types Uart Buffalo CmdTable Zpi Api App Machine SpecApi SpecMachine SpecMatch MatchProofs PropsApp PropsMachine.

(** ** C146.  A message matches a waiter if and only if type, subsystem and name are those asked for and every field asked for is there
    with an equal value; it does not match if the kind differs or, before a missing field is met, a value differs; otherwise, the lookup
    of the missing field raises. *)
Theorem C146_matches : forall m o, waiter_match m o = Ok true <-> same_kind m o /\ carried (m_payload m) o.
Proof. intros m o. exact (proj1 (match_cases m o)). Qed.
Print Assumptions C146_matches.
Theorem C146_differs : forall m o, waiter_match m o = Ok false <-> ~ same_kind m o \/ same_kind m o /\
  exists e1 k v e2 x, m_payload m = e1 ++ (k, v) :: e2 /\ carried e1 o /\ has_field (z_payload o) k x /\ ~ same_value v x.
Proof. intros m o. exact (proj1 (proj2 (match_cases m o))). Qed.
Print Assumptions C146_differs.
Theorem C146_raises : forall m o e, waiter_match m o = Err e <->
  e = KeyError /\ same_kind m o /\ exists e1 k v e2, m_payload m = e1 ++ (k, v) :: e2 /\ carried e1 o /\ lacks (z_payload o) k.
Proof. intros m o. exact (proj2 (proj2 (match_cases m o))). Qed.
Print Assumptions C146_raises.
(** The waiter that is made for the reply to what is sent: exactly as the specification says, and it says so for every message. *)
Theorem C146_reply_waiter : forall o q r, create_response_waiter o q = r <-> reply_waiter o q r.
Proof. exact reply_waiter_iff. Qed.
Print Assumptions C146_reply_waiter.

(** one message against three waiters: for it, for one with another address, for one that asks for a field it has not *)
Definition lit_active (a : Z) : zpi := mk_zpi AREQ ZDO "activeEpRsp" 133 [("srcaddr", VInt a); ("status", VInt 0)] [] None.
Example C146_inhabited :
  map (fun m => waiter_match m (lit_active 5)) [mk_matcher AREQ ZDO "activeEpRsp" [("srcaddr", VInt 5)]; mk_matcher AREQ ZDO "activeEpRsp" [("srcaddr", VInt 6)];
    mk_matcher AREQ ZDO "activeEpRsp" [("nwkaddr", VInt 5)]; mk_matcher AREQ AF "activeEpRsp" [("srcaddr", VInt 5)]] = [Ok true; Ok false; Err KeyError; Ok false] /\
  create_response_waiter (mk_zpi SREQ ZDO "activeEpReq" 5 [("dstaddr", VInt 5); ("nwkaddrofinterest", VInt 5)] [] None) (Some 7) =
    Ok (Some (mk_matcher AREQ ZDO "activeEpRsp" [("srcaddr", VInt 5)], Some 7)) /\
  create_response_waiter (mk_zpi SREQ AF "dataRequest" 1 [("dstaddr", VInt 5); ("transid", VInt 9)] [] None) (Some 7) =
    Ok (Some (mk_matcher AREQ AF "dataConfirm" [("transid", VInt 9)], None)) /\
  create_response_waiter (mk_zpi SREQ SYS "ping" 1 [("capabilities", VInt 1)] [] None) (Some 7) = Ok None /\
  create_response_waiter (mk_zpi SREQ ZDO "nwkAddrReq" 0 [("ieeeaddr", VEui [1; 2; 3; 4; 5; 6; 7; 8])] [] None) (Some 7) = Err KeyError.
Proof. vm_compute. repeat split. Qed.
