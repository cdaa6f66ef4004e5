(** * SpecMatch: looking up and comparing what a message carries, and names of commands *)
From Verif Require Import Base Types Buffalo CmdTable Zpi Api SpecMachine.

(** [d] has the field [k], with the value [x]. *)
Definition has_field {A} (d : list (string * A)) (k : string) (x : A) : Prop :=
  exists d1 d2, d = d1 ++ (k, x) :: d2 /\ ~ In k (map fst d1).
Definition lacks {A} (d : list (string * A)) (k : string) : Prop := ~ In k (map fst d).
(** Type, subsystem and name are those asked for. *)
Definition same_kind (m : matcher) (o : zpi) : Prop := m_type m = z_type o /\ m_sub m = z_sub o /\ m_cmd m = z_cmd o.
(** The fields [e] are there with these values. *)
Definition carried (e : payload) (o : zpi) : Prop := Forall (fun fv => exists x, has_field (z_payload o) (fst fv) x /\ same_value (snd fv) x) e.

(** [t] is [s] with every "Req" replaced by "Rsp", from left to right. *)
Inductive replaced : string -> string -> Prop :=
| rp_end : replaced "" ""
| rp_hit s t : replaced s t -> replaced ("Req" ++ s) ("Rsp" ++ t)
| rp_miss c s t : (forall r, String c s <> ("Req" ++ r)%string) -> replaced s t -> replaced (String c s) (String c t).
(** The reply that the application waits for after sending [o], if any (with [q], the number of the request); or no waiter can be made. *)
Inductive reply_waiter (o : zpi) (q : option Z) : result (option (matcher * option Z)) -> Prop :=
| rw_async : z_type o <> SREQ -> reply_waiter o q (Ok None)
| rw_data p t : z_type o = SREQ -> z_cmd o = ("dataRequest" ++ p)%string -> has_field (z_payload o) "transid" t ->
    reply_waiter o q (Ok (Some (mk_matcher AREQ AF "dataConfirm" [("transid", t)], None)))
| rw_data_lacks p : z_type o = SREQ -> z_cmd o = ("dataRequest" ++ p)%string -> lacks (z_payload o) "transid" -> reply_waiter o q (Err KeyError)
| rw_other : z_type o = SREQ -> (forall p, z_cmd o <> ("dataRequest" ++ p)%string) -> (forall p, z_cmd o <> (p ++ "Req")%string) -> reply_waiter o q (Ok None)
| rw_no_commands p e : z_type o = SREQ -> (forall p, z_cmd o <> ("dataRequest" ++ p)%string) -> z_cmd o = (p ++ "Req")%string ->
    definition (z_sub o) = Err e -> reply_waiter o q (Err e)
| rw_no_reply p cs rsp : z_type o = SREQ -> (forall p, z_cmd o <> ("dataRequest" ++ p)%string) -> z_cmd o = (p ++ "Req")%string ->
    definition (z_sub o) = Ok cs -> replaced (z_cmd o) rsp -> ~ In rsp (map c_name cs) -> reply_waiter o q (Ok None)
| rw_reply p cs rsp a : z_type o = SREQ -> (forall p, z_cmd o <> ("dataRequest" ++ p)%string) -> z_cmd o = (p ++ "Req")%string ->
    definition (z_sub o) = Ok cs -> replaced (z_cmd o) rsp -> In rsp (map c_name cs) -> has_field (z_payload o) "dstaddr" a ->
    reply_waiter o q (Ok (Some (mk_matcher AREQ ZDO rsp [("srcaddr", a)], q)))
| rw_reply_lacks p cs rsp : z_type o = SREQ -> (forall p, z_cmd o <> ("dataRequest" ++ p)%string) -> z_cmd o = (p ++ "Req")%string ->
    definition (z_sub o) = Ok cs -> replaced (z_cmd o) rsp -> In rsp (map c_name cs) -> lacks (z_payload o) "dstaddr" -> reply_waiter o q (Err KeyError).
