(** * SpecWorldDeliver: what zigpy is handed for the messages of one API object, across losses of the connection (C155) *)
From Verif Require Import Base Types Uart Buffalo Zpi Api App Machine Life World SpecCodec SpecApi SpecMachine SpecTrace SpecDeliver.

(** what the log tells zigpy and the device table: coordinators added by start-ups, joins and messages (all but the light) *)
Definition news (l : list wobs) : list wobs :=
  filter (fun x => match x with WAdded _ _ => true | WEffect _ (ELed _) => false | WEffect _ _ => true | _ => false end) l.
Definition updated (d : devices) (x : wobs) : devices :=
  match x with WAdded i n => enter d n i | WEffect _ (EJoin n i) => enter d n i | _ => d end.
(** In [l] the messages [os] of API object [a] lead to what they should, one after the other, each with the table as everything before
    it made it, the messages of the other API objects and the start-ups included; nothing else in [l] is an effect of [a]. *)
Inductive served (a : nat) (A : zpi -> Z -> Prop) : devices -> list zpi -> list wobs -> Prop :=
| SV_nil d : served a A d [] []
| SV_other d x os l : (forall e, x <> WEffect a e) -> served a A (updated d x) os l -> served a A d os (x :: l)
| SV_message d o q es os l : handed o q d es -> (forall b, q = Some b -> A o b) ->
    served a A (fold_left updated (map (WEffect a) es) d) os l -> served a A d (o :: os) (map (WEffect a) es ++ l).

(** [q] is the number of a request, made by one of the operations of the application, that [o] is the reply to. *)
Definition replies_to (w : world) (o : zpi) (q : Z) : Prop :=
  q <> 0 /\ z_type o = AREQ /\ z_sub o = ZDO /\
  exists n p nwk cluster data, the_op w n = Some p /\ asks (op_job p) nwk cluster q data /\ In (cluster, z_cmd o) addressed_requests /\
    (bytes_ok data -> field o "srcaddr" (VInt nwk)).

(** the bytes that arrived at API object [a] *)
Definition arrived_at (a : nat) (es : list wevent) : list Z :=
  flat_map (fun e => match e with VReceive b data => if Nat.eqb b a then data else [] | _ => [] end) es.
