(** * SpecDeliver: what zigpy is handed for the messages received, completely and in order (C154) *)
From Verif Require Import Base Types Uart Buffalo Zpi Api App Machine SpecCodec SpecApi SpecMachine SpecTrace.

(** What zigpy is handed for the message [o] if [d] is the device table before it and [q] the sequence number of the request it was
    attributed to: an announcement leads to a join and to the announcement itself; an incoming message goes to the first device with
    its short address, if there is one; a reply that is passed on goes, under the number of its request, to the first device with its
    short address, if there is one, the number is a byte and there is a request; no other message leads to anything. *)
Inductive handed (o : zpi) (q : option Z) (d : devices) : list effect -> Prop :=
| HD_announced n i body : indication o ZDO "endDeviceAnnceInd" -> field o "nwkaddr" (VInt n) -> field o "ieeeaddr" (VEui i) ->
    payload_wire None (z_params o) (z_payload o) body -> handed o q d [EJoin n i; EMsg i 0 0 260 19 0 0 (0 :: skipn 2 body)]
| HD_incoming nwk i cluster src_ep dst_ep lqi data : indication o AF "incomingMsg" -> field o "srcaddr" (VInt nwk) -> first_with nwk i d ->
    field o "clusterid" (VInt cluster) -> field o "srcendpoint" (VInt src_ep) -> field o "dstendpoint" (VInt dst_ep) ->
    field o "linkquality" (VInt lqi) -> field o "data" (VBytes data) -> handed o q d [EMsg i lqi 0 260 cluster src_ep dst_ep data]
| HD_stranger nwk : indication o AF "incomingMsg" -> field o "srcaddr" (VInt nwk) -> none_with nwk d -> handed o q d []
| HD_reply c cluster nwk i tsn body : indication o ZDO c -> In (c, cluster) passed_replies -> q = Some tsn -> byte_ok tsn ->
    field o "srcaddr" (VInt nwk) -> first_with nwk i d -> payload_wire None (z_params o) (z_payload o) body ->
    handed o q d [EMsg i 0 0 260 cluster 0 0 (tsn :: skipn 2 body)]
| HD_no_reply c cluster : indication o ZDO c -> In (c, cluster) passed_replies ->
    (forall tsn, q = Some tsn -> byte_ok tsn -> exists nwk, field o "srcaddr" (VInt nwk) /\ none_with nwk d) -> handed o q d []
| HD_other : ~ indication o ZDO "endDeviceAnnceInd" -> ~ indication o AF "incomingMsg" ->
    (forall c cluster, In (c, cluster) passed_replies -> ~ indication o ZDO c) -> handed o q d [].

(** what was received, and what zigpy was handed (all but the light), in order *)
Definition got (l : list obs) : list zpi := flat_map (fun x => match x with OReceived o => [o] | _ => [] end) l.
Definition traffic (es : list effect) : list effect := filter (fun e => match e with ELed _ => false | _ => true end) es.
(** the device table after what was handed over *)
Definition after (d : devices) (es : list effect) : devices := fold_left (fun d e => match e with EJoin n i => enter d n i | _ => d end) es d.
(** [es] is what the messages [os] lead to, one after the other, beginning with the table [d]; [A o q]: [o] may be attributed to a
    request with the number [q]. *)
Inductive in_order (A : zpi -> Z -> Prop) : devices -> list zpi -> list effect -> Prop :=
| IO_nil d : in_order A d [] []
| IO_cons d o q es os es' : handed o q d es -> (forall b, q = Some b -> A o b) -> in_order A (after d es) os es' -> in_order A d (o :: os) (es ++ es').

(** the bytes that arrived *)
Definition arrived (es : list event) : list Z := flat_map (fun e => match e with ERecv data => data | _ => [] end) es.
