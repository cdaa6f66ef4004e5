(** * SpecTrace: vocabulary for what received messages lead to, read off the history. *)
From Verif Require Import Base Types Uart Buffalo Zpi Api App Machine SpecApi SpecMachine.

(** Entries of the history that are neither a received message nor anything done with one. *)
Definition silent (x : obs) : Prop := match x with OReceived _ | OEffect _ | ORaised _ => False | _ => True end.
(** Entries that follow from receiving [o]: waiters given [o], things done by the application, tasks it started. *)
Definition follows (o : zpi) (x : obs) : Prop := match x with OCompleted _ r => r = o | OEffect _ | OCalled _ => True | _ => False end.
(** what the application did, in order *)
Definition effects (l : list obs) : list effect := flat_map (fun x => match x with OEffect e => [e] | _ => [] end) l.

(** [j] asks the node [nwk], with a ZDO request for [cluster], for a reply under the sequence number [q]. *)
Definition asks (j : job) (nwk cluster q : Z) (data : list Z) : Prop :=
  match j with
  | JRequest n p c _ _ sequence d true => p <> 260 /\ n = nwk /\ c = cluster /\ sequence = q /\ d = data
  | JMulticast g p c _ sequence d => p <> 260 /\ g = nwk /\ c = cluster /\ sequence = q /\ d = data
  | _ => False
  end.
(** [q] is the sequence number of a request, made by one of the tasks of [s], that [o] is the reply to. *)
Definition attributed (s : st) (o : zpi) (q : Z) : Prop :=
  q <> 0 /\ z_type o = AREQ /\ z_sub o = ZDO /\
  exists t k nwk cluster data, get s t = Some k /\ asks (t_job k) nwk cluster q data /\ In (cluster, z_cmd o) addressed_requests /\
    (bytes_ok data -> field o "srcaddr" (VInt nwk)).

(** the short address last announced for [i] in [l], if any *)
Definition announced_nwk (l : list obs) (i : list Z) : option Z :=
  fold_left (fun a x => match x with OEffect (EJoin n j) => if list_eq_dec Z.eq_dec j i then Some n else a | _ => a end) l None.
(** [d] is the device table [d0] brought up to date with the announcements in [l]. *)
Definition up_to_date (d0 : devices) (l : list obs) (d : devices) : Prop :=
  forall i n, NoDup (map fst d0) -> (In (i, n) d <-> announced_nwk l i = Some n \/ announced_nwk l i = None /\ In (i, n) d0).

(** The table after device [i] was entered with short address [n]: its entry changed in place, or a new one at the end. *)
Definition enter (d : devices) (n : Z) (i : list Z) : devices :=
  let fix go (pre post : devices) :=
    match post with
    | [] => d ++ [(i, n)]
    | x :: rest => if list_eq_dec Z.eq_dec (fst x) i then pre ++ (i, n) :: rest else go (pre ++ [x]) rest
    end in go [] d.
(** The table [d0] after the announcements in [l]. *)
Definition known (d0 : devices) (l : list obs) : devices :=
  fold_left (fun d x => match x with OEffect (EJoin n i) => enter d n i | _ => d end) l d0.
