(** * SpecWorld: what the properties about the application and all its API objects say *)
From Verif Require Import Base Types Buffalo Zpi Api App Machine Life World.

(** a world that some sequence of events leads to *)
Definition wreachable (w : world) : Prop := exists devs es, w = world_run es (world_init devs).

(** ** reading the log *)
(** operations that have a slot: admitted and not ended; operation, semaphore object, API object *)
Definition work_step (l : list (nat * nat * nat)) (o : wobs) : list (nat * nat * nat) :=
  match o with
  | WAdmitted n q a => l ++ [(n, q, a)]
  | WEnded n _ => filter (fun x => negb (Nat.eqb (fst (fst x)) n)) l
  | _ => l
  end.
Definition working (l : list wobs) : list (nat * nat * nat) := fold_left work_step l [].
(** how many of them have a slot of semaphore object [q]; how many talk to API object [a]; both *)
Definition with_slot (q : nat) (l : list wobs) : Z := Z.of_nat (length (filter (fun x => Nat.eqb (snd (fst x)) q) (working l))).
Definition at_stick (a : nat) (l : list wobs) : Z := Z.of_nat (length (filter (fun x => Nat.eqb (snd x) a) (working l))).
Definition at_stick_with (a q : nat) (l : list wobs) : Z :=
  Z.of_nat (length (filter (fun x => Nat.eqb (snd x) a && Nat.eqb (snd (fst x)) q)%bool (working l))).
(** slots of all semaphore objects ever made *)
Fixpoint all_slots (l : list wobs) : Z :=
  match l with [] => 0 | WNewSem _ c :: r => c + all_slots r | _ :: r => all_slots r end.

(** ** once *)
Definition called_ops (l : list wobs) : list nat := flat_map (fun o => match o with WCalled n => [n] | _ => [] end) l.
Definition admitted_ops (l : list wobs) : list nat := flat_map (fun o => match o with WAdmitted n _ _ => [n] | _ => [] end) l.
Definition ended_ops (l : list wobs) : list nat := flat_map (fun o => match o with WEnded n _ => [n] | _ => [] end) l.

(** ** what bytes from one stick may change *)
(** LED commands newly called on an API object, in that order *)
Definition with_leds (modes : list Z) (s : st) : st :=
  fold_left (fun s m => spawn (JCommand UTIL "ledControl" (led_payload m) [0]) s) modes s.

(** ** the device table *)
(** the short address of device [i] that the log told last; [x]: the one before *)
Definition told_step (i : list Z) (x : option Z) (o : wobs) : option Z :=
  match o with
  | WAdded j n | WEffect _ (EJoin n j) => if list_eq_dec Z.eq_dec j i then Some n else x
  | _ => x
  end.
Definition told (i : list Z) (x : option Z) (l : list wobs) : option Z := fold_left (told_step i) l x.
(** API object [a] received an announcement of device [i] with short address [n] *)
Definition announces (o : zpi) (n : Z) (i : list Z) : Prop :=
  z_type o = AREQ /\ z_sub o = ZDO /\ z_cmd o = "endDeviceAnnceInd"%string /\
  dict_get (z_payload o) "nwkaddr" = Some (VInt n) /\ dict_get (z_payload o) "ieeeaddr" = Some (VEui i).
