(** * SpecWhole: vocabulary for the application whose start-ups make their requests themselves *)
From Verif Require Import Base Types Uart Buffalo CmdTable Zpi Api App Machine Life World Nv StartZnp AppStart SpecStart Host SpecHost Whole.

(** what can come about, with the network settings [c] *)
Definition xreachable (c : nwk_config) (x : whole) : Prop := exists devs es, x = whole_run c es (whole_init devs).

(** The same act, but for the message with which a wait ended. *)
Definition like (a b : act) : Prop :=
  match a, b with AAwait m (Ok _), AAwait m' (Ok _) => m = m' | _, _ => a = b end.
(** the LED command *)
Definition is_led (a : act) : bool := match a with ASpawn UTIL cmd _ => String.eqb cmd "ledControl" | _ => false end.
Definition but_led (l : list act) : list act := filter (fun a => negb (is_led a)) l.
(** An attempt that ended with [r] is a run of the program that ended with [f]. *)
Definition same_end {A} (f : fin A) (r : result unit) : Prop :=
  match f, r with Returned _, Ok _ => True | Raised e, Err e' => e = e' | _, _ => False end.

(** The history of API object [a]; nothing if there is none. *)
Definition history (w : world) (a : nat) : list obs := match nth_error (w_apis w) a with Some s => s_log s | None => [] end.

(** What start-ups did, oldest first: [attempted x t auto ds]: an attempt of coroutine [t], over or under way, did [ds]. *)
Definition attempted (x : whole) (t : nat) (auto : bool) (ds : list deed) : Prop :=
  (exists r at_, In (XOver t auto ds r at_) (x_log x)) \/
  exists p, b_part (x_boots x t) = Some p /\ b_auto (x_boots x t) = auto /\
    ds = b_deeds (x_boots x t) ++ match r_place p with Requesting u sub cmd d y _ => [(r_api p, u, ARequest sub cmd d y None)] | _ => [] end.
(** [l], made to API object [a] *)
Definition made_to (a : nat) (l : list (Z * act)) : list deed := map (fun y => (a, fst y, snd y)) l.
(** every act is a request for this command *)
Definition only (sub : subsystem) (cmd : string) (l : list (Z * act)) : Prop := Forall (fun y => exists d x r, snd y = ARequest sub cmd d x r) l.
(** [o] is about coroutine [t], at time [a] *)
Definition noted (t : nat) (a : Z) (o : xobs) : Prop := match o with XTries u b | XOver u _ _ _ b => u = t /\ b = a end.
