(** * SpecMachine: vocabulary of the properties of the request machine.
    Everything is read off the history of what happened ([s_log]); nothing refers to the code's tables. *)
From Verif Require Import Base Types Uart Buffalo Zpi Api App Machine.

(** who holds the link after the history [l] *)
Definition holder (l : list obs) : option Z :=
  fold_left (fun h x => match x with OGranted t => Some t | OFreed _ => None | _ => h end) l None.

Definition without (t : Z) (q : list Z) : list Z := filter (fun x => negb (x =? t)) q.

(** who is waiting for the link after the history [l], longest-waiting first: queued, and neither
    granted nor ended since *)
Definition waiting (l : list obs) : list Z :=
  fold_left (fun q x => match x with OQueued t => q ++ [t] | OGranted t | OEnded t _ => without t q | _ => q end) l [].

(** admitted through the semaphore and not ended since *)
Definition active (l : list obs) : list Z :=
  fold_left (fun q x => match x with OAdmitted t => q ++ [t] | OEnded t _ => without t q | _ => q end) l [].

(** every entry of a history relates to what came before it *)
Definition always (P : list obs -> obs -> Prop) (l : list obs) : Prop :=
  forall a x b, l = a ++ x :: b -> P a x.

(** everything written, in order *)
Definition written_bytes (l : list obs) : list (list Z) :=
  flat_map (fun x => match x with OWritten _ _ bs => [bs] | _ => [] end) l.
(** the tasks that wrote, in order *)
Definition writers (l : list obs) : list Z :=
  flat_map (fun x => match x with OWritten t _ _ => [t] | _ => [] end) l.

(** what one task did *)
Definition about (t : Z) (x : obs) : bool :=
  match x with
  | OCalled u | OAdmitted u | OQueued u | OGranted u | OFreed u | OWritten u _ _ | OEnded u _ => u =? t
  | _ => false
  end.
Definition trace (t : Z) (l : list obs) : list obs := filter (about t) l.

(** the ids of the waiters that were registered and of those that were completed, in order *)
Definition registrations (l : list obs) : list Z :=
  flat_map (fun x => match x with ORegistered i _ _ => [i] | _ => [] end) l.
Definition completions (l : list obs) : list Z :=
  flat_map (fun x => match x with OCompleted i _ => [i] | _ => [] end) l.
(** the messages handed to zigpy, in order: their bytes *)
Definition messages (l : list obs) : list (list Z) :=
  flat_map (fun x => match x with OEffect (EMsg _ _ _ _ _ _ _ data) => [data] | _ => [] end) l.

(** Python's [==] on payload values: numbers with numbers, bytes with bytes, lists with lists. *)
Inductive elements : value -> list Z -> Prop :=
| el_address l : elements (VEui l) l
| el_list l : elements (VList l) l
| el_none : elements (VNeighbors []) [].
Inductive same_value : value -> value -> Prop :=
| same_int z : same_value (VInt z) (VInt z)
| same_bytes l : same_value (VBytes l) (VBytes l)
| same_list a b l : elements a l -> elements b l -> same_value a b
| same_table l : same_value (VNeighbors l) (VNeighbors l).
(** Message [o] is one that [m] asks for: same type, subsystem and name, and every field asked for is
    there with an equal value. *)
Definition answers (m : matcher) (o : zpi) : Prop :=
  m_type m = z_type o /\ m_sub m = z_sub o /\ m_cmd m = z_cmd o /\
  Forall (fun fv => exists x, dict_get (z_payload o) (fst fv) = Some x /\ same_value (snd fv) x) (m_payload m).

(** The waiter carries a sequence number that Python takes for true. *)
Definition carries (w : waiter) : Prop := exists q, w_seq w = Some q /\ q <> 0.

(** Any history of a fresh API whose application has [cap] slots. *)
Definition reachable (cap : Z) (s : st) : Prop :=
  exists version devs has_app es, s = run es (init cap version devs has_app).

(** How long a request may take once its frame is written, in ms. *)
Definition limit (o : zpi) : Z :=
  match z_type o with
  | AREQ => 30000
  | _ => if existsb (String.eqb (z_cmd o)) ["bdbStartCommissioning"; "startupFromApp"] then 20000 else 6000
  end.

(** [bs] are the bytes that [o] is sent as. *)
Definition frame_bytes (o : zpi) (bs : list Z) : Prop := exists f, to_unpi_frame o = Ok f /\ to_buffer f = Ok bs.
(** [t] wrote [bs] at time [at_] and let go of the link later; in between [lb] happened. *)
Definition outstanding (t at_ : Z) (bs : list Z) (lb : list obs) (l : list obs) : Prop :=
  exists la lc, l = la ++ OWritten t at_ bs :: lb ++ OFreed t :: lc /\ ~ In (OFreed t) lb.

(** A message that is offered to the waiters [ws] one by one gets as far as [pre]: to the end, or to the
    first waiter that it answers and that carries a sequence number. *)
Definition offered (o : zpi) (ws pre post : list waiter) : Prop :=
  ws = pre ++ post /\
  (forall a w b, pre = a ++ w :: b -> answers (w_matcher w) o -> carries w -> b = []) /\
  (post = [] \/ exists a w, pre = a ++ [w] /\ answers (w_matcher w) o /\ carries w).
(** [o] has every field that [m], if it asks for this command, asks for *)
Definition has_fields (m : matcher) (o : zpi) : Prop :=
  m_type m = z_type o -> m_sub m = z_sub o -> m_cmd m = z_cmd o ->
  Forall (fun fv => dict_get (z_payload o) (fst fv) <> None) (m_payload m).

(** Operations of the application that send something and report a status. *)
Definition sends (j : job) : Prop :=
  match j with JRequest _ _ _ _ _ _ _ _ | JMulticast _ _ _ _ _ _ | JBroadcast _ _ _ _ _ _ _ _ => True | _ => False end.
(** The statuses a caller expects: those given, or 0. *)
Definition expects (j : job) (c : Z) : Prop :=
  match j with JCommand _ _ _ e | JRaw _ e => In c e | _ => c = 0 end.
(** How the error status [c] is reported to the caller: returned by send operations, else raised. *)
Definition reported (j : job) (c : Z) : outcome :=
  match j with
  | JRequest _ _ _ _ _ _ _ _ | JMulticast _ _ _ _ _ _ | JBroadcast _ _ _ _ _ _ _ _ => OStatus c
  | _ => OExn (CommandError c)
  end.
Definition status_of (r : zpi) : option value := dict_get (z_payload r) "status".

(** The waiter was created for the reply named [rsp] of the device with short address [nwk]. *)
Definition asks_for (rsp : string) (nwk : Z) (w : waiter) : bool :=
  let m := w_matcher w in
  ct_eqb (m_type m) AREQ && sub_eqb (m_sub m) ZDO && String.eqb (m_cmd m) rsp &&
  match m_payload m with [(n, VInt a)] => String.eqb n "srcaddr" && (a =? nwk) | _ => false end.
(** several frames one after the other *)
Definition frames_received (fs : list frame) (s : st) : st := fold_left (fun s f => fst (data_received s f)) fs s.

(** Commands that make the stick reset. *)
Definition resets (o : zpi) : Prop :=
  z_sub o = SYS /\ z_cmd o = "resetReq" \/ z_sub o = SAPI /\ z_cmd o = "systemReset".
(** ZDO commands whose synchronous response has no status. *)
Definition no_status : list string := ["extFindAllGroupsEndpoint"; "extNwkInfo"; "forceConcentratorChange"].
(** [r] is the synchronous response to [o]. *)
Definition response_to (o r : zpi) : Prop := z_type r = SRSP /\ z_sub r = z_sub o /\ z_cmd r = z_cmd o.

(** No coroutine waits, with [wait_for], for the command [cmd] of type [ty] and subsystem [sub]. *)
Definition nobody_waits_for (ty : command_type) (sub : subsystem) (cmd : string) (s : st) : Prop :=
  forall t k m to, get s t = Some k -> t_job k = JWaitFor m to -> ~ (m_type m = ty /\ m_sub m = sub /\ m_cmd m = cmd).

(** called and not ended after the history [l], in the order of the calls *)
Definition pending (l : list obs) : list Z :=
  fold_left (fun q x => match x with OCalled t => q ++ [t] | OEnded t _ => without t q | _ => q end) l [].
(** Events other than a new call and received bytes. *)
Definition quiet_event (e : event) : Prop := match e with ECall _ | ERecv _ => False | _ => True end.
(** time that passes during [es], in ms *)
Definition elapsed (es : list event) : Z :=
  fold_right (fun e n => match e with ETick ms => Z.max 0 ms + n | _ => n end) 0 es.
(** Nothing new happens during [es]; first at least [T] ms pass, then each coroutine of [ids] gets the
    chance to go on and the chance to notice that its time is up. *)
Definition fair_round (T : Z) (ids : list Z) (es : list event) : Prop :=
  Forall quiet_event es /\
  exists a b, es = a ++ b /\ T <= elapsed a /\ forall t, In t ids -> In (ERun t) b /\ In (ETimeout t) b.
