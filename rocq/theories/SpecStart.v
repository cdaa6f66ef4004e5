(** * SpecStart: what a start of the stick may do and see, and a stick that stores what is written *)
From Verif Require Import Base Types Buffalo Zpi Api SpecCodec SpecMachine Nv StartZnp.

(** ** Executions *)

(** What an observer of the link sees.  [None]: the run was interrupted (power loss, crash) after the
    request went out and before its answer came in. *)
Inductive act :=
| ARequest (sub : subsystem) (cmd : string) (d : payload) (expected : list Z) (r : option (result zpi))
| AListen (m : matcher) (timeout : Z)
| AAwait (m : matcher) (r : result zpi)
| ASpawn (sub : subsystem) (cmd : string) (d : payload).

Inductive fin (A : Type) := Returned (a : A) | Raised (e : exn) | Interrupted.
Arguments Returned {A} a.
Arguments Raised {A} e.
Arguments Interrupted {A}.

(** The answers that can come back to a request (an answer with a status that is not expected is raised as an
    error) and from a waiter (it is completed by a message that it matches only).  Every exception can come
    back but AssertionError.  Proved for the request machine: [C73_answers_possible]. *)
Definition answer_possible (expected : list Z) (r : result zpi) : Prop :=
  match r with
  | Ok m => forall c, status_of m = Some (VInt c) -> In c expected
  | Err e => e <> AssertionError
  end.
Definition indication_possible (w : matcher) (r : result zpi) : Prop :=
  match r with Ok m => waiter_match w m = Ok true | Err e => e <> AssertionError end.

(** [runs p tr f]: [p] can produce [tr] and end with [f]; it can be interrupted anywhere. *)
Inductive runs {A} : prog A -> list act -> fin A -> Prop :=
| runs_interrupted p : runs p [] Interrupted
| runs_ret a : runs (DRet a) [] (Returned a)
| runs_raise e : runs (DRaise e) [] (Raised e)
| runs_lost sub cmd d x k : runs (DRequest sub cmd d x k) [ARequest sub cmd d x None] Interrupted
| runs_request sub cmd d x k r tr f : answer_possible x r -> runs (k r) tr f ->
    runs (DRequest sub cmd d x k) (ARequest sub cmd d x (Some r) :: tr) f
| runs_listen m t k tr f : runs (k (m, t)) tr f -> runs (DListen m t k) (AListen m t :: tr) f
| runs_await m t k r tr f : indication_possible m r -> runs (k r) tr f ->
    runs (DAwait (m, t) k) (AAwait m r :: tr) f
| runs_spawn sub cmd d k tr f : runs k tr f -> runs (DSpawn sub cmd d k) (ASpawn sub cmd d :: tr) f.

(** ** Requested settings *)

(** Options as zigpy's types allow them *)
Definition wf_options (o : options) : Prop :=
  length (o_key o) = 16%nat /\ Forall (fun b => 0 <= b < 256) (o_key o) /\ 0 <= o_pan o < 65536 /\
  length (o_ext o) = 8%nat /\ Forall (fun b => 0 <= b < 256) (o_ext o) /\ 0 <= o_channels o < 4294967296.

Inductive firmware := Stack12 | Stack3x0 | Stack30x.
Definition version_of (v : firmware) : Z := match v with Stack12 => 0 | Stack3x0 => 1 | Stack30x => 2 end.
Definition is_stack3 (v : firmware) : Prop := v <> Stack12.

(** Number of the item that marks a configured stick, and its value *)
Definition marker (v : firmware) : Z := match v with Stack12 => 3840 | _ => 96 end.
Definition set_mark : list Z := [85].
(** "ZigBeeAlliance09" between the wildcard address and zero counters *)
Definition alliance_key : list Z :=
  repeat 255 8 ++ [90; 105; 103; 66; 101; 101; 65; 108; 108; 105; 97; 110; 99; 101; 48; 57] ++ repeat 0 8.
Definition flag (b : bool) : list Z := if b then [1] else [0].

(** (item, bytes) that a complete initialisation stores before the marker *)
Definition settings (v : firmware) (o : options) : list (Z * list Z) :=
  [(3, [2]); (135, [0]); (99, flag (o_distribute o)); (143, [1]); (132, le4 (o_channels o));
   (131, le2 (o_pan o)); (45, o_ext o); (98, o_key o)] ++
  match v with Stack12 => [(257, alliance_key)] | _ => [] end.

(** ** Configuration writes *)
Definition int_of (d : payload) (k : string) : option Z :=
  match dict_get d k with Some (VInt z) => Some z | _ => None end.
Definition bytes_of (d : payload) (k : string) : option (list Z) :=
  match dict_get d k with Some (VBytes b) => Some b | _ => None end.

Inductive storage := Reads (item : Z) | Writes (item : Z) (bs : list Z) | Creates (item : Z) (bs : list Z) | ResetsStick | NoStorage.
(** What a command does to the items of the stick *)
Definition storage_of (sub : subsystem) (cmd : string) (d : payload) : storage :=
  match sub with
  | SYS =>
    if String.eqb cmd "osalNvRead" then
      match int_of d "id" with Some i => Reads i | None => NoStorage end
    else if String.eqb cmd "osalNvWrite" then
      match int_of d "id", bytes_of d "value" with Some i, Some b => Writes i b | _, _ => NoStorage end
    else if String.eqb cmd "osalNvItemInit" then
      match int_of d "id", bytes_of d "initvalue" with Some i, Some b => Creates i b | _, _ => NoStorage end
    else if String.eqb cmd "resetReq" then ResetsStick
    else NoStorage
  | SAPI =>
    if String.eqb cmd "readConfiguration" then
      match int_of d "configid" with Some i => Reads i | None => NoStorage end
    else if String.eqb cmd "writeConfiguration" then
      match int_of d "configid", bytes_of d "value" with Some i, Some b => Writes i b | _, _ => NoStorage end
    else NoStorage
  | _ => NoStorage
  end.

(** The act writes these bytes to this item (whether or not it is acknowledged) *)
Definition writes (a : act) (i : Z) (b : list Z) : Prop :=
  match a with
  | ARequest sub cmd d _ _ => storage_of sub cmd d = Writes i b
  | ASpawn sub cmd d => storage_of sub cmd d = Writes i b
  | _ => False
  end.
Definition acknowledged (a : act) : Prop :=
  match a with ARequest _ _ _ _ (Some (Ok _)) => True | _ => False end.
(** The act leaves the configuration alone: no reset, no write, no creation of an item *)
Definition harmless (a : act) : Prop :=
  match a with
  | ARequest sub cmd d _ _ | ASpawn sub cmd d =>
    match storage_of sub cmd d with Reads _ | NoStorage => True | _ => False end
  | _ => True
  end.

(** Everything requested was written and acknowledged, then the marker *)
Definition initialised (v : firmware) (o : options) (tr : list act) : Prop :=
  exists pre a post, tr = pre ++ a :: post /\ acknowledged a /\ writes a (marker v) set_mark /\
    forall i b, In (i, b) (settings v o) -> exists w, In w pre /\ acknowledged w /\ writes w i b.

(** ** A stick that stores what is written *)
Definition store := Z -> option (list Z).
Definition stored (s : store) (i : Z) : list Z := match s i with Some b => b | None => [] end.
Definition put (s : store) (i : Z) (b : list Z) : store := fun j => if j =? i then Some b else s j.

(** One act on the stick's items.
    An acknowledged write stores its bytes; one that is not acknowledged may or may not.
    An item is created only if it is missing.
    A reset may change any item but sets no marker.
    A successful read tells what is stored: status 0 and the bytes, or status 2 and no bytes for a missing item. *)
Definition stick_act (s : store) (a : act) (s' : store) : Prop :=
  match a with
  | ARequest sub cmd d x r =>
    match storage_of sub cmd d with
    | Reads i => s' = s /\
        match r with
        | Some (Ok m) =>
            dict_get (z_payload m) "value" = Some (VBytes (stored s i)) /\
            status_of m = Some (VInt match s i with Some _ => 0 | None => 2 end)
        | _ => True
        end
    | Writes i b => match r with Some (Ok _) => s' = put s i b | _ => s' = s \/ s' = put s i b end
    | Creates i b =>
        match s i with
        | Some _ => s' = s
        | None => match r with Some (Ok _) => s' = put s i b | _ => s' = s \/ s' = put s i b end
        end
    | ResetsStick => forall v, s' (marker v) = s (marker v) \/ s' (marker v) = None
    | NoStorage => s' = s
    end
  | _ => s' = s
  end.
Inductive stick : store -> list act -> store -> Prop :=
| stick_nil s : stick s [] s
| stick_cons s a s1 tr s2 : stick_act s a s1 -> stick s1 tr s2 -> stick s (a :: tr) s2.

(** ** What start compares *)
Definition marked (v : firmware) (s : store) : Prop := s (marker v) = Some set_mark.
Definition network_matches (o : options) (s : store) : Prop :=
  s 131 = Some (le2 (o_pan o)) /\ s 45 = Some (o_ext o).
Definition common_matches (v : firmware) (o : options) (s : store) : Prop :=
  marked v s /\ s 132 = Some (le4 (o_channels o)) /\ s 99 = Some (flag (o_distribute o)) /\ s 98 = Some (o_key o).
(** The whole stored configuration is the requested one *)
Definition config_matches (v : firmware) (o : options) (s : store) : Prop :=
  common_matches v o s /\ network_matches o s.
(** What makes start leave a stick alone: PAN id and extended PAN id are not enforced on Z-Stack 1.2, and not
    on Z-Stack 3 if the stored PAN id is FFFF *)
Definition accepted (v : firmware) (o : options) (s : store) : Prop :=
  common_matches v o s /\ (v = Stack12 \/ network_matches o s \/ s 131 = Some [255; 255]).

(** ** Endpoints and group *)
Definition required_endpoints : list Z := [1; 2; 3; 4; 5; 6; 8; 11; 110; 12; 13; 47; 242].
(** endpoint numbers registered by a run, in order *)
Definition registers (a : act) : list Z :=
  match a with
  | ARequest AF cmd d _ _ => if String.eqb cmd "register" then match int_of d "endpoint" with Some e => [e] | None => [] end else []
  | _ => []
  end.
Definition registered_by (tr : list act) : list Z := flat_map registers tr.
Definition list_of (d : payload) (k : string) : list Z := match dict_get d k with Some (VList l) => l | _ => [] end.
(** cluster counts are those of the lists *)
Definition true_counts (d : payload) : Prop :=
  dict_get d "appnuminclusters" = Some (VInt (Z.of_nat (length (list_of d "appinclusterlist")))) /\
  dict_get d "appnumoutclusters" = Some (VInt (Z.of_nat (length (list_of d "appoutclusterlist")))).

(** ** Configuration items *)
Definition item_fields (d : payload) (lenfield valuefield : string) (b : list Z) : Prop :=
  dict_get d valuefield = Some (VBytes b) /\ dict_get d lenfield = Some (VInt (Z.of_nat (length b))) /\
  Forall (fun z => 0 <= z < 256) b.
Definition storage_command (sub : subsystem) (cmd : string) : bool :=
  match sub with
  | SYS => existsb (String.eqb cmd) ["osalNvRead"; "osalNvWrite"; "osalNvItemInit"]
  | SAPI => existsb (String.eqb cmd) ["readConfiguration"; "writeConfiguration"]
  | _ => false
  end.
(** a read or a write names a requested setting (or the marker) with its bytes and their length, from
    offset 0; an item is created with a length that is that of its initial value *)
Definition item_well_formed (v : firmware) (o : options) (sub : subsystem) (cmd : string) (d : payload) : Prop :=
  storage_command sub cmd = true ->
  match storage_of sub cmd d with
  | Reads i => exists b, In (i, b) (settings v o ++ [(marker v, set_mark)]) /\ item_fields d "len" "value" b /\
                 dict_get d "offset" = Some (VInt 0)
  | Writes i b => In (i, b) (settings v o ++ [(marker v, set_mark)]) /\ item_fields d "len" "value" b /\
                 dict_get d "offset" = Some (VInt 0)
  | Creates i b => i = marker v /\ b <> set_mark /\ item_fields d "initlen" "initvalue" b /\ item_fields d "len" "initvalue" b
  | _ => False
  end.
Definition act_well_formed (v : firmware) (o : options) (a : act) : Prop :=
  match a with
  | ARequest sub cmd d _ _ | ASpawn sub cmd d => item_well_formed v o sub cmd d
  | _ => True
  end.

(** ** Coordinator state, group *)
Definition asks (sub : subsystem) (cmd : string) (d : payload) (a : act) : Prop :=
  match a with ARequest s c p _ _ => s = sub /\ c = cmd /\ p = d | _ => False end.
(** answers of completed requests [cmd] in a run *)
Definition answered (sub : subsystem) (cmd : string) (d : payload) (tr : list act) (r : zpi) : Prop :=
  exists x, In (ARequest sub cmd d x (Some (Ok r))) tr.
Definition requests_of (sub : subsystem) (cmd : string) (tr : list act) : list payload :=
  flat_map (fun a => match a with ARequest s c p _ _ => if sub_eqb s sub && String.eqb c cmd then [p] else [] | _ => [] end) tr.
(** an indication that the coordinator runs *)
Definition says_coordinator (r : zpi) : Prop :=
  z_type r = AREQ /\ z_sub r = ZDO /\ z_cmd r = "stateChangeInd" /\ dict_get (z_payload r) "state" = Some (VInt 9).
Definition awaited_in (tr : list act) (P : zpi -> Prop) : Prop := exists m r, In (AAwait m (Ok r)) tr /\ P r.

(** ** Endpoints the stick itself reports *)
(** an active endpoint list of the coordinator (network address 0) that contains [e] *)
Definition own_list (r : zpi) : Prop := int_of (z_payload r) "nwkaddr" = Some 0.
Definition reported_active (tr : list act) (e : Z) : Prop :=
  exists m r, In (AAwait m (Ok r)) tr /\ z_sub r = ZDO /\ z_cmd r = "activeEpRsp" /\ own_list r /\ In e (list_of (z_payload r) "activeeplist").
(** registrations of [e] that were acknowledged *)
Definition times_registered (tr : list act) (e : Z) : nat := count_occ Z.eq_dec (registered_by tr) e.

(** ** Network options *)
(** A network section as zigpy's schema returns it *)
Definition valid_config (c : nwk_config) : Prop :=
  (forall k, cf_key c = Some k -> length k = 16%nat /\ Forall (fun b => 0 <= b < 256) k) /\
  (forall p, cf_pan c = Some p -> 0 <= p < 65536) /\
  (forall e, cf_ext c = Some e -> length e = 8%nat /\ Forall (fun b => 0 <= b < 256) e) /\
  (forall m, cf_channels c = Some m -> 0 <= m < 4294967296).
(** [got] is the configured value, or the default if none (or a zero) is configured *)
Definition taken {A} (zero : A -> Prop) (configured : option A) (default got : A) : Prop :=
  match configured with
  | Some x => (~ zero x -> got = x) /\ (zero x -> got = default)
  | None => got = default
  end.

(** ** The course of an initialisation *)
(** What the acts of a run do to the configuration, in order; reading is left out *)
Definition change_of (a : act) : list storage :=
  match a with
  | ARequest sub cmd d _ _ | ASpawn sub cmd d =>
    match storage_of sub cmd d with Reads _ | NoStorage => [] | c => [c] end
  | _ => []
  end.
Definition changes (tr : list act) : list storage := flat_map change_of tr.
(** a change is made only after the one before was acknowledged *)
Definition in_turn (tr : list act) : Prop := forall pre a post, tr = pre ++ a :: post -> change_of a <> [] -> changes post <> [] -> acknowledged a.
(** Reset; ask for the stored network state to be cleared; reset, which makes the stick do so; the settings;
    the marker is created, then set *)
Definition script (v : firmware) (o : options) : list storage :=
  [ResetsStick; Writes 3 [2]; ResetsStick] ++
  map (fun x => Writes (fst x) (snd x)) (tl (settings v o)) ++
  [Creates (marker v) [0]; Writes (marker v) set_mark].
(** what a start that ends with a result has changed *)
Definition whole (v : firmware) (o : options) (r : start_result) : list storage :=
  match r with
  | Resumed => []
  | Reset => script v o
  | Restored => script v o ++ [Writes 132 (le4 (o_channels o))]
  end.
