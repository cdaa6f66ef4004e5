(** * SpecConfig: which device sections are accepted, and how the port is then opened (specification) *)
From Coq Require Import Permutation.
From Verif Require Import Base Life SpecLife Config.

(** A section says [v] for [k], or nothing. *)
Definition says (d : section) (k : string) (v : option cval) : Prop :=
  match v with Some x => In (k, x) d | None => forall x, ~ In (k, x) d end.
(** [path], [baudrate] and [flow] are what the section asks for. *)
Inductive asks_for (exists_ : string -> bool) (d : section) (path : string) : Z -> option string -> Prop :=
| asks_all b f pb pf :
    says d "path" (Some (CStr path)) -> path = "auto" \/ path <> "" /\ exists_ path = true ->
    says d "baudrate" pb -> (pb = None /\ b = 115200 \/ pb = Some (CInt b) \/ pb = Some (CBool true) /\ b = 1 \/ pb = Some (CBool false) /\ b = 0) ->
    says d "flow_control" pf -> ((pf = None \/ pf = Some CNone) /\ f = None \/ pf = Some (CStr "hardware") /\ f = Some "hardware"%string \/ pf = Some (CStr "software") /\ f = Some "software"%string) ->
    (forall k v, In (k, v) d -> In k ["path"; "baudrate"; "flow_control"]%string) ->
    asks_for exists_ d path b f.
