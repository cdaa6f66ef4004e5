(** * SpecFirst: which message decides an operation *)
From Verif Require Import Base Types Buffalo Zpi Api App Machine SpecMachine.

(** What the coroutines wait for with wait_for are fields that the messages received so far have. *)
Definition fields_exist (s : st) : Prop :=
  forall t k m to r, get s t = Some k -> t_job k = JWaitFor m to -> In (OReceived r) (s_log s) -> has_fields m r.

(** [r] is the first message received in [lb] that satisfies [P]; [before] came before it. *)
Definition first_in (P : zpi -> Prop) (r : zpi) (lb : list obs) : Prop :=
  exists before after, lb = before ++ OReceived r :: after /\ P r /\ forall r', In (OReceived r') before -> ~ P r'.

(** The operation ended otherwise than by a time-out, a cancellation or a refusal to send. *)
Definition by_answer (out : outcome) : Prop :=
  match out with ORet _ | OStatus _ => True | OExn (CommandError _) => True | _ => False end.

(** What the answer [r] to the operation [j] makes it return or raise. *)
Definition tells (j : job) (r : zpi) (out : outcome) : Prop :=
  (exists c, status_of r = Some (VInt c) /\ ~ expects j c /\ out = reported j c) \/
  ((forall v, status_of r = Some v -> exists c, v = VInt c /\ expects j c) /\
   out = match j with
         | JRequest _ _ _ _ _ _ _ _ | JMulticast _ _ _ _ _ _ | JBroadcast _ _ _ _ _ _ _ _ => OStatus 0
         | JPermit _ => ORet None
         | _ => ORet (Some r)
         end).
(** The stick's announcement that it has been reset. *)
Definition reset_ind (r : zpi) : Prop := z_type r = AREQ /\ z_sub r = SYS /\ z_cmd r = "resetInd"%string.
