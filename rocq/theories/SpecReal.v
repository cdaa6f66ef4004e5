(** * SpecReal: what a stick can send, as answers to a program *)
From Verif Require Import Base Types Uart Buffalo Zpi Api App Machine SpecWire SpecCodec SpecMachine Nv StartZnp SpecStart Host SpecHost.

(** [m] is what a frame of the wire says that has a payload.  (A frame without payload is handed over only when the next
    byte comes in.) *)
Definition deliverable (m : zpi) : Prop := exists f, sendable f /\ f_data f <> [] /\ from_unpi_frame (received f) = Ok m.
(** [m] is a message of the stick that answers the command [cmd]: its response, or the reset indication for a reset. *)
Definition replies (sub : subsystem) (cmd : string) (d : payload) (m : zpi) : Prop :=
  deliverable m /\ exists o, from_command sub cmd d = Ok o /\
    (z_type o = SREQ /\ response_to o m \/
     z_type o = AREQ /\ resets o /\ z_type m = AREQ /\ z_sub m = SYS /\ z_cmd m = "resetInd").
(** The stick, or nobody at all, can bring this about: an answer, a refusal, silence until the time is over; and the caller
    can cancel. *)
Definition can_come (a : act) : Prop :=
  match a with
  | ARequest sub cmd d x (Some (Ok m)) => replies sub cmd d m
  | ARequest sub cmd d x (Some (Err (CommandError c))) =>
      exists m, replies sub cmd d m /\ z_type m = SRSP /\ status_of m = Some (VInt c) /\ ~ In c x
  | ARequest _ _ _ _ (Some (Err e)) => e = TimeoutError \/ e = CancelledError
  | AAwait _ (Ok m) => deliverable m
  | AAwait _ (Err e) => e = TimeoutError \/ e = CancelledError
  | ARequest _ _ _ _ None | AListen _ _ | ASpawn _ _ _ => True
  end.
(** The port is open and nothing is going on. *)
Definition at_rest (s : st) : Prop := s_open s = true /\ s_lock s = None /\ s_queue s = [] /\ s_buf s = [] /\ s_waiters s = [].
