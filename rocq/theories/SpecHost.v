(** * SpecHost: vocabulary for a program that runs on the request machine *)
From Verif Require Import Base Types Uart Buffalo Zpi Api App Machine SpecWire SpecCodec SpecMachine Nv StartZnp SpecStart Host.

(** What the program did so far and which task did it; a request that is still awaited comes last, without an answer. *)
Definition doings {A} (h : host A) : list (Z * act) :=
  h_trace h ++ match h_place h with Requesting t sub cmd d x _ => [(t, ARequest sub cmd d x None)] | _ => [] end.
Definition acts {A} (h : host A) : list act := map snd (doings h).
(** How far the program got: it returned, raised, or is still running. *)
Definition ending {A} (h : host A) : fin A :=
  match h_place h with Ready (DRet a) => Returned a | Ready (DRaise e) => Raised e | _ => Interrupted end.

(** In the history [l] task [t] wrote the frame of the command [cmd] with the arguments [d], and before it let go of the
    link the message [m] was received, which is the response to it (or, for a reset command, the reset indication). *)
Definition exchanged (t : Z) (sub : subsystem) (cmd : string) (d : payload) (m : zpi) (l : list obs) : Prop :=
  exists o at_ bs lb, from_command sub cmd d = Ok o /\ frame_bytes o bs /\ outstanding t at_ bs lb l /\ In (OReceived m) lb /\
    (z_type o = SREQ /\ response_to o m \/
     z_type o = AREQ /\ resets o /\ z_type m = AREQ /\ z_sub m = SYS /\ z_cmd m = "resetInd").

(** [t] is one of the tasks that the program started. *)
Definition started {A} (h : host A) (t : Z) : Prop := In t (map fst (doings h)).

(** The frames that store [b] in item [i]: osalNvWrite (item, offset 0, length, bytes) and writeConfiguration
    (item, length, bytes). *)
Definition item_frames (i : Z) (b : list Z) : list (list Z) :=
  [wire 1 1 9 (le2 i ++ [0; Z.of_nat (length b)] ++ b); wire 1 6 5 ([i; Z.of_nat (length b)] ++ b)].
(** Type, subsystem and number of the commands that change the stick: osalNvItemInit, osalNvWrite, writeConfiguration,
    resetReq *)
Definition changing : list (Z * Z * Z) := [(1, 1, 7); (1, 1, 9); (1, 6, 5); (2, 1, 0)].
(** The stick reports that it stored an item. *)
Definition stored_ok (m : zpi) : Prop :=
  z_type m = SRSP /\ (z_sub m = SYS /\ z_cmd m = "osalNvWrite" \/ z_sub m = SAPI /\ z_cmd m = "writeConfiguration") /\
  dict_get (z_payload m) "status" = Some (VInt 0).
