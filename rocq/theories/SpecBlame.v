(** * SpecBlame: why an operation or a wait ends with an exception *)
From Verif Require Import Base Types Uart Buffalo Zpi Api App Machine SpecApi SpecMachine SpecFirst.

(** [r] is the message that the sender of [o] waits for. *)
Definition reply_to (o r : zpi) : Prop :=
  z_type o = SREQ /\ response_to o r \/ z_type o = AREQ /\ resets o /\ reset_ind r.
(** How long they wait for it, in ms. *)
Definition patience (o : zpi) : Z :=
  match z_type o with
  | SREQ => if String.eqb (z_cmd o) "bdbStartCommissioning" || String.eqb (z_cmd o) "startupFromApp" then 20000 else 6000
  | _ => 30000
  end.
(** At this moment the frame of [t] is out, it has been out for so long, and no answer to it has been received since. *)
Definition silence (t : Z) (o : zpi) (s : st) : Prop :=
  exists la lb at_ bs, s_log s = la ++ OWritten t at_ bs :: lb /\ ~ In (OFreed t) lb /\ frame_bytes o bs /\
    at_ + patience o <= s_now s /\ forall r, In (OReceived r) lb -> ~ reply_to o r.
(** At this moment [t] has been waiting, with wait_for, for a message that answers [m] for the [timeout] it gave; every such message
    received since was taken by the reply waiter of some request. *)
Definition unheard (t : Z) (m : matcher) (timeout : Z) (s : st) : Prop :=
  exists la lb i at_ k x, s_log s = la ++ ORegistered i at_ timeout :: lb /\ get s t = Some k /\
    (t_phase k = PReg i x \/ t_phase k = PAwait i x) /\ at_ + timeout <= s_now s /\
    forall r, In (OReceived r) lb -> answers m r -> exists t' k' i', get s t' = Some k' /\ t_wid k' = Some i' /\ In (OCompleted i' r) lb.
(** At some moment of the run [es] from [s0]. *)
Definition at_some_time (P : st -> Prop) (es : list event) (s0 : st) : Prop :=
  exists es1 es2, es = es1 ++ es2 /\ P (run es1 s0).

(** The job cannot be put into a frame. *)
Definition unsendable (j : job) (e : exn) : Prop :=
  build j = Err e \/
  exists o, build j = Ok o /\
    (response_waiter j o = Err e \/ to_unpi_frame o = Err e \/ (exists f, to_unpi_frame o = Ok f /\ to_buffer f = Err e) \/
     z_type o <> SREQ /\ z_type o <> AREQ /\ e = GenericException).
(** A response received while the frame of [t] was out has the status [c], which was not expected. *)
Definition refusal (j : job) (t : Z) (l : list obs) (c : Z) : Prop :=
  exists o at_ bs lb r, build j = Ok o /\ z_type o = SREQ /\ frame_bytes o bs /\ outstanding t at_ bs lb l /\
    In (OReceived r) lb /\ response_to o r /\ status_of r = Some (VInt c) /\ ~ expects j c.

(** Why the operation [j], task [t], raises [e] in the run [es] from [s0] that leaves the history [l]. *)
Inductive blamed (es : list event) (s0 : st) (l : list obs) (t : Z) (j : job) : exn -> Prop :=
| B_cancelled : In (ECancel t) es -> blamed es s0 l t j CancelledError
| B_unsendable e : unsendable j e -> blamed es s0 l t j e
| B_closed : In EClose es -> blamed es s0 l t j AttributeError
| B_silence o : build j = Ok o -> at_some_time (silence t o) es s0 -> blamed es s0 l t j TimeoutError
| B_refused c : refusal j t l c -> blamed es s0 l t j (CommandError c)
| B_lost c o mq : refusal j t l c -> build j = Ok o -> response_waiter j o = Ok (Some mq) -> blamed es s0 l t j KeyError.
