(** * SpecHostBlame: why a start-up on the request machine fails, and when it succeeds *)
From Verif Require Import Base Types Uart Buffalo Zpi Api App Machine SpecApi SpecMachine SpecFirst SpecBlame Nv StartZnp SpecStart Host SpecHost SpecEnds AppStart SpecAppStart
  Whole SpecWhole SpecWholeFail.

(** Why the request [j], task [t], of a start-up raises [e] in the run [es] from [s0] that leaves the history [l]: it was cancelled; the
    port was closed; its frame was not answered in time; it was refused. *)
Inductive let_down (es : list event) (s0 : st) (l : list obs) (t : Z) (j : job) : exn -> Prop :=
| D_cancelled : In (ECancel t) es -> let_down es s0 l t j CancelledError
| D_closed : In EClose es -> let_down es s0 l t j AttributeError
| D_silence o : build j = Ok o -> at_some_time (silence t o) es s0 -> let_down es s0 l t j TimeoutError
| D_refused c : refusal j t l c -> let_down es s0 l t j (CommandError c).
(** Why its wait for [m] of [to] ms, task [t], raises [e]: it was cancelled, or nothing came in time. *)
Inductive let_wait (es : list event) (s0 : st) (t : Z) (m : matcher) (to : Z) : exn -> Prop :=
| D_waiter_cancelled : In (ECancel t) es -> let_wait es s0 t m to CancelledError
| D_unheard : at_some_time (unheard t m to) es s0 -> let_wait es s0 t m to TimeoutError.
(** Why the act [y] of task [t] failed; the acts of the start-up are [ds]. *)
Definition let_act (es : list event) (s0 : st) (l : list obs) (ds : list (Z * act)) (t : Z) (y : act) : Prop :=
  match y with
  | ARequest sub cmd d x (Some (Err e)) => let_down es s0 l t (JCommand sub cmd d x) e
  | AAwait m (Err e) => exists to, In (t, AListen m to) ds /\ let_wait es s0 t m to e
  | ARequest sub cmd d x (Some (Ok m)) => exists p, dict_get (z_payload m) "product" = Some (VInt p) /\ ~ SpecAppStart.known_product p
  | _ => False
  end.

(** In the run [es] from [s0] that leaves the history [l], the stick works for a start-up that does [ds]: nothing of the start-up is
    cancelled and the port is not closed; no frame of its requests stays unanswered for the time limit and none is refused; no wait lasts
    for its time limit without what is awaited; the product is known. *)
Definition works_for (es : list event) (s0 : st) (l : list obs) (ds : list (Z * act)) : Prop :=
  ~ In EClose es /\
  forall t y, In (t, y) ds -> ~ In (ECancel t) es /\
    match y with
    | ARequest sub cmd d x r =>
        (forall o, from_command sub cmd d = Ok o -> ~ at_some_time (silence t o) es s0) /\ (forall c, ~ refusal (JCommand sub cmd d x) t l c) /\
        (cmd = "version" -> forall m p, r = Some (Ok m) -> dict_get (z_payload m) "product" = Some (VInt p) -> SpecAppStart.known_product p)
    | AListen m to => ~ at_some_time (unheard t m to) es s0
    | _ => True
    end.
