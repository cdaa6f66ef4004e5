(** * PropsTurn: the turn of a coroutine that waits (C153) *)
From Verif Require Import Base Types Uart Buffalo CmdTable Zpi Api App Machine Life World SpecWire SpecCodec SpecMachine SpecLife SpecWorld
  Nv StartZnp AppStart SpecStart SpecAppStart Host SpecHost Whole SpecWhole PropsApp PropsMachine PropsStart PropsHost PropsAppStart PropsWorld PropsWhole
  SpecTurn TurnProofs.

(** ** C153.  Cancelled while it waits - before it begins, between two attempts, or while the port settles - a start-up or a
    reconnect loop ends there and then with that error and touches nothing else: no link, no other coroutine, no attempt noted.
    It stays ended, whatever happens later. *)
Theorem C153_cancelled : forall c x t s, stage_of (x_world x) t = Some s -> waiting s ->
  let y := whole_step c (turn t (Err CancelledError)) x in
  stage_of (x_world y) t = Some (KEnd (Err CancelledError)) /\ (forall u, u <> t -> stage_of (x_world y) u = stage_of (x_world x) u) /\
  y_gws (old y) = y_gws (old x) /\ y_apis (old y) = y_apis (old x) /\ y_cur (old y) = y_cur (old x) /\ x_log y = x_log x.
Proof. exact cancelled_at_rest. Qed.
Print Assumptions C153_cancelled.
Theorem C153_for_good : forall c es x t s, xreachable c x -> stage_of (x_world x) t = Some s -> waiting s ->
  stage_of (x_world (whole_run c es (whole_step c (turn t (Err CancelledError)) x))) t = Some (KEnd (Err CancelledError)).
Proof. exact cancelled_for_good. Qed.
Print Assumptions C153_for_good.

(** Not cancelled, it does nothing before its time ... *)
Theorem C153_not_before : forall c x t s r, stage_of (x_world x) t = Some s -> s = KSleep \/ (exists a g, s = KSettle a g) -> r <> Err CancelledError ->
  w_now (x_world x) < x_until x t -> whole_step c (turn t r) x = x.
Proof. exact not_before. Qed.
Print Assumptions C153_not_before.

(** ... and after the sleep its turn is one attempt, noted with the time: if the port opens there is one more gateway, open, and the
    port has SETTLE_MS to settle; if not, there is none. *)
Theorem C153_then : forall c x t r, stage_of (x_world x) t = Some KSleep -> r <> Err CancelledError -> x_until x t <= w_now (x_world x) ->
  let y := whole_step c (turn t r) x in
  x_log y = x_log x ++ [XTries t (w_now (x_world x))] /\
  match r with
  | Ok _ => stage_of (x_world y) t = Some (KSettle (length (y_apis (old x))) (length (y_gws (old x)))) /\
            y_gws (old y) = y_gws (old x) ++ [mk_gateway true true false (length (y_apis (old x)))] /\ x_until y t = w_now (x_world x) + SETTLE_MS
  | Err _ => length (y_gws (old y)) = length (y_gws (old x))
  end.
Proof. exact sleep_over. Qed.
Print Assumptions C153_then.

(** The reconnect loop whose attempt was refused at 7000 ms sleeps until 12000 ms. *)
Definition lit_asleep : whole := lit_refused.
Definition lit_awake : whole := whole_run lit_net [XWorld (VTick 6000)] lit_refused.
Example C153_inhabited :
  stage_of (x_world lit_asleep) 1 = Some KSleep /\ (w_now (x_world lit_asleep), x_until lit_asleep 1) = (7000, 12000) /\
  length (x_log (whole_step lit_net (turn 1 (Ok tt)) lit_asleep)) = length (x_log lit_asleep) /\
  stage_of (x_world (whole_step lit_net (turn 1 (Err CancelledError)) lit_asleep)) 1 = Some (KEnd (Err CancelledError)) /\
  stage_of (x_world lit_awake) 1 = Some KSleep /\
  stage_of (x_world (whole_step lit_net (turn 1 (Ok tt)) lit_awake)) 1 = Some (KSettle 2 2) /\
  stage_of (x_world (whole_step lit_net (turn 1 (Err SerialException)) lit_awake)) 1 = Some KSleep.
Proof. vm_compute. repeat split; reflexivity. Qed.
