(** * SpecWholeBlame: why a start-up fails, down to its link, when connections are lost and made again *)
From Verif Require Import Base Types Uart Buffalo Zpi Api App Machine Life World SpecApi SpecMachine SpecFirst SpecBlame SpecWorld SpecWorldBlame
  Nv StartZnp SpecStart Host SpecHost AppStart SpecAppStart Whole SpecWhole SpecWholeFail.

(** Why the request [j], task [t] of API object [a], of a start-up raises [e] in the run [es] from [w0] that leaves the history [l] of that
    API object: it was cancelled; the API object had no port; its frame was not answered in time; it was refused. *)
Inductive xlet_down (es : list wevent) (w0 : world) (a : nat) (l : list obs) (t : Z) (j : job) : exn -> Prop :=
| K_cancelled : In (VTaskCancel a t) es -> xlet_down es w0 a l t j CancelledError
| K_closed : some_step (ends_shut a t) es w0 -> xlet_down es w0 a l t j AttributeError
| K_silence o : build j = Ok o -> once (on_link a (silence t o)) es w0 -> xlet_down es w0 a l t j TimeoutError
| K_refused c : refusal j t l c -> xlet_down es w0 a l t j (CommandError c).
(** Why its wait for [m] of [to] ms raises [e]: it was cancelled, or nothing came in time. *)
Inductive xlet_wait (es : list wevent) (w0 : world) (a : nat) (t : Z) (m : matcher) (to : Z) : exn -> Prop :=
| K_wait_cancelled : In (VTaskCancel a t) es -> xlet_wait es w0 a t m to CancelledError
| K_unheard : once (wunheard a t m to) es w0 -> xlet_wait es w0 a t m to TimeoutError.
(** The message [r] refused a request of an operation on API object [s] that has a reply waiter, [i]. *)
Definition refused_by (s : st) (r : zpi) : Prop :=
  exists u k obj i c, get s u = Some k /\ t_job k = JRaw obj [0] /\ t_wid k = Some i /\ status_of r = Some (VInt c) /\ c <> 0 /\
    In (OEnded u (OExn (CommandError c))) (s_log s).
(** Why the act [y], task [t] of API object [a], failed; [w] is where the run ends. *)
Definition xlet_act (es : list wevent) (w0 w : world) (a : nat) (t : Z) (y : act) : Prop :=
  on_link a (fun s => exists k, get s t = Some k /\
    match y with
    | ARequest sub cmd d x (Some (Err e)) => t_job k = JCommand sub cmd d x /\ xlet_down es w0 a (s_log s) t (JCommand sub cmd d x) e
    | AAwait m (Err e) => exists to, t_job k = JWaitFor m to /\ xlet_wait es w0 a t m to e
    | AAwait m (Ok r) => In (OReceived r) (s_log s) /\ refused_by s r
    | ARequest sub cmd d x (Some (Ok m)) => exists p, dict_get (z_payload m) "product" = Some (VInt p) /\ ~ SpecAppStart.known_product p
    | _ => False
    end) w.

(** In the run [es] from [w0] to [w], the act [y], task [t] of API object [a], is not let down: it is not cancelled and its API object
    does not lose its port before it ends; its frame does not stay unanswered for the time limit and is not refused; the wait does not
    last for its time limit without what is awaited and is not ended by the refusal of an operation; the product is known. *)
Definition xserved (es : list wevent) (w0 w : world) (a : nat) (t : Z) (y : act) : Prop :=
  ~ In (VTaskCancel a t) es /\
  match y with
  | ARequest sub cmd d x r =>
      ~ some_step (ends_shut a t) es w0 /\
      (forall o, from_command sub cmd d = Ok o -> ~ once (on_link a (silence t o)) es w0) /\ (forall c, ~ refusal (JCommand sub cmd d x) t (history w a) c) /\
      (cmd = "version" -> forall m p, r = Some (Ok m) -> dict_get (z_payload m) "product" = Some (VInt p) -> SpecAppStart.known_product p)
  | AAwait m r =>
      (forall to, ~ once (wunheard a t m to) es w0) /\ (forall z, r = Ok z -> ~ on_link a (fun s => refused_by s z) w)
  | _ => True
  end.
