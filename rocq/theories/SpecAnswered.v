(** * SpecAnswered: acts of a start-up that the stick serves, whatever happens to ports *)
From Verif Require Import Base Types Uart Buffalo CmdTable Zpi Api App Life Machine World SpecMachine SpecBlame SpecWorldBlame Nv StartZnp AppStart SpecStart SpecAppStart Host Whole SpecWhole SpecWholeBlame.

(** As [xserved] of SpecWholeBlame, but nothing is said about ports: the act is not cancelled; its frame does not stay unanswered for the
    time limit and is not refused; the wait does not last for its time limit without what is awaited and is not ended by the refusal of an
    operation; the product is known. *)
Definition answered (es : list wevent) (w0 w : world) (a : nat) (t : Z) (y : act) : Prop :=
  ~ In (VTaskCancel a t) es /\
  match y with
  | ARequest sub cmd d x r =>
      (forall o, from_command sub cmd d = Ok o -> ~ once (on_link a (silence t o)) es w0) /\ (forall c, ~ refusal (JCommand sub cmd d x) t (history w a) c) /\
      (cmd = "version" -> forall m p, r = Some (Ok m) -> dict_get (z_payload m) "product" = Some (VInt p) -> SpecAppStart.known_product p)
  | AAwait m r =>
      (forall to, ~ once (wunheard a t m to) es w0) /\ (forall z, r = Ok z -> ~ on_link a (fun s => refused_by s z) w)
  | _ => True
  end.
