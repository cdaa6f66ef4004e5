(** * SpecWholeFail: why a start-up fails *)
From Verif Require Import Base Types Uart Buffalo CmdTable Zpi Api App Machine Life World Nv StartZnp AppStart SpecStart Host SpecHost Whole SpecWhole SpecAppStart.

(** The start-up fails with [e] because of this act, its last one:
    a request failed (a refused ping is reported by a general exception);
    a wait failed (while the network is formed that too is reported by a general exception, unless cancelled);
    the wait for the list of endpoints was ended by a message that is no such list;
    the product that the stick reports is not known. *)
Definition failed (y : act) (e : exn) : Prop :=
  match y with
  | ARequest sub cmd d _ (Some (Err e')) =>
      match e' with
      | CommandError _ => if sub_eqb sub SYS && String.eqb cmd "ping" then e = GenericException else e = e'
      | _ => e = e'
      end
  | AAwait m (Err e') => e = e' \/ e = GenericException /\ e' <> CancelledError /\ m_cmd m = "stateChangeInd"
  | AAwait m (Ok r) => e = KeyError /\ m_cmd m = "activeEpRsp" /\ waiter_match m r <> Ok true
  | ARequest sub cmd d _ (Some (Ok m)) =>
      e = ValueError /\ sub = SYS /\ cmd = "version" /\ exists p, dict_get (z_payload m) "product" = Some (VInt p) /\ ~ SpecAppStart.known_product p
  | _ => False
  end.
(** This act got what it was for: the request was answered, the wait ended with what was awaited, the product is known. *)
Definition fulfilled (y : act) : Prop :=
  match y with
  | ARequest _ _ _ _ (Some (Err _)) => False
  | ARequest sub cmd d _ (Some (Ok m)) => sub = SYS -> cmd = "version" -> exists v, dict_get (z_payload m) "product" = Some (VInt (version_of v))
  | AAwait m r => exists z, r = Ok z /\ waiter_match m z = Ok true
  | _ => True
  end.

(** ** A failure ends a start-up *)
(** the request or the wait failed *)
Definition went_wrong (y : act) : bool := match y with ARequest _ _ _ _ (Some (Err _)) | AAwait _ (Err _) => true | _ => false end.
(** reading the mark that the stick was configured was refused, after ping and version ([before]): it is not configured *)
Definition unmarked (before : list deed) (y : act) : Prop :=
  length before = 2%nat /\
  exists v d code, y = ARequest SYS "osalNvRead" d [0; 2] (Some (Err (CommandError code))) /\ int_of d "id" = Some (marker v).
