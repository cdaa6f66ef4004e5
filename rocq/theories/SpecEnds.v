(** * SpecEnds: rounds for a program on the request machine, and programs that end *)
From Verif Require Import Base Types Uart Buffalo Zpi Api App Machine SpecMachine SpecProgress Nv StartZnp SpecStart Host SpecHost.

(** [hevent]s without the steps of the program *)
Definition env_of (es : list hevent) : list event := flat_map (fun e => match e with HEnv e => [e] | HGo => [] end) es.
(** At least [T] ms pass, then each of [ids] gets the chance to notice that its time is up and after this the chance to
    go on, and the program gets the chance to go on.  Anything else may happen meanwhile. *)
Definition host_serving (T : Z) (ids : list Z) (r : list hevent) : Prop :=
  In HGo r /\ exists a b, r = a ++ b /\ T <= elapsed (env_of a) /\
    forall t, In t ids -> exists b1 b2 b3, b = b1 ++ HEnv (ETimeout t) :: b2 ++ HEnv (ERun t) :: b3.
(** rounds from [h] on, each serving the operations that are unfinished when it begins *)
Fixpoint host_rounds {A} (T : Z) (h : host A) (rs : list (list hevent)) : Prop :=
  match rs with
  | [] => True
  | r :: rest => host_serving T (pending (s_log (h_st h))) r /\ host_rounds T (hrun r h) rest
  end.

(** [p] makes at most [n] steps whatever comes back, and awaits only the waiters [ws] and those that it made itself. *)
Inductive fits {A} : list (matcher * Z) -> nat -> prog A -> Prop :=
| fits_ret ws n a : fits ws n (DRet a)
| fits_raise ws n e : fits ws n (DRaise e)
| fits_request ws n sub cmd d x k : (forall r, fits ws n (k r)) -> fits ws (S n) (DRequest sub cmd d x k)
| fits_listen ws n m t k : fits ((m, t) :: ws) n (k (m, t)) -> fits ws (S n) (DListen m t k)
| fits_await ws n w k : In w ws -> (forall r, fits ws n (k r)) -> fits ws (S n) (DAwait w k)
| fits_spawn ws n sub cmd d k : fits ws n k -> fits ws (S n) (DSpawn sub cmd d k).
(** The requests of [p] are such that an answer belongs to them. *)
Definition expects_answers {A} (p : prog A) : Prop :=
  forall tr f sub cmd d x r, runs p tr f -> In (ARequest sub cmd d x r) tr ->
  forall z, from_command sub cmd d = Ok z -> z_type z = SREQ \/ z_type z = AREQ /\ resets z.

(** The events of the machine behind those of a program that runs on it: the calls and first steps that it makes, and everything else that
    happens. *)
Definition flat1 {A} (h : host A) (e : hevent) : list event :=
  match e with
  | HEnv e => [e]
  | HGo =>
    match h_place h with
    | Ready (DRequest sub cmd d x _) => [ECall (JCommand sub cmd d x)]
    | Ready (DListen m to _) => [ECall (JWaitFor m to); ERun (s_ntid (h_st h))]
    | Ready (DAwait w _) => match object w (h_waiters h) with Some t => [ERun t] | None => [] end
    | Ready (DSpawn sub cmd d _) => [ECall (JCommand sub cmd d [0])]
    | _ => []
    end
  end.
Fixpoint flat {A} (h : host A) (es : list hevent) : list event :=
  match es with [] => [] | e :: es => flat1 h e ++ flat (hstep e h) es end.
