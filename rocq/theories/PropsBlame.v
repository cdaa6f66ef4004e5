(** * PropsBlame: property C142, why an operation or a wait ends with an exception *)
From Verif Require Import Base Types Uart Buffalo CmdTable Zpi Api App Machine SpecWire SpecMachine SpecFirst SpecBlame PropsApp PropsMachine PropsMachine2 MachineBlame.

(** ** C142.  An operation that raises was cancelled; or cannot be put into a frame; or the port was closed; or at some moment its frame
    had been out for the time limit and no answer had been received; or the answer refused it. *)
Theorem C142_operation_exceptions : forall cap v d a es t k x, 0 <= cap ->
  let s0 := init cap v d a in let s := run es s0 in fields_exist s -> get s t = Some k ->
  (forall m to, t_job k <> JWaitFor m to) -> In (OEnded t (OExn x)) (s_log s) -> blamed es s0 (s_log s) t (t_job k) x.
Proof. exact operation_blamed. Qed.
Print Assumptions C142_operation_exceptions.
(** A wait that raises was cancelled; or at some moment it had lasted for its time limit and every message of that kind received since it
    began had been taken by the reply waiter of a request. *)
Theorem C142_wait_exceptions : forall cap v d a es t k m to x, 0 <= cap ->
  let s0 := init cap v d a in let s := run es s0 in fields_exist s -> get s t = Some k ->
  t_job k = JWaitFor m to -> 0 < to -> In (OEnded t (OExn x)) (s_log s) ->
  x = CancelledError /\ In (ECancel t) es \/ x = TimeoutError /\ at_some_time (unheard t m to) es s0.
Proof. exact wait_blamed. Qed.
Print Assumptions C142_wait_exceptions.

(** Everything goes wrong.  0: the reply comes before the refusal, which then finds no reply waiter; 1: waits for the message that 0 is
    given; 2: a ping without an answer; 3: a ping that is cancelled; 4: a command that does not exist; 5: a command that is refused;
    6: a ping after the port was closed. *)
Definition lit_await : job := JWaitFor (mk_matcher AREQ ZDO "nodeDescRsp" []) 1000.
Definition lit_query : job := JCommand ZDO "nodeDescReq" [("dstaddr", VInt 4660); ("nwkaddrofinterest", VInt 4660)] [0].
Definition lit_trouble : list event :=
  [ECall (lit_desc_req 7); ERun 0; ECall lit_await; ERun 1; ERun 1; lit_got lit_desc; lit_got lit_denied; ERun 0;
   ECall lit_ping; ERun 2; ETick 6000; ETimeout 2; ETimeout 1; ECall lit_ping; ERun 3; ECancel 3;
   ECall (JCommand SYS "reboot" [] [0]); ERun 4; ECall lit_query; ERun 5; lit_got lit_denied; ERun 5; EClose; ECall lit_ping; ERun 6].

(** Nobody waits for a message with particular parameters. *)
Definition bare (s : st) : bool :=
  forallb (fun x => match t_job (snd x) with JWaitFor m _ => match m_payload m with [] => true | _ => false end | _ => true end) (s_tasks s).
Lemma bare_fields s : bare s = true -> fields_exist s.
Proof.
  unfold bare, fields_exist, get. intros B t k m to r G Hj _. induction (s_tasks s) as [|[u k1] l IH]; [discriminate G|].
  cbn [forallb snd] in B. apply andb_true_iff in B. destruct B as [B1 B2]. cbn [assoc] in G. destruct (u =? t); [|exact (IH B2 G)].
  injection G as ->. rewrite Hj in B1. intros _ _ _. destruct (m_payload m) as [|x rest]; [constructor|discriminate B1].
Qed.
Example C142_inhabited : let s := run lit_trouble lit_start in
  fields_exist s /\
  map (fun x => (fst x, t_job (snd x))) (s_tasks s) =
    [(0, lit_desc_req 7); (1, lit_await); (2, lit_ping); (3, lit_ping); (4, JCommand SYS "reboot" [] [0]); (5, lit_query); (6, lit_ping)] /\
  filter (fun o => match o with OEnded _ _ => true | _ => false end) (s_log s) =
    [OEnded 0 (OExn KeyError); OEnded 2 (OExn TimeoutError); OEnded 1 (OExn TimeoutError); OEnded 3 (OExn CancelledError);
     OEnded 4 (OExn RuntimeError); OEnded 5 (OExn (CommandError 194)); OEnded 6 (OExn AttributeError)].
Proof. cbv zeta. split; [apply bare_fields; vm_compute; reflexivity|]. split; vm_compute; reflexivity. Qed.
