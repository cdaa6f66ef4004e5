(** * PropsWorldBlame: property C144, why a request, a wait or an operation ends with an exception, across losses of the connection *)
From Verif Require Import Base Types Uart Buffalo CmdTable Zpi Api App Machine Life World SpecWire SpecApi SpecMachine SpecFirst SpecBlame SpecWorld SpecWorldBlame
  PropsApp PropsMachine PropsBlame PropsWorld WorldBlame2 WorldBlame3.

(** ** C144.  A request of any API object that raises was cancelled, itself or with the operation that awaited it; or cannot be put into a
    frame; or in the step in which it ends its API object had no port; or at some moment its frame had been out for the time limit and
    that API object had received no answer; or the answer refused it. *)
Theorem C144_request_exceptions : forall devs es a s t k x, let w := world_run es (world_init devs) in
  wfields_exist w -> nth_error (w_apis w) a = Some s -> get s t = Some k -> (forall m to, t_job k <> JWaitFor m to) ->
  In (OEnded t (OExn x)) (s_log s) -> wblamed es (world_init devs) a (s_log s) t k x.
Proof. exact wtask_blamed. Qed.
Print Assumptions C144_request_exceptions.
(** A wait that raises was cancelled; or had lasted for its time limit and every message of that kind that its API object received since it
    began had been taken by the reply waiter of an operation. *)
Theorem C144_wait_exceptions : forall devs es a s t k m to x, let w := world_run es (world_init devs) in
  wfields_exist w -> nth_error (w_apis w) a = Some s -> get s t = Some k -> t_job k = JWaitFor m to -> 0 < to ->
  In (OEnded t (OExn x)) (s_log s) ->
  x = CancelledError /\ In (VTaskCancel a t) es \/ x = TimeoutError /\ once (wunheard a t m to) es (world_init devs).
Proof. exact wwait_blamed. Qed.
Print Assumptions C144_wait_exceptions.
(** An operation of the application that raises was cancelled; or cannot be put into a frame; or found no semaphore or no API object; or
    passes on the exception of the request it made, which is a refusal for permit_ncp only. *)
Theorem C144_operation_exceptions : forall devs es n o x, let w := world_run es (world_init devs) in
  wfields_exist w -> the_op w n = Some o -> In (WEnded n (OExn x)) (w_log w) -> op_blamed es (world_init devs) w n o x.
Proof. exact wop_blamed. Qed.
Print Assumptions C144_operation_exceptions.

(** Everything goes wrong.  0: called before the version is known; 1: a command that does not exist; 2: the reply comes before the refusal,
    which then finds no reply waiter; 3: no answer; 4: cancelled while its frame is out; 5: permit join, refused; 6: behind 5, when the stick
    is lost.  On the API object: a wait for the message that 2 is given, a ping that is cancelled, a ping after the loss. *)
Definition lit_refused : frame := lit_frame SRSP ZDO 54 [194].
Definition lit_wrong : list wevent :=
  [VLife (VStartup (Ok tt)); VLife (VGo 0 (Ok tt)); VCall (lit_send 1); VRun 0; VGotVersion 0 0; VLife (VGo 0 (Ok tt));
   VCall (JRequest 4660 0 999 0 0 2 [2] true); VRun 1;
   VCall (lit_desc_req 7); VRun 2; VApiCall 0 lit_await; VTask 0 1; VTask 0 1; lit_from 0 lit_desc; lit_from 0 lit_denied; VTask 0 0;
   VCall (lit_send 3); VRun 3; VTick 6000; VTimeout 0 2; VTimeout 0 1;
   VCall (lit_send 4); VRun 4; VApiCall 0 lit_ping; VTask 0 4; VCancel 4; VTask 0 4; VTaskCancel 0 4;
   VCall (JPermit 60); VRun 5; VCall (lit_send 6); VRun 6; lit_from 0 lit_refused; VTask 0 5; VApiCall 0 lit_ping] ++ lit_down ++ [VTask 0 6; VTask 0 7].
Definition lit_all_wrong : world := lit_world lit_wrong.
Lemma bare_wfields w : forallb bare (w_apis w) = true -> wfields_exist w.
Proof. intros B a s A. apply bare_fields. rewrite forallb_forall in B. apply B. eapply nth_error_In, A. Qed.
Example C144_inhabited : wfields_exist lit_all_wrong /\
  map op_job (w_ops lit_all_wrong) = [lit_send 1; JRequest 4660 0 999 0 0 2 [2] true; lit_desc_req 7; lit_send 3; lit_send 4; JPermit 60; lit_send 6] /\
  filter (fun o => match o with WEnded _ _ => true | _ => false end) (w_log lit_all_wrong) =
    [WEnded 0 (OExn AttributeError); WEnded 1 (OExn RuntimeError); WEnded 2 (OExn KeyError); WEnded 3 (OExn TimeoutError);
     WEnded 4 (OExn CancelledError); WEnded 5 (OExn (CommandError 194)); WEnded 6 (OExn AttributeError)] /\
  map (fun s => filter (fun o => match o with OEnded _ _ => true | _ => false end) (s_log s)) (w_apis lit_all_wrong) =
    [[OEnded 0 (OExn KeyError); OEnded 2 (OExn TimeoutError); OEnded 1 (OExn TimeoutError); OEnded 3 (OExn CancelledError);
      OEnded 4 (OExn CancelledError); OEnded 5 (OExn (CommandError 194)); OEnded 6 (OExn AttributeError); OEnded 7 (OExn AttributeError)]] /\
  map (fun s => option_map t_job (get s 1)) (w_apis lit_all_wrong) = [Some lit_await].
Proof. split; [apply bare_wfields; vm_compute; reflexivity|]. vm_compute. shown. Qed.
