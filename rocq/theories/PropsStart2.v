(** * PropsStart2: what start-up relies on, encodability and completion (C73, C75, C76) *)
From Verif Require Import Base Types Uart Buffalo CmdTable Zpi Api App Machine SpecWire SpecCodec SpecMachine Nv StartZnp SpecStart StartExec
  UartProofs StartProofs StartProofs5 StartProofs6 StartProofs9 StartSend StartLink PropsMachine PropsMachine2 PropsStart.

(** ** C73 *)
Theorem C73_answers_possible : forall cap s t k sub cmd d x out, 0 <= cap -> reachable cap s -> get s t = Some k ->
  t_job k = JCommand sub cmd d x -> In (OEnded t out) (s_log s) ->
  (exists r, out = match r with Ok m => ORet (Some m) | Err e => OExn e end /\ answer_possible x r) \/
  (out = ORet None /\ exists o, from_command sub cmd d = Ok o /\ z_type o = AREQ /\ ~ resets o).
Proof. exact answers_possible. Qed.
Print Assumptions C73_answers_possible.
Theorem C73_indications_possible : forall cap s t k m to out, 0 <= cap -> reachable cap s -> get s t = Some k ->
  t_job k = JWaitFor m to -> In (OEnded t out) (s_log s) ->
  exists r, out = match r with Ok m => ORet (Some m) | Err e => OExn e end /\ indication_possible m r /\
    match r with Ok x => In (OReceived x) (s_log s) | Err _ => True end.
Proof. exact indications_possible. Qed.
Print Assumptions C73_indications_possible.
(** start-up itself asks for no command without an answer *)
Theorem C73_startup_answered : forall v o group backup tr f sub cmd d x r, wf_options o -> 0 <= group < 65536 ->
  runs (start_znp (version_of v) o group backup) tr f ->
  In (ARequest sub cmd d x r) tr -> forall z, from_command sub cmd d = Ok z -> z_type z = SREQ \/ z_type z = AREQ /\ resets z.
Proof. exact startup_answered. Qed.
Print Assumptions C73_startup_answered.
Example C73_inhabited :
  let s := run [ECall lit_ping; ERun 0; lit_got lit_pong; ERun 0; ECall (JWaitFor (mk_matcher SRSP SYS "ping" []) 1000); ERun 1; ERun 1; ETick 1000; ETimeout 1] PropsMachine.lit_start in
  exists r, In (OEnded 0 (ORet (Some r))) (s_log s) /\ In (OEnded 1 (OExn TimeoutError)) (s_log s).
Proof.
  exists (mk_zpi SRSP SYS "ping" 1 [("capabilities", VInt 377)] [("capabilities", UINT16)] None). cbn zeta. log_is l.
  split; unfold l; repeat (first [left; reflexivity|right]).
Qed.

(** ** C75 *)
Theorem C75_startup_encodable : forall v o group backup tr f, wf_options o -> 0 <= group < 65536 ->
  runs (start_znp (version_of v) o group backup) tr f ->
  Forall (fun a => match a with
    | ARequest sub cmd d _ _ | ASpawn sub cmd d =>
      exists z fr bs, in_coroutine (from_command sub cmd d) = Ok z /\ to_unpi_frame z = Ok fr /\ to_buffer fr = Ok bs /\
        (length (f_data fr) <= 250)%nat
    | _ => True end) tr.
Proof.
  intros v o g b tr f W G R. eapply Forall_impl; [|exact (start_sendable v o g b W G tr f R)].
  assert (K : forall sub cmd d, can_send sub cmd d -> exists z fr bs, in_coroutine (from_command sub cmd d) = Ok z /\ to_unpi_frame z = Ok fr /\ to_buffer fr = Ok bs /\
        (length (f_data fr) <= 250)%nat).
  { intros sub cmd d (z & fr & H1 & _ & H2 & H3 & H4). exists z, fr, (wire_of fr). rewrite H1. split; [reflexivity|]. split; [exact H2|].
    split; [apply to_buffer_wire, H3|exact H4]. }
  intros [sub cmd d x r|m t|m r|sub cmd d] H; try exact I; apply K, H.
Qed.
Print Assumptions C75_startup_encodable.
Example C75_inhabited :
  let x := exec (lit_stick 0 0 []) 100 (PropsStart.lit_start Stack12 lit_options) lit_empty in
  fin_of x = Returned Restored /\ length (commands (trace_of x)) = 33%nat.
Proof. vm_compute. repeat split. Qed.

(** ** C76 *)
Theorem C76_completes_on_a_working_stick : forall dv v o group s, works dv -> (marked v s -> items_exist s) ->
  exists tr r s', serve dv (start_znp (version_of v) o group false) s = (tr, Ok r, s') /\
    runs (start_znp (version_of v) o group false) tr (Returned r) /\ stick s tr s'.
Proof.
  intros dv v o g s W Hi. destruct (start_completes dv v o g s W Hi) as (tr & r & s' & E). exists tr, r, s'. split; [exact E|].
  apply serve_sound in E. exact E.
Qed.
Print Assumptions C76_completes_on_a_working_stick.
Example C76_inhabited : works (lit_stick 0 0 [1; 2]) /\ items_exist (lit_config Stack12 lit_other) /\ ~ marked Stack3x0 lit_empty.
Proof.
  split; [|split; [|discriminate]].
  - split; [|split].
    + intros sub cmd d _. cbn [lit_stick dv_answer]. destruct (String.eqb cmd "getDeviceInfo"); [exists 0; auto|].
      destruct (sub_eqb sub ZDO && String.eqb cmd "extFindGroup") eqn:E; [|exists 0; auto]. apply andb_true_iff in E as [E1 E2].
      exists 1. split; [reflexivity|]. right. split; [reflexivity|]. split; [destruct sub; try discriminate E1; reflexivity|]. left. apply String.eqb_eq, E2.
    + intro d. exists (VInt 0). reflexivity.
    + intros m [->| ->]; eexists; (split; [reflexivity|]); (split; [vm_compute; reflexivity|]); intro E; [discriminate E|]. exists [1; 2]. reflexivity.
  - intros i H. cbn [In] in H. repeat (destruct H as [<-|H]; [vm_compute; discriminate|]). contradiction.
Qed.
(** a marked stick that lost a compared item is never started again *)
(** C49 without supposing that the next start returns: on a working stick it does *)
Theorem C49_redone_on_a_working_stick : forall dv v o1 o2 g1 g2 b1 s0 tr1 f1 s1,
  wf_options o1 -> wf_options o2 -> ~ marked v s0 ->
  runs (start_znp (version_of v) o1 g1 b1) tr1 f1 -> stick s0 tr1 s1 -> (forall a bs, In a tr1 -> ~ writes a (marker v) bs) ->
  works dv -> exists tr2 r s2, serve dv (start_znp (version_of v) o2 g2 false) s1 = (tr2, Ok r, s2) /\
    r <> Resumed /\ initialised v o2 tr2 /\ config_matches v o2 s2.
Proof.
  intros dv v o1 o2 g1 g2 b1 s0 tr1 f1 s1 W1 W2 M R1 S1 N W.
  assert (M1 : ~ marked v s1) by (eapply mark_not_set; [exact S1|eapply (start_well_formed v o1 g1 b1); eassumption|exact N|exact M]).
  destruct (start_completes dv v o2 g2 s1 W ltac:(intro K; contradiction)) as (tr2 & r & s2 & E).
  exists tr2, r, s2. split; [exact E|]. apply serve_sound in E as [R2 S2].
  exact (C49_interrupted_first_redone v o1 o2 g1 g2 b1 false s0 tr1 f1 s1 tr2 r s2 W1 W2 M R1 S1 N R2 S2).
Qed.
Print Assumptions C49_redone_on_a_working_stick.
Theorem C76_missing_item_fails : forall dv v o group backup s tr r s', marked v s -> s 132 = None ->
  serve dv (start_znp (version_of v) o group backup) s = (tr, r, s') -> r = Err (CommandError 2).
Proof. exact missing_item. Qed.
Print Assumptions C76_missing_item_fails.
Example C76_missing_item :
  snd (fst (serve (lit_stick 0 0 []) (PropsStart.lit_start Stack30x lit_options) (put lit_empty 96 set_mark))) = Err (CommandError 2).
Proof. vm_compute. reflexivity. Qed.
