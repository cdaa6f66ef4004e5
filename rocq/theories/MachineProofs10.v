(** * MachineProofs10: from received bytes to the application *)
From Verif Require Import Base Types Uart Buffalo CmdTable Zpi Api App Machine SpecWire SpecCodec SpecApi SpecMachine UartProofs UartProofs2 CodecProofs CodecProofs2
  ApiProofs AppProofs AppProofs2 MachineBase MachineInv MachineInv2 MachineInv3 MachineInv4 MachineInv5 DispatchProofs MachineProofs MachineProofs2 MachineProofs3 MachineProofs4 MachineProofs5 MachineProofs6.

Lemma ends_with_unique v o x y : ends_with v o x -> ends_with v o y -> x = y.
Proof.
  assert (D : forall a, In a one_way -> ~ In a [(ZDO, "mgmtPermitJoinRsp"); (ZDO, "permitJoinInd")]).
  { intros a H [C|[C|[]]]; subst a; unfold one_way in H; cbn [In] in H; repeat (destruct H as [H|H]; [discriminate H|]); exact H. }
  intros H1 H2. destruct H1, H2; try reflexivity; try congruence; try contradiction; exfalso; eapply D; eassumption.
Qed.

Lemma with_seq_same o : z_seq o = None -> with_seq o None = o.
Proof. destruct o. cbn. intros ->. reflexivity. Qed.

(** the outcome of handing a decoded message to the API *)
Lemma receiving_ends cap s f r : 0 <= cap -> reachable cap s -> bytes_ok (f_data f) -> from_unpi_frame f = Ok r ->
  (forall t k m to, get s t = Some k -> t_job k = JWaitFor m to -> has_fields m r) ->
  (forall w q, In w (s_waiters s) -> w_seq w = Some q -> byte_ok q) ->
  if s_app s then ends_with (s_version s) r (snd (data_received s f)) else snd (data_received s f) = Ok tt.
Proof.
  intros Hcap Hr Hok Hf Hw Hq. unfold data_received. rewrite Hf.
  assert (E0 : s_waiters (note (OReceived r) s) = s_waiters s) by reflexivity. rewrite E0.
  destruct (dispatch_spec r (s_waiters s) (note (OReceived r) s)) as (pre & post & o' & x & Ews & E & Hst). rewrite E.
  assert (A : s_app (completes (filter (hit r) pre) r (note (OReceived r) s)) = s_app s /\
              s_version (completes (filter (hit r) pre) r (note (OReceived r) s)) = s_version s).
  { rewrite completes_nf. split; reflexivity. }
  destruct A as [A1 A2].
  assert (Ho : x = Ok tt /\ exists q, o' = with_seq r q /\ forall b, q = Some b -> byte_ok b).
  { destruct Hst as [p Hp|p w q po Hp H1 H2 H3|p w e po Hp H1].
    - split; [reflexivity|]. exists None. split; [symmetry; apply with_seq_same, (decoded_seq f r Hf)|discriminate].
    - split; [reflexivity|]. exists (Some q). split; [reflexivity|]. intros b Hb. injection Hb as <-. apply (Hq w q); [|exact H2].
      rewrite Ews. apply in_or_app. left. apply in_or_app. right. left. reflexivity.
    - exfalso. destruct (never_raises cap s f r w Hcap Hr Hok Hf Hw) as [b Hb]; [rewrite Ews; apply in_or_app; right; left; reflexivity|congruence]. }
  destruct Ho as [-> (q & -> & Hb)]. unfold app_handle. rewrite A1, A2. destruct (s_app s); [|reflexivity].
  set (devs := s_devs _). pose proof (handling_ends (s_version s) devs f r q Hok Hf Hb) as H.
  destruct (handle_znp (s_version s) devs (with_seq r q)) as [[d effs] res]. exact H.
Qed.

(** a message that answers nobody is handled by the application alone *)
Lemma unmatched s r : (forall w, In w (s_waiters s) -> waiter_match (w_matcher w) r = Ok false) ->
  dispatch (s_waiters s) r (note (OReceived r) s) = (note (OReceived r) s, r, Ok tt).
Proof.
  intro H. rewrite <- (app_nil_r (s_waiters s)). rewrite dispatch_skip; [reflexivity|]. apply Forall_forall. exact H.
Qed.
Lemma set_buf_id s : s_buf s = [] -> set_buf [] s = s.
Proof. destruct s. cbn. intros ->. reflexivity. Qed.
Lemma effects_buf es : forall s, s_buf (fold_left (fun s e => do_effect e s) es s) = s_buf s.
Proof. induction es as [|e es IH]; intro s; [reflexivity|]. cbn [fold_left]. rewrite IH. destruct e; reflexivity. Qed.
Lemma lone_message s f r devs effs : sendable f -> f_data f <> [] -> s_buf s = [] -> from_unpi_frame (received f) = Ok r ->
  (forall w, In w (s_waiters s) -> waiter_match (w_matcher w) r = Ok false) -> s_app s = true ->
  handle_znp (s_version s) (s_devs s) r = (devs, effs, Ok tt) ->
  step (ERecv (wire_of f)) s = fold_left (fun s e => do_effect e s) effs (set_devs devs (note (OReceived r) s)).
Proof.
  intros Hs Hne Hb Hf Hw Ha Hh. rewrite (receive_frame s f Hs Hne Hb). unfold data_received. rewrite Hf.
  change (s_waiters (note (OReceived r) s)) with (s_waiters s). rewrite (unmatched s r Hw). unfold app_handle.
  change (s_app (note (OReceived r) s)) with (s_app s). rewrite Ha.
  change (s_version (note (OReceived r) s)) with (s_version s). change (s_devs (note (OReceived r) s)) with (s_devs s). rewrite Hh.
  apply set_buf_id. rewrite effects_buf. exact Hb.
Qed.
(** messages of a kind that no request awaits *)
Lemma nobody_matches cap s r : reachable cap s -> nobody_waits_for AREQ (z_sub r) (z_cmd r) s -> z_type r = AREQ ->
  ~ (z_sub r = SYS /\ z_cmd r = "resetInd") -> ~ (z_sub r = AF /\ z_cmd r = "dataConfirm") ->
  ~ (z_sub r = ZDO /\ In (z_cmd r) (map snd addressed_requests)) ->
  forall w, In w (s_waiters s) -> waiter_match (w_matcher w) r = Ok false.
Proof.
  intros Hr Hno Ht H1 H2 H3 w Hin.
  assert (G : ~ (m_type (w_matcher w) = z_type r /\ m_sub (w_matcher w) = z_sub r /\ m_cmd (w_matcher w) = z_cmd r)).
  { intros (E1 & E2 & E3). destruct (reachable_origin cap s Hr w Hin) as [(_ & o & to & A)|[(_ & t & k & to & G & Hj)|(sq & [(v & E & _)|(rsp & a & E & Hin' & _)])]].
    - unfold awaited in A. destruct (z_type o); try discriminate A.
      + injection A as A _. rewrite <- A in E1. cbn [m_type] in E1. congruence.
      + destruct (is_reset_command o); [|discriminate A]. injection A as A _. rewrite <- A in E2, E3. cbn [m_sub m_cmd] in E2, E3. apply H1. auto.
    - apply (Hno t k (w_matcher w) to G Hj). rewrite <- Ht at 1. auto.
    - rewrite E in E2, E3. cbn [m_sub m_cmd] in E2, E3. apply H2. auto.
    - rewrite E in E2, E3. cbn [m_sub m_cmd] in E2, E3. apply H3. split; [congruence|]. rewrite <- E3. exact Hin'. }
  unfold waiter_match. destruct (ct_eqb_spec (m_type (w_matcher w)) (z_type r)) as [E1|E1]; [|reflexivity].
  destruct (sub_eqb_spec (m_sub (w_matcher w)) (z_sub r)) as [E2|E2]; [|reflexivity].
  destruct (String.eqb_spec (m_cmd (w_matcher w)) (z_cmd r)) as [E3|E3]; [|reflexivity]. exfalso. apply G. auto.
Qed.

(** an application message *)
Definition c_frame (ty : command_type) (sub : subsystem) (id : Z) (d : list Z) : frame := mk_frame ty sub id d None None.
Lemma incoming_received cap s group cluster src src_ep dst_ep bcast lqi sec time tsn data trailing :
  0 <= cap -> reachable cap s -> s_app s = true -> s_buf s = [] -> nobody_waits_for AREQ AF "incomingMsg" s ->
  incoming_ok group cluster src src_ep dst_ep bcast lqi sec time tsn data -> bytes_ok trailing ->
  let body := incoming_body group cluster src src_ep dst_ep bcast lqi sec time tsn data ++ trailing in
  (length body <= 255)%nat ->
  exists r, from_unpi_frame (received (c_frame AREQ AF 129 body)) = Ok r /\
    (forall ieee, first_with src ieee (s_devs s) ->
      step (ERecv (wire 2 4 129 body)) s = note (OEffect (EMsg ieee lqi 0 260 cluster src_ep dst_ep data)) (note (OReceived r) s)) /\
    (none_with src (s_devs s) -> step (ERecv (wire 2 4 129 body)) s = note (OReceived r) s).
Proof.
  intros Hc Hr Ha Hb Hno Hin Htr body Hlen.
  assert (Hbody : bytes_ok body /\ body <> []).
  { split; [|unfold body, incoming_body, le2; discriminate]. apply Forall_app. split; [|exact Htr].
    destruct Hin as (A1 & A2 & A3 & A4 & A5 & A6 & A7 & A8 & A9 & A10 & A11 & A12). unfold incoming_body.
    repeat (apply Forall_app; split); try (apply le2_ok; lia); try (apply le4_ok; lia); try exact A11; repeat constructor; try (unfold byte_ok in *; lia).
    all: unfold zlen; lia. }
  destruct Hbody as [Hbo Hbn].
  assert (Hsend : sendable (c_frame AREQ AF 129 body)) by (repeat split; cbn [f_id f_data c_frame]; try assumption; unfold byte_ok; lia).
  change (wire 2 4 129 body) with (wire_of (c_frame AREQ AF 129 body)).
  pose proof (incoming_decodes _ _ _ _ _ _ _ _ _ _ _ trailing (f_length (received (c_frame AREQ AF 129 body))) (f_fcs (received (c_frame AREQ AF 129 body))) Hin) as Hd.
  fold body in Hd. eexists. split; [exact Hd|].
  assert (Hm : forall w, In w (s_waiters s) -> waiter_match (w_matcher w)
    (mk_zpi AREQ AF "incomingMsg" 129 (incoming_payload group cluster src src_ep dst_ep bcast lqi sec time tsn data) incoming_params None) = Ok false).
  { eapply nobody_matches; cbn [z_type z_sub z_cmd]; try eassumption; try reflexivity; intros [C1 C2]; discriminate. }
  split.
  - intros ieee Hf. rewrite (lone_message s _ _ (s_devs s) [EMsg ieee lqi 0 260 cluster src_ep dst_ep data] Hsend Hbn Hb Hd Hm Ha).
    + cbn [fold_left do_effect]. destruct s. reflexivity.
    + rewrite incoming_handled by exact Hin. rewrite (first_with_find _ _ _ Hf). reflexivity.
  - intros Hf. rewrite (lone_message s _ _ (s_devs s) [] Hsend Hbn Hb Hd Hm Ha).
    + cbn [fold_left]. destruct s. reflexivity.
    + rewrite incoming_handled by exact Hin. rewrite (none_with_find _ _ Hf). reflexivity.
Qed.

(** a device announcement *)
Lemma announcement_received cap s src nwk ieee caps trailing :
  0 <= cap -> reachable cap s -> s_app s = true -> s_buf s = [] -> nobody_waits_for AREQ ZDO "endDeviceAnnceInd" s ->
  0 <= src < 65536 -> 0 <= nwk < 65536 -> length ieee = 8%nat -> bytes_ok ieee -> byte_ok caps -> bytes_ok trailing ->
  let body := le2 src ++ le2 nwk ++ ieee ++ [caps] ++ trailing in
  (length body <= 255)%nat ->
  exists r devs, from_unpi_frame (received (c_frame AREQ ZDO 193 body)) = Ok r /\
    step (ERecv (wire 2 5 193 body)) s =
      note (OEffect (EMsg ieee 0 0 260 19 0 0 (0 :: le2 nwk ++ ieee ++ [caps]))) (note (OEffect (EJoin nwk ieee)) (set_devs devs (note (OReceived r) s))) /\
    forall i, lookup devs i = if list_eq_dec Z.eq_dec ieee i then Some nwk else lookup (s_devs s) i.
Proof.
  intros Hc Hr Ha Hb Hno H1 H2 H3 H4 H5 Htr body Hlen.
  assert (Hbody : bytes_ok body /\ body <> []).
  { split; [|unfold body, le2; discriminate]. unfold body. repeat (apply Forall_app; split); try (apply le2_ok; lia); try assumption. constructor; [exact H5|constructor]. }
  destruct Hbody as [Hbo Hbn].
  assert (Hsend : sendable (c_frame AREQ ZDO 193 body)) by (repeat split; cbn [f_id f_data c_frame]; try assumption; unfold byte_ok; lia).
  change (wire 2 5 193 body) with (wire_of (c_frame AREQ ZDO 193 body)).
  destruct (announced (s_version s) (s_devs s) src nwk ieee caps trailing (f_length (received (c_frame AREQ ZDO 193 body))) (f_fcs (received (c_frame AREQ ZDO 193 body))) H1 H2 H3 H4 H5)
    as (r & Hd & Hh & R1 & R2 & R3).
  exists r, (join (s_devs s) nwk ieee). split; [exact Hd|]. split.
  - assert (Hm : forall w, In w (s_waiters s) -> waiter_match (w_matcher w) r = Ok false); [|rewrite (lone_message s _ r _ _ Hsend Hbn Hb Hd Hm Ha Hh); reflexivity].
    eapply nobody_matches; try eassumption; rewrite ?R2, ?R3; try assumption.
    + intros [C1 C2]; discriminate.
    + intros [C1 C2]; discriminate.
    + intros [_ C]. cbn [map addressed_requests snd In] in C. repeat (destruct C as [C|C]; [discriminate C|]). exact C.
  - intro i. rewrite lookup_join. unfold ieee_eqb. destruct (list_eq_dec Z.eq_dec ieee i); reflexivity.
Qed.
