(** * MachineProofs9: the bytes that the application's operations put on the link, and what a reported success means *)
From Coq Require Import ZifyBool ZifyNat.
From Verif Require Import Base Types Uart Buffalo CmdTable Zpi Api App Machine SpecWire SpecCodec SpecApi SpecMachine CodecProofs CodecProofs2 RequestProofs UartProofs ApiProofs AppProofs
  MachineBase MachineInv MachineInv2 MachineInv3 MachineInv4 MachineInv5 DispatchProofs MachineProofs MachineProofs2 MachineProofs3 MachineProofs4 MachineProofs8.

Lemma written_object cap s t k o at_ bs : 0 <= cap -> reachable cap s -> get s t = Some k -> build (t_job k) = Ok o ->
  In (OWritten t at_ bs) (s_log s) -> frame_bytes o bs /\ (z_type o = SREQ \/ z_type o = AREQ).
Proof.
  intros Hc Hr G Hb Hin. destruct (proj2 (I_wrote _ _ (reachable_inv cap s Hc Hr)) t at_ bs Hin) as (_ & k' & o' & G' & Hb' & Ht & Hf).
  rewrite G in G'. injection G' as <-. rewrite Hb in Hb'. injection Hb' as <-. auto.
Qed.
Lemma written_builds cap s t k at_ bs : 0 <= cap -> reachable cap s -> get s t = Some k ->
  In (OWritten t at_ bs) (s_log s) -> exists o, build (t_job k) = Ok o.
Proof.
  intros Hc Hr G Hin. destruct (proj2 (I_wrote _ _ (reachable_inv cap s Hc Hr)) t at_ bs Hin) as (_ & k' & o' & G' & Hb' & _).
  rewrite G in G'. injection G' as <-. eauto.
Qed.
Lemma sent_as o f bs b x : frame_bytes o bs -> to_unpi_frame o = Ok f -> gw_send [] f = ([b], Ok x) -> bs = b.
Proof.
  intros (f' & F1 & F2) E H. rewrite E in F1. injection F1 as <-. unfold gw_send in H. rewrite F2 in H. cbn [app] in H. congruence.
Qed.
Lemma not_sent o bs : frame_bytes o bs -> to_unpi_frame o = Err OverflowError \/ (exists f, to_unpi_frame o = Ok f /\ gw_send [] f = ([], Err ValueError)) -> False.
Proof.
  intros (f' & F1 & F2) [E|(f & E & H)]; rewrite E in F1; [discriminate|]. injection F1 as <-. unfold gw_send in H. rewrite F2 in H. discriminate.
Qed.
Lemma af_fields_dec nwk cluster src_ep dst_ep sequence radius data :
  af_fields_ok nwk cluster src_ep dst_ep sequence radius data \/ ~ af_fields_ok nwk cluster src_ep dst_ep sequence radius data.
Proof. unfold af_fields_ok, byte_ok. lia. Qed.
Lemma af_ext_fields_dec mode nwk cluster src_ep dst_ep sequence radius data :
  af_ext_fields_ok mode nwk cluster src_ep dst_ep sequence radius data \/ ~ af_ext_fields_ok mode nwk cluster src_ep dst_ep sequence radius data.
Proof. unfold af_ext_fields_ok, byte_ok. lia. Qed.

Lemma unicast_written cap s t k nwk cluster src_ep dst_ep sequence data reply at_ bs : 0 <= cap -> reachable cap s -> get s t = Some k ->
  t_job k = JRequest nwk 260 cluster src_ep dst_ep sequence data reply -> bytes_ok data -> In (OWritten t at_ bs) (s_log s) ->
  af_fields_ok nwk cluster src_ep dst_ep sequence 30 data /\
  bs = wire 1 4 1 (le2 nwk ++ [dst_ep; src_ep] ++ le2 cluster ++ [sequence; 0; 30; Z.of_nat (length data)] ++ data).
Proof.
  intros Hc Hr G Hj Hd Hin. destruct (af_exact nwk cluster src_ep dst_ep sequence 30 data [] Hd) as (o & Ho & _ & H1 & H2).
  assert (Hb : build (t_job k) = Ok o) by (rewrite Hj; cbn [build]; unfold build_request; rewrite Ho; reflexivity).
  destruct (written_object cap s t k o at_ bs Hc Hr G Hb Hin) as [Hf _].
  destruct (af_fields_dec nwk cluster src_ep dst_ep sequence 30 data) as [A|A].
  - split; [exact A|]. destruct (H1 A) as (f & F1 & F2). eapply sent_as; eassumption.
  - exfalso. eapply not_sent; [exact Hf|]. apply H2, A.
Qed.
Lemma ext_written cap s t k mode nwk cluster src_ep dst_ep sequence radius data at_ bs : 0 <= cap -> reachable cap s -> get s t = Some k ->
  build (t_job k) = in_coroutine (from_cluster nwk 260 cluster src_ep dst_ep sequence data radius (Some mode)) ->
  bytes_ok data -> In (OWritten t at_ bs) (s_log s) ->
  af_ext_fields_ok mode nwk cluster src_ep dst_ep sequence radius data /\
  exists addr, bytes_ok addr /\ length addr = 8%nat /\ le_value addr = nwk /\
    bs = wire 1 4 2 ([mode] ++ addr ++ [dst_ep; 0; 0; src_ep] ++ le2 cluster ++ [sequence; 0; radius] ++ le2 (Z.of_nat (length data)) ++ data).
Proof.
  intros Hc Hr G Hb Hd Hin. destruct (ext_exact mode nwk cluster src_ep dst_ep sequence radius data [] Hd) as (o & Ho & _ & H1 & H2).
  rewrite Ho in Hb. change (in_coroutine (Ok o)) with (@Ok zpi o) in Hb.
  destruct (written_object cap s t k o at_ bs Hc Hr G Hb Hin) as [Hf _].
  destruct (af_ext_fields_dec mode nwk cluster src_ep dst_ep sequence radius data) as [A|A].
  - split; [exact A|]. destruct (H1 A) as (f & addr & F1 & A1 & A2 & A3 & F2). exists addr. repeat (split; [assumption|]). eapply sent_as; eassumption.
  - exfalso. eapply not_sent; [exact Hf|]. apply H2, A.
Qed.
Lemma multicast_written cap s t k group cluster src_ep sequence data at_ bs : 0 <= cap -> reachable cap s -> get s t = Some k ->
  t_job k = JMulticast group 260 cluster src_ep sequence data -> bytes_ok data -> In (OWritten t at_ bs) (s_log s) ->
  let src := if src_ep =? 0 then 1 else src_ep in
  af_ext_fields_ok 1 group cluster src 255 sequence 30 data /\
  exists addr, bytes_ok addr /\ length addr = 8%nat /\ le_value addr = group /\
    bs = wire 1 4 2 ([1] ++ addr ++ [255; 0; 0; src] ++ le2 cluster ++ [sequence; 0; 30] ++ le2 (Z.of_nat (length data)) ++ data).
Proof. intros Hc Hr G Hj Hd Hin src. eapply ext_written; try eassumption. rewrite Hj. reflexivity. Qed.
Lemma broadcast_written cap s t k cluster src_ep dst_ep radius sequence data a at_ bs : 0 <= cap -> reachable cap s -> get s t = Some k ->
  t_job k = JBroadcast 260 cluster src_ep dst_ep radius sequence data a -> bytes_ok data -> In (OWritten t at_ bs) (s_log s) ->
  af_ext_fields_ok 2 a cluster src_ep dst_ep sequence radius data /\
  exists addr, bytes_ok addr /\ length addr = 8%nat /\ le_value addr = a /\
    bs = wire 1 4 2 ([2] ++ addr ++ [dst_ep; 0; 0; src_ep] ++ le2 cluster ++ [sequence; 0; radius] ++ le2 (Z.of_nat (length data)) ++ data).
Proof. intros Hc Hr G Hj Hd Hin. eapply ext_written; try eassumption. rewrite Hj. reflexivity. Qed.

(** a command of the API puts its parameters on the link *)
Lemma command_written cap s t k sub cs c ps pl d w at_ bs : 0 <= cap -> reachable cap s -> get s t = Some k ->
  t_job k = JCommand sub (c_name c) d w -> definition sub = Ok cs -> In c cs -> c_request c = Some ps ->
  payload_fits None ps pl -> SpecCodec.holds d pl -> In (OWritten t at_ bs) (s_log s) ->
  exists body, payload_wire None ps pl body /\ (length body <= 255)%nat /\ bs = wire (type_code (c_type c)) (sub_code sub) (c_ID c) body.
Proof.
  intros Hc Hr G Hj Hs Hin Hps Hfit Hd Hw. destruct (written_builds cap s t k at_ bs Hc Hr G Hw) as [o Hb].
  destruct (written_object cap s t k o at_ bs Hc Hr G Hb Hw) as [(f & F1 & F2) _]. rewrite Hj in Hb. cbn [build] in Hb. apply in_coroutine_ok in Hb.
  rewrite (from_command_ok sub cs c ps d Hs Hin Hps) in Hb. injection Hb as <-.
  destruct (encode_decode ps pl d) as (body & E & Hok & W & _); [eapply table_params; eauto|exact Hfit|exact Hd|].
  unfold to_unpi_frame in F1. cbn [z_params z_payload z_type z_sub z_id] in F1. rewrite E in F1. cbn [bind] in F1. injection F1 as <-.
  pose proof (to_buffer_inv _ _ F2) as [S1 S2]. cbn [f_data f_id] in S1, S2. exists body. split; [exact W|]. split; [exact S2|].
  rewrite to_buffer_wire in F2 by (repeat split; cbn [f_id f_data]; try assumption; apply S1). injection F2 as <-. reflexivity.
Qed.

Lemma zdo_written cap s t k nwk profile c ps src_ep dst_ep sequence data reply at_ bs : 0 <= cap -> reachable cap s -> get s t = Some k ->
  t_job k = JRequest nwk profile (c_ID c) src_ep dst_ep sequence data reply -> profile <> 260 ->
  In c def_ZDO -> c_type c = SREQ -> c_request c = Some ps -> bytes_ok data -> In (OWritten t at_ bs) (s_log s) ->
  0 <= nwk < 65536 /\
  exists n pl, let body := firstn n (zdo_body (String.eqb (c_name c) "mgmtPermitJoinReq") nwk data) in
    payload_wire None ps pl body /\ bs = wire 1 5 (c_ID c) body.
Proof.
  intros Hc Hr G Hj Hp Hin Ht Hps Hd Hw. destruct (written_builds cap s t k at_ bs Hc Hr G Hw) as [o Hb].
  destruct (written_object cap s t k o at_ bs Hc Hr G Hb Hw) as [Hf _]. rewrite Hj in Hb. cbn [build] in Hb. unfold build_request in Hb. apply in_coroutine_ok in Hb.
  destruct (Z_le_dec 0 nwk) as [A1|A1], (Z_lt_dec nwk 65536) as [A2|A2];
    try (rewrite (from_cluster_range nwk profile c ps) in Hb by (try assumption; lia); discriminate).
  split; [lia|]. pose proof (zdo_faithful nwk profile c ps src_ep dst_ep sequence data 30 None Hp Hin Ht Hps ltac:(lia) Hd) as Z.
  rewrite Hb in Z. cbv zeta in Z. destruct Z as (n & _ & F & _ & _ & W & _). exists n, (z_payload o). cbv zeta. split; [exact W|].
  destruct Hf as (f & F1 & F2). rewrite F in F1. injection F1 as <-. pose proof (to_buffer_inv _ _ F2) as [S1 S2]. cbn [f_data f_id] in S1, S2.
  assert (Hs : sendable (mk_frame SREQ ZDO (c_ID c) (firstn n (zdo_body (String.eqb (c_name c) "mgmtPermitJoinReq") nwk data)) None None)).
  { repeat split; cbn [f_data f_id]; [apply S1|apply S1| |exact S2].
    pose proof (zdo_body_ok (String.eqb (c_name c) "mgmtPermitJoinReq") nwk data ltac:(lia) Hd) as Hz.
    rewrite <- (firstn_skipn n (zdo_body _ _ _)) in Hz. apply bytes_app in Hz. apply Hz. }
  pose proof (to_buffer_wire _ Hs) as E. unfold is_permit_join in *. rewrite F2 in E. injection E as ->. reflexivity.
Qed.

(** ** success *)
Lemma success_means cap s t k : 0 <= cap -> reachable cap s -> get s t = Some k -> sends (t_job k) -> In (OEnded t (OStatus 0)) (s_log s) ->
  exists o at_ bs lb, build (t_job k) = Ok o /\ frame_bytes o bs /\ outstanding t at_ bs lb (s_log s) /\
    (z_type o = SREQ -> exists r, In (OReceived r) lb /\ response_to o r /\ forall v, status_of r = Some v -> v = VInt 0).
Proof.
  intros Hcap Hr G Hs Hin. pose proof (get_job cap s t k _ Hcap Hr G Hin) as HR.
  pose proof (I_received _ _ (reachable_inv cap s Hcap Hr)) as Hrec.
  assert (Hexp : forall c, expects (t_job k) c <-> c = 0) by (intro c; destruct (t_job k); cbn [expects sends] in *; try contradiction; tauto).
  remember (OStatus 0) as out eqn:Eout. destruct HR as [|e He|o' e Ho He|o' e Ho He|x Ha|o' m to at_ bs lb r' c Ho Hst Haw Hfb Hout Hi Hm Hu| | |m to r' Hj Hi Hm|]; try discriminate.
  - exfalso. assert (X : exists c, e = CommandError c) by (unfold outcome_of_exn in Eout; destruct e; try discriminate; eauto). destruct X as [c ->].
    destruct He as [E|[[_ [E|(f & _ & E)]]|(_ & _ & E)]]; try discriminate E.
    + revert E. apply frame_no_cmd.
    + revert E. apply to_buffer_no_cmd.
  - inversion Ha as [o' at_ bs Ho Ht Haw Hfb Hout|o' m to at_ bs lb r' Ho Haw Hfb Hout Hi Hm Hu]; subst.
    + exists o', at_, bs, []. repeat (split; [assumption|]). congruence.
    + exists o', at_, bs, lb. repeat (split; [assumption|]). intro Ht. exists r'. split; [exact Hi|].
      rewrite (awaited_sreq _ _ _ Haw Ht) in Hm. apply matched in Hm. cbn [m_type m_sub m_cmd] in Hm. split; [exact Hm|].
      intros v Hv. destruct (Hrec r' (outstanding_in _ _ _ _ _ _ Hout Hi)) as [f Hf]. destruct (status_is_int f r' v Hf Hv) as [c ->].
      f_equal. apply Hexp. eapply unexpected_none; [apply Hu, Ht|exact Hv].
  - exfalso. apply unexpected_some in Hu as [_ Hu]. rewrite Hexp in Hu. rewrite reported_exn in Eout. apply Hu.
    destruct (t_job k); cbn [sends reported] in *; try contradiction; congruence.
Qed.

