(** * Proofs about ZpiObject.from_cluster: how the application's requests become stick commands *)
From Verif Require Import Base Types Uart Buffalo CmdTable Zpi SpecWire SpecCodec UartProofs UartProofs2 CodecProofs CodecProofs2.
From Coq Require Import ZifyBool ZifyNat.
Ltac Zify.zify_post_hook ::= Z.div_mod_to_equations.

Lemma zdo_names c : In c def_ZDO -> c_name c <> "dataRequest" /\ c_name c <> "dataRequestExt".
Proof.
  intro Hc.
  assert (E : forallb (fun c => negb (String.eqb (c_name c) "dataRequest") && negb (String.eqb (c_name c) "dataRequestExt")) def_ZDO = true)
    by (vm_compute; reflexivity).
  rewrite forallb_forall in E. specialize (E c Hc). rewrite andb_true_iff, !negb_true_iff in E.
  destruct E as [E1 E2]. apply String.eqb_neq in E1, E2. auto.
Qed.
Lemma zdo_writable c ps : In c def_ZDO -> c_type c = SREQ -> c_request c = Some ps ->
  Forall (fun p => writable (snd p) = true) ps /\ Forall (fun p => snd p <> LIST_NEIGHBOR_LQI) ps.
Proof.
  intros Hc Ht Hps.
  assert (E : forallb (fun c => negb (ct_eqb (c_type c) SREQ) ||
     match c_request c with Some ps => forallb (fun p => writable (snd p) &&
        match snd p with LIST_NEIGHBOR_LQI => false | _ => true end) ps | None => true end) def_ZDO = true)
    by (vm_compute; reflexivity).
  rewrite forallb_forall in E. specialize (E c Hc). rewrite Ht, Hps in E. cbn [ct_eqb ct_val negb orb] in E.
  change (negb (ct_eqb SREQ SREQ)) with false in E. cbn [orb] in E.
  rewrite forallb_forall in E. split; apply Forall_forall; intros p Hp; specialize (E p Hp);
    apply andb_true_iff in E as [E1 E2]; [exact E1|]. intro C. rewrite C in E2. discriminate.
Qed.

Definition is_permit_join (c : cmd) : bool := String.eqb (c_name c) "mgmtPermitJoinReq".

(** from_cluster for every profile but ZHA *)
Lemma from_cluster_zdo nwk profile c ps src_ep dst_ep sequence data radius mode :
  profile <> 260 -> In c def_ZDO -> c_request c = Some ps -> 0 <= nwk < 65536 ->
  from_cluster nwk profile (c_ID c) src_ep dst_ep sequence data radius mode =
  do d <- read_parameters (zdo_body (is_permit_join c) nwk data) ps;
  Ok (mk_zpi (c_type c) ZDO (c_name c) (c_ID c) d ps (Some sequence)).
Proof.
  intros Hp Hc Hps Hn. unfold from_cluster, ZHA_PROFILE. apply Z.eqb_neq in Hp. rewrite Hp.
  change (definition ZDO) with (Ok def_ZDO). cbn [bind]. unfold next_cmd.
  rewrite (find_by_id ZDO def_ZDO c eq_refl Hc). cbn [bind].
  rewrite (select_request ZDO def_ZDO c ps eq_refl Hc Hps). cbn [bind].
  destruct (zdo_names c Hc) as [N1 N2]. apply String.eqb_neq in N1, N2. rewrite N1, N2.
  rewrite to_bytes2 by exact Hn. cbn [bind].
  unfold zdo_body, is_permit_join. destruct (String.eqb (c_name c) "mgmtPermitJoinReq"); cbn [app]; [|reflexivity].
  unfold ALL_ROUTERS_AND_COORDINATOR. destruct (nwk =? 65532); reflexivity.
Qed.

Lemma from_cluster_range nwk profile c ps src_ep dst_ep sequence data radius mode :
  profile <> 260 -> In c def_ZDO -> c_request c = Some ps -> ~ 0 <= nwk < 65536 ->
  from_cluster nwk profile (c_ID c) src_ep dst_ep sequence data radius mode = Err OverflowError.
Proof.
  intros Hp Hc Hps Hn. unfold from_cluster, ZHA_PROFILE. apply Z.eqb_neq in Hp. rewrite Hp.
  change (definition ZDO) with (Ok def_ZDO). cbn [bind]. unfold next_cmd.
  rewrite (find_by_id ZDO def_ZDO c eq_refl Hc). cbn [bind].
  rewrite (select_request ZDO def_ZDO c ps eq_refl Hc Hps). cbn [bind].
  destruct (zdo_names c Hc) as [N1 N2]. apply String.eqb_neq in N1, N2. rewrite N1, N2.
  assert (E : to_bytes 2 nwk = Err OverflowError).
  { destruct (to_bytes 2 nwk) eqn:E; [|apply to_bytes_err in E as [-> _]; reflexivity].
    apply to_bytes_inv in E as [E _]. change (256 ^ Z.of_nat 2) with 65536 in E. contradiction. }
  rewrite E. cbn [bind].
  destruct (String.eqb (c_name c) "mgmtPermitJoinReq"); [|reflexivity].
  destruct (nwk =? ALL_ROUTERS_AND_COORDINATOR); reflexivity.
Qed.

Lemma from_cluster_unknown nwk profile cluster src_ep dst_ep sequence data radius mode :
  profile <> 260 -> (forall c, In c def_ZDO -> c_ID c <> cluster) ->
  from_cluster nwk profile cluster src_ep dst_ep sequence data radius mode = Err StopIteration.
Proof.
  intros Hp Hc. unfold from_cluster, ZHA_PROFILE. apply Z.eqb_neq in Hp. rewrite Hp.
  change (definition ZDO) with (Ok def_ZDO). cbn [bind]. unfold next_cmd.
  destruct (find (fun c => c_ID c =? cluster) def_ZDO) as [c|] eqn:E; [|reflexivity].
  apply find_some in E as [E1 E2]. apply Z.eqb_eq in E2. exfalso. exact (Hc c E1 E2).
Qed.

Lemma bytes_skipn n l : bytes_ok l -> bytes_ok (skipn n l).
Proof. intro H. rewrite <- (firstn_skipn n l) in H. apply bytes_app in H. apply H. Qed.
Lemma bytes_firstn n l : bytes_ok l -> bytes_ok (firstn n l).
Proof. intro H. rewrite <- (firstn_skipn n l) in H. apply bytes_app in H. apply H. Qed.

Lemma zdo_body_ok pj nwk data : 0 <= nwk < 65536 -> bytes_ok data -> bytes_ok (zdo_body pj nwk data).
Proof.
  intros Hn Hd. unfold zdo_body. apply bytes_app. split.
  - destruct pj; [|constructor]. constructor; [|constructor]. unfold byte_ok. destruct (nwk =? 65532); lia.
  - apply bytes_app. split; [apply le2_ok, Hn|apply bytes_skipn, Hd].
Qed.

Lemma zdo_body_length pj nwk data : length (zdo_body pj nwk data) = ((if pj then 3 else 2) + (length data - 1))%nat.
Proof. unfold zdo_body. rewrite !app_length, skipn_length. destruct pj; reflexivity. Qed.

Lemma zdo_faithful nwk profile c ps src_ep dst_ep sequence data radius mode :
  profile <> 260 -> In c def_ZDO -> c_type c = SREQ -> c_request c = Some ps -> 0 <= nwk < 65536 -> bytes_ok data ->
  match from_cluster nwk profile (c_ID c) src_ep dst_ep sequence data radius mode with
  | Ok o => exists n, (n <= length (zdo_body (is_permit_join c) nwk data))%nat /\
      to_unpi_frame o = Ok (mk_frame SREQ ZDO (c_ID c) (firstn n (zdo_body (is_permit_join c) nwk data)) None None) /\
      z_cmd o = c_name c /\ z_seq o = Some sequence /\
      payload_wire None ps (z_payload o) (firstn n (zdo_body (is_permit_join c) nwk data)) /\
      (forall data', (length (zdo_body (is_permit_join c) nwk data') < n)%nat ->
         skipn 1 data' = firstn (length data' - 1) (skipn 1 data) ->
         from_cluster nwk profile (c_ID c) src_ep dst_ep sequence data' radius mode = Err OverflowError)
  | Err e => forall pl bs rest, zdo_body (is_permit_join c) nwk data = bs ++ rest -> ~ payload_wire None ps pl bs
  end.
Proof.
  intros Hp Hc Ht Hps Hn Hd.
  assert (Hnd : NoDup (names ps)) by (eapply (table_params ZDO); [reflexivity|exact Hc|auto]).
  destruct (zdo_writable c ps Hc Ht Hps) as [Hw Hl].
  rewrite (from_cluster_zdo _ _ _ ps) by assumption.
  pose proof (zdo_body_ok (is_permit_join c) nwk data Hn Hd) as Hb.
  destruct (read_parameters (zdo_body (is_permit_join c) nwk data) ps) as [pl|e] eqn:E; cbn [bind].
  - destruct (decode_consumes ps _ pl Hnd Hb E) as (n & Hle & Hwire & Hs & _).
    exists n. split; [exact Hle|].
    destruct (rewrite_payload _ _ _ _ Hwire pl (holds_self _ _ _ _ Hnd Hwire) Hw) as (bs' & E' & _ & _ & He).
    rewrite (He Hl) in E'. unfold to_unpi_frame. cbn [z_params z_payload z_type z_sub z_id z_cmd z_seq].
    rewrite E', Ht. cbn [bind]. repeat split; try assumption.
    intros data' Hl' Hpre. rewrite (from_cluster_zdo _ _ _ ps) by assumption.
    rewrite <- (firstn_skipn n (zdo_body (is_permit_join c) nwk data)) in Hs.
    assert (Hb' : zdo_body (is_permit_join c) nwk data' =
       firstn (length (zdo_body (is_permit_join c) nwk data')) (zdo_body (is_permit_join c) nwk data)).
    { rewrite zdo_body_length in *. unfold zdo_body.
      destruct (is_permit_join c).
      - change ([if nwk =? 65532 then 15 else 2] ++ le2 nwk ++ skipn 1 data) with
          ((if nwk =? 65532 then 15 else 2) :: nwk mod 256 :: nwk / 256 :: skipn 1 data).
        change (3 + (length data' - 1))%nat with (S (S (S (length data' - 1)))). cbn [firstn].
        rewrite <- Hpre. reflexivity.
      - change ([] ++ le2 nwk ++ skipn 1 data) with (nwk mod 256 :: nwk / 256 :: skipn 1 data).
        change (2 + (length data' - 1))%nat with (S (S (length data' - 1))). cbn [firstn].
        rewrite <- Hpre. reflexivity. }
    rewrite firstn_skipn in Hs. rewrite Hb'. rewrite Hs by exact Hl'. reflexivity.
  - intros pl bs rest Hsplit Hwire. rewrite Hsplit, (decode_ok ps pl bs rest Hnd Hwire) in E. discriminate.
Qed.

(** a well-formed request goes out whole *)
Lemma zdo_exact nwk profile c ps src_ep dst_ep sequence data radius mode pl :
  profile <> 260 -> In c def_ZDO -> c_type c = SREQ -> c_request c = Some ps -> 0 <= nwk < 65536 ->
  payload_wire None ps pl (zdo_body (is_permit_join c) nwk data) ->
  exists o, from_cluster nwk profile (c_ID c) src_ep dst_ep sequence data radius mode = Ok o /\
    z_payload o = pl /\
    to_unpi_frame o = Ok (mk_frame SREQ ZDO (c_ID c) (zdo_body (is_permit_join c) nwk data) None None).
Proof.
  intros Hp Hc Ht Hps Hn Hwire.
  assert (Hnd : NoDup (names ps)) by (eapply (table_params ZDO); [reflexivity|exact Hc|auto]).
  destruct (zdo_writable c ps Hc Ht Hps) as [Hw Hl].
  rewrite (from_cluster_zdo _ _ _ ps) by assumption.
  pose proof (decode_ok ps pl _ [] Hnd Hwire) as E. rewrite app_nil_r in E. rewrite E. cbn [bind].
  eexists. split; [reflexivity|]. split; [reflexivity|].
  destruct (rewrite_payload _ _ _ _ Hwire pl (holds_self _ _ _ _ Hnd Hwire) Hw) as (bs' & E' & _ & _ & He).
  rewrite (He Hl) in E'. unfold to_unpi_frame. cbn [z_params z_payload z_type z_sub z_id].
  rewrite E', Ht. reflexivity.
Qed.

(** the destination is the caller's for every request whose first parameter is the destination *)
Lemma zdo_dstaddr nwk profile c ps src_ep dst_ep sequence data radius mode o :
  profile <> 260 -> In c def_ZDO -> c_request c = Some (("dstaddr", UINT16) :: ps) -> is_permit_join c = false ->
  0 <= nwk < 65536 -> bytes_ok data ->
  from_cluster nwk profile (c_ID c) src_ep dst_ep sequence data radius mode = Ok o ->
  exists pl, z_payload o = ("dstaddr", VInt nwk) :: pl /\
    exists bs rest, skipn 1 data = bs ++ rest /\ payload_wire (Some nwk) ps pl bs.
Proof.
  intros Hp Hc Hps Hpj Hn Hd H. rewrite (from_cluster_zdo _ _ _ _ _ _ _ _ _ _ Hp Hc Hps Hn), Hpj in H.
  assert (Hnd : NoDup (names (("dstaddr", UINT16) :: ps))) by (eapply (table_params ZDO); [reflexivity|exact Hc|auto]).
  destruct (read_parameters (zdo_body false nwk data) (("dstaddr", UINT16) :: ps)) as [pl|] eqn:E; [|discriminate].
  cbn [bind] in H. injection H as <-. cbn [z_payload].
  apply decode_inv in E as (bs & rest & Hs & Hw); [|exact Hnd|apply zdo_body_ok; assumption].
  inversion Hw as [|? ? ? v a ? pl' b Hv Hrest]; subst.
  inversion Hv as [|? z Hz| | | | |? ? ? ? Hf| | |]; subst; [|discriminate].
  unfold zdo_body in Hs. cbn [app] in Hs. rewrite <- app_assoc in Hs.
  unfold le2 in Hs. cbn [app] in Hs. injection Hs as E1 E2 E3.
  assert (z = nwk) as -> by lia. exists pl'. split; [reflexivity|].
  exists b, rest. split; [exact E3|exact Hrest].
Qed.

(** ** application data requests *)
Lemma to_bytes1_err z : ~ byte_ok z -> to_bytes 1 z = Err OverflowError.
Proof.
  intro H. destruct (to_bytes 1 z) eqn:E; [|apply to_bytes_err in E as [-> _]; reflexivity].
  apply to_bytes_inv in E as [E _]. change (256 ^ Z.of_nat 1) with 256 in E. unfold byte_ok in H. lia.
Qed.
Lemma to_bytes2_err z : ~ 0 <= z < 65536 -> to_bytes 2 z = Err OverflowError.
Proof.
  intro H. destruct (to_bytes 2 z) eqn:E; [|apply to_bytes_err in E as [-> _]; reflexivity].
  apply to_bytes_inv in E as [E _]. change (256 ^ Z.of_nat 2) with 65536 in E. lia.
Qed.

Definition af_payload nwk cluster src_ep dst_ep sequence radius (data : list Z) : list Z :=
  le2 nwk ++ [dst_ep; src_ep] ++ le2 cluster ++ [sequence; 0; radius; zlen data] ++ data.

Definition af_object nwk cluster src_ep dst_ep sequence radius (data : list Z) : zpi :=
  mk_zpi SREQ AF "dataRequest" 1
   [("dstaddr", VInt nwk); ("destendpoint", VInt dst_ep); ("srcendpoint", VInt src_ep);
    ("clusterid", VInt cluster); ("transid", VInt sequence); ("options", VInt 0);
    ("radius", VInt radius); ("len", VInt (zlen data)); ("data", VBytes data)]
   [("dstaddr", UINT16); ("destendpoint", UINT8); ("srcendpoint", UINT8); ("clusterid", UINT16); ("transid", UINT8);
    ("options", UINT8); ("radius", UINT8); ("len", UINT8); ("data", BUFFER)] (Some sequence).

Lemma from_cluster_af nwk cluster src_ep dst_ep sequence data radius :
  from_cluster nwk 260 cluster src_ep dst_ep sequence data radius None =
  Ok (af_object nwk cluster src_ep dst_ep sequence radius data).
Proof. reflexivity. Qed.

Ltac dsimp := cbn [write_params bind dict_getE dict_get String.eqb Ascii.eqb Bool.eqb write_parameter write].

Lemma af_frame nwk cluster src_ep dst_ep sequence radius data :
  to_unpi_frame (af_object nwk cluster src_ep dst_ep sequence radius data) =
  if ((0 <=? nwk) && (nwk <? 65536)) && byte_okb dst_ep && byte_okb src_ep && ((0 <=? cluster) && (cluster <? 65536)) &&
     byte_okb sequence && byte_okb radius && (zlen data <? 256)
  then Ok (mk_frame SREQ AF 1 (af_payload nwk cluster src_ep dst_ep sequence radius data) None None)
  else Err OverflowError.
Proof.
  unfold to_unpi_frame, af_object. cbn [z_params z_payload z_type z_sub z_id]. dsimp.
  destruct ((0 <=? nwk) && (nwk <? 65536)) eqn:E1; cbn [andb];
    [rewrite to_bytes2 by lia|rewrite to_bytes2_err by lia; reflexivity]; cbn [bind].
  destruct (byte_okb dst_ep) eqn:E2; cbn [andb];
    [rewrite to_bytes1 by (apply byte_okb_ok, E2)
    |rewrite to_bytes1_err by (rewrite <- byte_okb_ok; congruence); reflexivity]; cbn [bind].
  destruct (byte_okb src_ep) eqn:E3; cbn [andb];
    [rewrite to_bytes1 by (apply byte_okb_ok, E3)
    |rewrite to_bytes1_err by (rewrite <- byte_okb_ok; congruence); reflexivity]; cbn [bind].
  destruct ((0 <=? cluster) && (cluster <? 65536)) eqn:E4; cbn [andb];
    [rewrite to_bytes2 by lia|rewrite to_bytes2_err by lia; reflexivity]; cbn [bind].
  destruct (byte_okb sequence) eqn:E5; cbn [andb];
    [rewrite to_bytes1 by (apply byte_okb_ok, E5)
    |rewrite to_bytes1_err by (rewrite <- byte_okb_ok; congruence); reflexivity]; cbn [bind].
  rewrite (to_bytes1 0) by (unfold byte_ok; lia). cbn [bind].
  destruct (byte_okb radius) eqn:E6; cbn [andb];
    [rewrite to_bytes1 by (apply byte_okb_ok, E6)
    |rewrite to_bytes1_err by (rewrite <- byte_okb_ok; congruence); reflexivity]; cbn [bind].
  destruct (zlen data <? 256) eqn:E7;
    [rewrite to_bytes1 by (unfold byte_ok, zlen in *; lia)
    |rewrite to_bytes1_err by (unfold byte_ok, zlen in *; lia); reflexivity]; cbn [bind].
  unfold af_payload. rewrite app_nil_r. reflexivity.
Qed.

Lemma af_payload_ok nwk cluster src_ep dst_ep sequence radius data :
  af_fields_ok nwk cluster src_ep dst_ep sequence radius data -> bytes_ok data ->
  sendable (mk_frame SREQ AF 1 (af_payload nwk cluster src_ep dst_ep sequence radius data) None None).
Proof.
  intros (H1 & H2 & H3 & H4 & H5 & H6 & H7) Hd. unfold sendable. cbn [f_id f_data].
  split; [unfold byte_ok; lia|]. split.
  - unfold af_payload, byte_ok, bytes_ok, zlen in *. repeat (apply Forall_app; split); try assumption;
      unfold le2; repeat constructor; unfold byte_ok; lia.
  - unfold af_payload. rewrite !app_length. unfold le2. cbn [length]. lia.
Qed.

Lemma af_exact nwk cluster src_ep dst_ep sequence radius data w : bytes_ok data ->
  exists o, from_cluster nwk 260 cluster src_ep dst_ep sequence data radius None = Ok o /\ z_seq o = Some sequence /\
  (af_fields_ok nwk cluster src_ep dst_ep sequence radius data ->
     exists f, to_unpi_frame o = Ok f /\
       gw_send w f = (w ++ [wire 1 4 1 (le2 nwk ++ [dst_ep; src_ep] ++ le2 cluster ++
                            [sequence; 0; radius; Z.of_nat (length data)] ++ data)], Ok tt)) /\
  (~ af_fields_ok nwk cluster src_ep dst_ep sequence radius data ->
     to_unpi_frame o = Err OverflowError \/
     exists f, to_unpi_frame o = Ok f /\ gw_send w f = (w, Err ValueError)).
Proof.
  intro Hd. eexists. split; [apply from_cluster_af|]. split; [reflexivity|]. split.
  - intro Hf. pose proof (af_payload_ok _ _ _ _ _ _ _ Hf Hd) as Hs.
    eexists. split.
    + rewrite af_frame. destruct Hf as (H1 & H2 & H3 & H4 & H5 & H6 & H7). unfold byte_ok in *.
      replace (_ && _) with true; [reflexivity|]. unfold byte_okb, zlen. lia.
    + unfold gw_send. rewrite to_buffer_wire by exact Hs. reflexivity.
  - intro Hf. rewrite af_frame. match goal with |- context [if ?b then _ else _] => destruct b eqn:E end; [right|left; reflexivity].
    eexists. split; [reflexivity|].
    destruct (gw_send_spec w (mk_frame SREQ AF 1 (af_payload nwk cluster src_ep dst_ep sequence radius data) None None)) as [[Hs _]|[_ Hg]].
    + cbn [f_data]. unfold af_payload, byte_okb, bytes_ok, zlen in *. repeat (apply Forall_app; split); try assumption;
      unfold le2; repeat constructor; unfold byte_ok; lia.
    + exfalso. apply Hf. destruct Hs as (_ & _ & Hs). cbn [f_data] in Hs.
      unfold af_payload in Hs. rewrite !app_length in Hs. unfold le2 in Hs. cbn [length] in Hs.
      unfold af_fields_ok, byte_ok, byte_okb in *. lia.
    + exact Hg.
Qed.

(** multicast / broadcast *)
Definition af_ext_payload mode nwk cluster src_ep dst_ep sequence radius (data : list Z) : list Z :=
  [mode] ++ le_bytes 8 nwk ++ [dst_ep; 0; 0; src_ep] ++ le2 cluster ++ [sequence; 0; radius] ++ le2 (zlen data) ++ data.
Definition af_ext_object mode nwk cluster src_ep dst_ep sequence radius (data : list Z) : zpi :=
  mk_zpi SREQ AF "dataRequestExt" 2
   [("dstaddrmode", VInt mode); ("dstaddr", VInt nwk); ("destendpoint", VInt dst_ep); ("dstpanid", VInt 0);
    ("srcendpoint", VInt src_ep); ("clusterid", VInt cluster); ("transid", VInt sequence);
    ("options", VInt 0); ("radius", VInt radius); ("len", VInt (zlen data)); ("data", VBytes data)]
   [("dstaddrmode", UINT8); ("dstaddr", IEEEADDR); ("destendpoint", UINT8); ("dstpanid", UINT16); ("srcendpoint", UINT8);
    ("clusterid", UINT16); ("transid", UINT8); ("options", UINT8); ("radius", UINT8); ("len", UINT16); ("data", BUFFER)]
   (Some sequence).
Lemma from_cluster_ext nwk cluster src_ep dst_ep sequence data radius mode :
  from_cluster nwk 260 cluster src_ep dst_ep sequence data radius (Some mode) =
  Ok (af_ext_object mode nwk cluster src_ep dst_ep sequence radius data).
Proof. reflexivity. Qed.

Lemma to_bytes8 z : 0 <= z < 256 ^ 8 -> to_bytes 8 z = Ok (le_bytes 8 z).
Proof.
  intro H. destruct (to_bytes 8 z) eqn:E.
  - apply to_bytes_inv in E as [_ ->]. reflexivity.
  - apply to_bytes_err in E as [_ E]. exfalso. apply E. exact H.
Qed.
Lemma to_bytes8_err z : ~ 0 <= z < 256 ^ 8 -> to_bytes 8 z = Err OverflowError.
Proof.
  intro H. destruct (to_bytes 8 z) eqn:E; [|apply to_bytes_err in E as [-> _]; reflexivity].
  apply to_bytes_inv in E as [E _]. change (256 ^ Z.of_nat 8) with (256 ^ 8) in E. contradiction.
Qed.

Lemma ext_frame mode nwk cluster src_ep dst_ep sequence radius data :
  to_unpi_frame (af_ext_object mode nwk cluster src_ep dst_ep sequence radius data) =
  if byte_okb mode && ((0 <=? nwk) && (nwk <? 256 ^ 8)) && byte_okb dst_ep && byte_okb src_ep &&
     ((0 <=? cluster) && (cluster <? 65536)) && byte_okb sequence && byte_okb radius && (zlen data <? 65536)
  then Ok (mk_frame SREQ AF 2 (af_ext_payload mode nwk cluster src_ep dst_ep sequence radius data) None None)
  else Err OverflowError.
Proof.
  unfold to_unpi_frame, af_ext_object. cbn [z_params z_payload z_type z_sub z_id]. dsimp.
  destruct (byte_okb mode) eqn:E0; cbn [andb];
    [rewrite to_bytes1 by (apply byte_okb_ok, E0)
    |rewrite to_bytes1_err by (rewrite <- byte_okb_ok; congruence); reflexivity]; cbn [bind].
  destruct ((0 <=? nwk) && (nwk <? 256 ^ 8)) eqn:E1; cbn [andb];
    [rewrite to_bytes8 by lia|rewrite to_bytes8_err by lia; reflexivity]; cbn [bind].
  destruct (byte_okb dst_ep) eqn:E2; cbn [andb];
    [rewrite to_bytes1 by (apply byte_okb_ok, E2)
    |rewrite to_bytes1_err by (rewrite <- byte_okb_ok; congruence); reflexivity]; cbn [bind].
  rewrite (to_bytes2 0) by lia. cbn [bind].
  destruct (byte_okb src_ep) eqn:E3; cbn [andb];
    [rewrite to_bytes1 by (apply byte_okb_ok, E3)
    |rewrite to_bytes1_err by (rewrite <- byte_okb_ok; congruence); reflexivity]; cbn [bind].
  destruct ((0 <=? cluster) && (cluster <? 65536)) eqn:E4; cbn [andb];
    [rewrite to_bytes2 by lia|rewrite to_bytes2_err by lia; reflexivity]; cbn [bind].
  destruct (byte_okb sequence) eqn:E5; cbn [andb];
    [rewrite to_bytes1 by (apply byte_okb_ok, E5)
    |rewrite to_bytes1_err by (rewrite <- byte_okb_ok; congruence); reflexivity]; cbn [bind].
  rewrite (to_bytes1 0) by (unfold byte_ok; lia). cbn [bind].
  destruct (byte_okb radius) eqn:E6; cbn [andb];
    [rewrite to_bytes1 by (apply byte_okb_ok, E6)
    |rewrite to_bytes1_err by (rewrite <- byte_okb_ok; congruence); reflexivity]; cbn [bind].
  destruct (zlen data <? 65536) eqn:E7;
    [rewrite to_bytes2 by (unfold zlen in *; lia)
    |rewrite to_bytes2_err by (unfold zlen in *; lia); reflexivity]; cbn [bind].
  unfold af_ext_payload. rewrite app_nil_r. reflexivity.
Qed.

Lemma ext_bytes mode nwk cluster src_ep dst_ep sequence radius data :
  byte_ok mode -> byte_ok dst_ep -> byte_ok src_ep -> 0 <= cluster < 65536 -> byte_ok sequence -> byte_ok radius ->
  zlen data < 65536 -> bytes_ok data ->
  bytes_ok (af_ext_payload mode nwk cluster src_ep dst_ep sequence radius data).
Proof.
  intros. unfold af_ext_payload, byte_ok, bytes_ok, zlen in *.
  apply Forall_app; split; [repeat constructor; unfold byte_ok; lia|].
  apply Forall_app; split; [apply le_bytes_ok|].
  repeat (apply Forall_app; split); try assumption; unfold le2; repeat constructor; unfold byte_ok; lia.
Qed.
Lemma ext_length mode nwk cluster src_ep dst_ep sequence radius data :
  length (af_ext_payload mode nwk cluster src_ep dst_ep sequence radius data) = (20 + length data)%nat.
Proof. unfold af_ext_payload. rewrite !app_length, le_bytes_length. unfold le2. cbn [length]. lia. Qed.

Lemma ext_exact mode nwk cluster src_ep dst_ep sequence radius data w : bytes_ok data ->
  exists o, from_cluster nwk 260 cluster src_ep dst_ep sequence data radius (Some mode) = Ok o /\ z_seq o = Some sequence /\
  (af_ext_fields_ok mode nwk cluster src_ep dst_ep sequence radius data ->
     exists f addr, to_unpi_frame o = Ok f /\ bytes_ok addr /\ length addr = 8%nat /\ le_value addr = nwk /\
       gw_send w f = (w ++ [wire 1 4 2 ([mode] ++ addr ++ [dst_ep; 0; 0; src_ep] ++ le2 cluster ++
                            [sequence; 0; radius] ++ le2 (Z.of_nat (length data)) ++ data)], Ok tt)) /\
  (~ af_ext_fields_ok mode nwk cluster src_ep dst_ep sequence radius data ->
     to_unpi_frame o = Err OverflowError \/
     exists f, to_unpi_frame o = Ok f /\ gw_send w f = (w, Err ValueError)).
Proof.
  intro Hd. eexists. split; [apply from_cluster_ext|]. split; [reflexivity|]. split.
  - intros (H0 & H1 & H2 & H3 & H4 & H5 & H6 & H7).
    exists (mk_frame SREQ AF 2 (af_ext_payload mode nwk cluster src_ep dst_ep sequence radius data) None None), (le_bytes 8 nwk).
    split.
    + rewrite ext_frame. unfold byte_ok in *. replace (_ && _) with true; [reflexivity|]. unfold byte_okb, zlen. lia.
    + split; [apply le_bytes_ok|]. split; [apply le_bytes_length|]. split; [apply le_value_bytes, H1|].
      unfold gw_send. rewrite to_buffer_wire; [reflexivity|].
      split; [unfold byte_ok; cbn; lia|]. cbn [f_data]. split; [|rewrite ext_length; lia].
      apply ext_bytes; try assumption. unfold zlen. lia.
  - intro Hf. rewrite ext_frame. match goal with |- context [if ?b then _ else _] => destruct b eqn:E end; [right|left; reflexivity].
    eexists. split; [reflexivity|]. unfold byte_okb in E.
    destruct (gw_send_spec w (mk_frame SREQ AF 2 (af_ext_payload mode nwk cluster src_ep dst_ep sequence radius data) None None)) as [[Hs _]|[_ Hg]].
    + cbn [f_data]. apply ext_bytes; try assumption; unfold byte_ok; lia.
    + exfalso. apply Hf. destruct Hs as (_ & _ & Hs). cbn [f_data] in Hs. rewrite ext_length in Hs.
      unfold af_ext_fields_ok, byte_ok. lia.
    + exact Hg.
Qed.

(** ** profiles *)
Lemma other_profiles nwk profile cluster src_ep dst_ep sequence data radius mode o : profile <> 260 ->
  from_cluster nwk profile cluster src_ep dst_ep sequence data radius mode = Ok o -> z_sub o = ZDO.
Proof.
  intros Hp H. unfold from_cluster, ZHA_PROFILE in H. apply Z.eqb_neq in Hp. rewrite Hp in H.
  change (definition ZDO) with (Ok def_ZDO) in H. cbn [bind] in H.
  destruct (next_cmd _ def_ZDO) as [c|]; [|discriminate]. cbn [bind] in H.
  destruct (select_params (c_type c) c) as [ps|]; [|discriminate]. cbn [bind] in H.
  match type of H with (do d <- ?e; _) = _ => destruct e; [|discriminate] end.
  cbn [bind] in H. injection H as <-. reflexivity.
Qed.
Lemma zha_profile nwk cluster src_ep dst_ep sequence data radius mode :
  exists o, from_cluster nwk 260 cluster src_ep dst_ep sequence data radius mode = Ok o /\ z_sub o = AF /\
    z_cmd o = match mode with None => "dataRequest" | Some _ => "dataRequestExt" end.
Proof. destruct mode; eexists; split; try reflexivity; split; reflexivity. Qed.

(** ** address requests lose their arguments *)
Lemma nwk_addr_request nwk a0 a1 a2 a3 a4 a5 a6 a7 rt si seq e1 e2 s r m : 0 <= nwk < 65536 ->
  exists o, from_cluster nwk 0 0 e1 e2 s [seq; a0; a1; a2; a3; a4; a5; a6; a7; rt; si] r m = Ok o /\
    z_payload o = [("ieeeaddr", VEui [nwk mod 256; nwk / 256; a0; a1; a2; a3; a4; a5]);
                   ("reqtype", VInt a6); ("startindex", VInt a7)].
Proof.
  intro Hn. eexists. split.
  - refine (eq_trans (from_cluster_zdo nwk 0 (nth 0 def_ZDO (mk_cmd "" 0 SREQ None None)) [("ieeeaddr", IEEEADDR); ("reqtype", UINT8); ("startindex", UINT8)] e1 e2 s _ r m _ _ _ Hn) _);
      [lia|left; reflexivity|reflexivity|reflexivity].
  - transitivity [("ieeeaddr", VEui [nwk mod 256; nwk / 256; a0; a1; a2; a3; a4; a5]);
                  ("reqtype", VInt (from_bytes [a6])); ("startindex", VInt (from_bytes [a7]))];
      [reflexivity|]. rewrite !from_bytes1. reflexivity.
Qed.
Lemma ieee_addr_request nwk lo hi rt si seq e1 e2 s r m : 0 <= nwk < 65536 ->
  exists o, from_cluster nwk 0 1 e1 e2 s [seq; lo; hi; rt; si] r m = Ok o /\
    z_payload o = [("shortaddr", VInt nwk); ("reqtype", VInt lo); ("startindex", VInt hi)].
Proof.
  intro Hn. eexists. split.
  - refine (eq_trans (from_cluster_zdo nwk 0 (nth 1 def_ZDO (mk_cmd "" 0 SREQ None None)) [("shortaddr", UINT16); ("reqtype", UINT8); ("startindex", UINT8)] e1 e2 s _ r m _ _ _ Hn) _);
      [lia|right; left; reflexivity|reflexivity|reflexivity].
  - transitivity [("shortaddr", VInt (from_bytes (le2 nwk)));
                  ("reqtype", VInt (from_bytes [lo])); ("startindex", VInt (from_bytes [hi]))];
      [reflexivity|]. rewrite !from_bytes1.
    rewrite from_bytes_le2 by exact Hn. reflexivity.
Qed.
