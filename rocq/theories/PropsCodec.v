(** * Properties of the payload codec, the command table and request building *)
From Verif Require Import Base Types Uart Buffalo CmdTable Zpi SpecWire SpecCodec UartProofs UartProofs2 CodecProofs CodecProofs2 CodecProofs3 RequestProofs.

Definition lit_params : list param := [("endpoint", UINT8); ("len", UINT8); ("data", BUFFER)].

(** ** C12 *)
(** Also for lists in which a name occurs twice; then both are written from the one value that the dict has. *)
Theorem C12_encode_decode : forall ps pl d,
  payload_fits None ps pl -> holds d pl ->
  exists bs pl', write_params ps d = Ok bs /\ bytes_ok bs /\ payload_wire None ps pl bs /\
    (forall extra, read_parameters (bs ++ extra) ps = Ok pl') /\
    (forall n, dict_get pl' n = dict_get pl n) /\ (NoDup (map fst ps) -> pl' = pl).
Proof. exact encode_decode_any. Qed.
Print Assumptions C12_encode_decode.
Example C12_inhabited :
  payload_fits None lit_params [("endpoint", VInt 9); ("len", VInt 2); ("data", VBytes [7; 8])] /\
  write_params lit_params [("data", VBytes [7; 8]); ("endpoint", VInt 9); ("len", VInt 2)] = Ok [9; 2; 7; 8] /\
  read_parameters [9; 2; 7; 8; 99] lit_params = Ok [("endpoint", VInt 9); ("len", VInt 2); ("data", VBytes [7; 8])].
Proof. split; [|split; reflexivity]. cbn. unfold bytes_ok. repeat (split || constructor || discriminate). Qed.

(** ** C13 *)
Theorem C13_decode_encode : forall ps l pl,
  NoDup (map fst ps) -> bytes_ok l -> read_parameters l ps = Ok pl ->
  Forall (fun p => writable (snd p) = true) ps ->
  exists n bs', (n <= length l)%nat /\
    (forall m, (m < n)%nat -> read_parameters (firstn m l) ps = Err OverflowError) /\
    (forall x, read_parameters (firstn n l ++ x) ps = Ok pl) /\
    write_params ps pl = Ok bs' /\ read_parameters bs' ps = Ok pl /\
    Forall2 masked (firstn n l) bs' /\
    (Forall (fun p => snd p <> LIST_NEIGHBOR_LQI) ps -> bs' = firstn n l).
Proof. exact decode_encode. Qed.
Print Assumptions C13_decode_encode.
(** Exactly which bits of a neighbour entry are lost. *)
Theorem C13_neighbor_entry : forall pan ext nwk bits pj depth lqi r,
  length pan = 8%nat -> length ext = 8%nat -> bytes_ok pan -> bytes_ok ext -> 0 <= nwk < 65536 ->
  byte_ok bits -> byte_ok pj -> byte_ok depth -> byte_ok lqi ->
  exists n, read_neighbor_lqi (pan ++ ext ++ le2 nwk ++ [bits; pj; depth; lqi] ++ r) = Ok (n, r) /\
    write_neighbor_lqi n = Ok (pan ++ ext ++ le2 nwk ++ [bits mod 128; pj mod 4; depth; lqi]).
Proof. exact neighbor_mask. Qed.
Print Assumptions C13_neighbor_entry.
Example C13_inhabited :
  read_parameters [9; 2; 7; 8; 99] lit_params = Ok [("endpoint", VInt 9); ("len", VInt 2); ("data", VBytes [7; 8])] /\
  write_params lit_params [("endpoint", VInt 9); ("len", VInt 2); ("data", VBytes [7; 8])] = Ok (firstn 4 [9; 2; 7; 8; 99]).
Proof. split; reflexivity. Qed.

(** ** C14 *)
Theorem C14_truncation_raises : forall ps l pl,
  bytes_ok l -> read_parameters l ps = Ok pl ->
  exists n vs, (n <= length l)%nat /\ payload_wire None ps vs (firstn n l) /\ pl = dict_of vs /\ (NoDup (map fst ps) -> pl = vs) /\
    (forall m, (m < n)%nat -> read_parameters (firstn m l) ps = Err OverflowError) /\
    (forall x, read_parameters (firstn n l ++ x) ps = Ok pl).
Proof. exact decode_consumes_any. Qed.
Print Assumptions C14_truncation_raises.
Example C14_inhabited : read_parameters [9; 2; 7] lit_params = Err OverflowError.
Proof. reflexivity. Qed.

(** ** C15 *)
Theorem C15_trailing_bytes : forall ps l pl x,
  bytes_ok l -> read_parameters l ps = Ok pl -> read_parameters (l ++ x) ps = Ok pl.
Proof. exact trailing_any. Qed.
Print Assumptions C15_trailing_bytes.
Example C15_inhabited : read_parameters ([9; 0] ++ [5]) lit_params = read_parameters [9; 0] lit_params /\
  exists pl, read_parameters [9; 0] lit_params = Ok pl.
Proof. split; [reflexivity|eexists; reflexivity]. Qed.

(** ** C16 *)
Theorem C16_nothing_truncated : forall ps d bs, write_params ps d = Ok bs ->
  exists ws, bs = concat ws /\
    Forall2 (fun p w => exists v, dict_get d (fst p) = Some v /\ faithful (snd p) v w) ps ws.
Proof. exact write_params_faithful. Qed.
Print Assumptions C16_nothing_truncated.
Theorem C16_misfit_raises : forall ps d n t w z,
  In (n, t) ps -> int_width t = Some w -> dict_get d n = Some (VInt z) -> ~ (0 <= z < 256 ^ Z.of_nat w) ->
  exists e, write_params ps d = Err e.
Proof. exact out_of_range_raises. Qed.
Print Assumptions C16_misfit_raises.
Example C16_inhabited :
  write_params [("a", UINT16)] [("a", VInt 513)] = Ok [1; 2] /\
  write_params [("a", UINT16)] [("a", VInt 65536)] = Err OverflowError.
Proof. split; reflexivity. Qed.

(** ** C17 *)
Theorem C17_commands_unambiguous : forall s cs, definition s = Ok cs ->
  NoDup (map c_name cs) /\ NoDup (map c_ID cs) /\
  forall c, In c cs ->
    (forall ps d, c_request c = Some ps -> exists o, from_command s (c_name c) d = Ok o /\ z_id o = c_ID c /\
        z_params o = ps /\ find (fun x => c_ID x =? z_id o) cs = Some c) /\
    (forall ps, c_request c = Some ps \/ c_response c = Some ps -> NoDup (map fst ps)).
Proof.
  intros s cs H. split; [eapply table_names; exact H|]. split; [eapply table_ids; exact H|].
  intros c Hc. split.
  - intros ps d Hps. eexists. split; [eapply from_command_ok; eassumption|]. cbn [z_id z_params].
    split; [reflexivity|]. split; [reflexivity|]. eapply find_by_id; eassumption.
  - intros ps Hps. eapply table_params; eassumption.
Qed.
Print Assumptions C17_commands_unambiguous.
(** Every command has a one-byte id and a request list; requests also have a response list. *)
Theorem C17_commands_well_formed : forall s cs c, definition s = Ok cs -> In c cs ->
  (c_type c = SREQ \/ c_type c = AREQ) /\ (exists ps, c_request c = Some ps) /\ byte_ok (c_ID c) /\
  (c_type c = SREQ -> exists ps, c_response c = Some ps).
Proof. exact table_shape. Qed.
Print Assumptions C17_commands_well_formed.
(** The one decoder case outside the model (a buffer length that is negative) never arises. *)
Theorem C17_decoder_fully_modelled : forall s cs c ps l, definition s = Ok cs -> In c cs ->
  (c_request c = Some ps \/ c_response c = Some ps) -> bytes_ok l -> read_parameters l ps <> Err Unmodelled.
Proof.
  intros s cs c ps l Hs Hc Hps Hok. apply read_params_modelled; [exact Hok|].
  eapply int8_never_a_length; eassumption.
Qed.
Print Assumptions C17_decoder_fully_modelled.
Example C17_inhabited : exists cs c, definition ZDO = Ok cs /\ In c cs /\ c_name c = "activeEpReq" /\ length cs = 89%nat.
Proof. eexists. exists (nth 5 def_ZDO (mk_cmd "" 0 SREQ None None)). split; [reflexivity|]. split; [do 5 right; left; reflexivity|]. split; reflexivity. Qed.

(** ** C18 *)
Theorem C18_wire_round_trip : forall s cs c ps pl d,
  definition s = Ok cs -> In c cs -> c_request c = Some ps -> payload_fits None ps pl -> holds d pl ->
  exists o f, from_command s (c_name c) d = Ok o /\ to_unpi_frame o = Ok f /\
    payload_wire None ps pl (f_data f) /\
    ((1 <= length (f_data f) <= 255)%nat ->
     exists bs f' o', gw_send [] f = ([bs], Ok tt) /\ parser_run [] bs = ([], [Ok f']) /\
       from_unpi_frame f' = Ok o' /\
       z_type o' = c_type c /\ z_sub o' = s /\ z_cmd o' = c_name c /\ z_payload o' = pl).
Proof. exact end_to_end. Qed.
Print Assumptions C18_wire_round_trip.
(** Replies and indications decode to what the stick encoded. *)
Theorem C18_incoming : forall s cs c ps t pl bs rest l k, definition s = Ok cs -> In c cs ->
  (t = SRSP /\ c_response c = Some ps \/ t <> SRSP /\ c_request c = Some ps) ->
  payload_wire None ps pl bs ->
  from_unpi_frame (mk_frame t s (c_ID c) (bs ++ rest) l k) = Ok (mk_zpi t s (c_name c) (c_ID c) pl ps None).
Proof. exact from_unpi_ok. Qed.
Print Assumptions C18_incoming.
Example C18_inhabited :
  exists o f, from_command ZDO "activeEpReq" [("dstaddr", VInt 4660); ("nwkaddrofinterest", VInt 4660)] = Ok o /\
    to_unpi_frame o = Ok f /\ f_data f = [52; 18; 52; 18] /\
    from_unpi_frame (mk_frame SREQ ZDO 5 [52; 18; 52; 18] None None) =
      Ok (mk_zpi SREQ ZDO "activeEpReq" 5 [("dstaddr", VInt 4660); ("nwkaddrofinterest", VInt 4660)]
            [("dstaddr", UINT16); ("nwkaddrofinterest", UINT16)] None).
Proof. eexists. eexists. repeat split; vm_compute; reflexivity. Qed.

(** ** C19 (false): seven ZDO and two UTIL commands, and one UTIL response, can never be decoded. *)
Theorem C19_all_decodable_refuted :
  forall s n, In (s, n) [(ZDO, "nwkAddrRsp"); (ZDO, "ieeeAddrRsp"); (ZDO, "mgmtNwkDiscRsp"); (ZDO, "mgmtRtgRsp"); (ZDO, "mgmtBindRsp")] ->
  exists cs c, definition s = Ok cs /\ In c cs /\ c_name c = n /\ c_type c = AREQ /\
    forall l, bytes_ok l -> exists e, from_unpi_frame (mk_frame AREQ s (c_ID c) l None None) = Err e.
Proof.
  intros s n H.
  assert (G : exists c, s = ZDO /\ In c def_ZDO /\ c_name c = n /\ c_type c = AREQ /\ In (ZDO, n) (undecodable_names false)).
  { assert (Hu : In (s, n) (undecodable_names false)) by (rewrite undecodable_requests; cbn in H |- *; tauto).
    assert (Hf : exists c, find (fun c => String.eqb (c_name c) n) def_ZDO = Some c /\ c_type c = AREQ /\ s = ZDO).
    { cbn [In] in H. destruct H as [H|[H|[H|[H|[H|[]]]]]]; injection H as <- <-;
        eexists; (split; [vm_compute; reflexivity|split; reflexivity]). }
    destruct Hf as (c & Hf & Ht & ->). apply find_some in Hf as [Hin Hn]. apply String.eqb_eq in Hn.
    exists c. auto. }
  destruct G as (c & -> & Hin & Hn & Ht & Hu). exists def_ZDO, c. repeat split; try assumption.
  destruct (table_shape ZDO def_ZDO c eq_refl Hin) as (_ & (ps & Hps) & _).
  intros l Hok. destruct (from_unpi_frame (mk_frame AREQ ZDO (c_ID c) l None None)) as [o|e] eqn:E; [exfalso|eauto].
  apply (incoming_decodable ZDO def_ZDO c ps AREQ eq_refl Hin); [right; split; [discriminate|exact Hps]| |].
  - exists l, o. auto.
  - rewrite Hn. exact Hu.
Qed.
Print Assumptions C19_all_decodable_refuted.
(** What holds: every other command decodes, in both directions; the lists below are exact. *)
Theorem C19_all_decodable_partial : forall s cs c ps t, definition s = Ok cs -> In c cs ->
  (t = SRSP /\ c_response c = Some ps \/ t <> SRSP /\ c_request c = Some ps) ->
  ((exists l o, bytes_ok l /\ from_unpi_frame (mk_frame t s (c_ID c) l None None) = Ok o) <->
   ~ In (s, c_name c) (if ct_eqb t SRSP then [(UTIL, "testLoopback")] else
      [(ZDO, "setLinkKey"); (ZDO, "nwkAddrRsp"); (ZDO, "ieeeAddrRsp"); (ZDO, "mgmtNwkDiscRsp");
       (ZDO, "mgmtRtgRsp"); (ZDO, "mgmtBindRsp"); (ZDO, "secAddLinkKey"); (UTIL, "setPrecfgkey");
       (UTIL, "testLoopback")])).
Proof.
  intros s cs c ps t Hs Hc Hps. rewrite (incoming_decodable s cs c ps t Hs Hc Hps).
  destruct (ct_eqb t SRSP); [rewrite undecodable_responses|rewrite undecodable_requests]; reflexivity.
Qed.
Print Assumptions C19_all_decodable_partial.
Example C19_inhabited : from_unpi_frame (mk_frame AREQ ZDO 128 (repeat 0 40) None None) = Err TODO /\
  exists o, from_unpi_frame (mk_frame AREQ ZDO 133 [1; 2; 0; 1; 2; 2; 8; 9] None None) = Ok o.
Proof. split; [vm_compute; reflexivity|eexists; vm_compute; reflexivity]. Qed.

(** ** C20 *)
Theorem C20_zdo_request : forall nwk profile c ps src_ep dst_ep sequence data radius mode,
  profile <> 260 -> In c def_ZDO -> c_type c = SREQ -> c_request c = Some ps -> 0 <= nwk < 65536 -> bytes_ok data ->
  let body := zdo_body (String.eqb (c_name c) "mgmtPermitJoinReq") nwk in
  match from_cluster nwk profile (c_ID c) src_ep dst_ep sequence data radius mode with
  | Ok o => exists n, (n <= length (body data))%nat /\
      to_unpi_frame o = Ok (mk_frame SREQ ZDO (c_ID c) (firstn n (body data)) None None) /\
      z_cmd o = c_name c /\ z_seq o = Some sequence /\
      payload_wire None ps (z_payload o) (firstn n (body data)) /\
      (forall data', (length (body data') < n)%nat ->
         skipn 1 data' = firstn (length data' - 1) (skipn 1 data) ->
         from_cluster nwk profile (c_ID c) src_ep dst_ep sequence data' radius mode = Err OverflowError)
  | Err e => forall pl bs rest, body data = bs ++ rest -> ~ payload_wire None ps pl bs
  end.
Proof. exact zdo_faithful. Qed.
Print Assumptions C20_zdo_request.
(** A well-formed request goes out whole. *)
Theorem C20_zdo_request_whole : forall nwk profile c ps src_ep dst_ep sequence data radius mode pl,
  profile <> 260 -> In c def_ZDO -> c_type c = SREQ -> c_request c = Some ps -> 0 <= nwk < 65536 ->
  let body := zdo_body (String.eqb (c_name c) "mgmtPermitJoinReq") nwk data in
  payload_wire None ps pl body ->
  exists o, from_cluster nwk profile (c_ID c) src_ep dst_ep sequence data radius mode = Ok o /\
    z_payload o = pl /\ to_unpi_frame o = Ok (mk_frame SREQ ZDO (c_ID c) body None None).
Proof. exact zdo_exact. Qed.
Print Assumptions C20_zdo_request_whole.
Theorem C20_bad_address : forall nwk profile c ps src_ep dst_ep sequence data radius mode,
  profile <> 260 -> In c def_ZDO -> c_request c = Some ps -> ~ 0 <= nwk < 65536 ->
  from_cluster nwk profile (c_ID c) src_ep dst_ep sequence data radius mode = Err OverflowError.
Proof. exact from_cluster_range. Qed.
Print Assumptions C20_bad_address.
Theorem C20_unknown_cluster : forall nwk profile cluster src_ep dst_ep sequence data radius mode,
  profile <> 260 -> (forall c, In c def_ZDO -> c_ID c <> cluster) ->
  from_cluster nwk profile cluster src_ep dst_ep sequence data radius mode = Err StopIteration.
Proof. exact from_cluster_unknown. Qed.
Print Assumptions C20_unknown_cluster.
Example C20_inhabited :
  (exists o f, from_cluster 4660 0 5 0 0 7 [7; 52; 18] 30 None = Ok o /\ to_unpi_frame o = Ok f /\ f_data f = [52; 18; 52; 18]) /\
  (exists o f, from_cluster 65532 0 54 0 0 7 [7; 60; 0] 30 None = Ok o /\ to_unpi_frame o = Ok f /\ f_data f = [15; 252; 255; 60; 0]) /\
  (exists o f, from_cluster 0 0 54 0 0 7 [7; 60; 0] 30 None = Ok o /\ to_unpi_frame o = Ok f /\ f_data f = [2; 0; 0; 60; 0]) /\
  from_cluster 4660 0 5 0 0 7 [7; 52] 30 None = Err OverflowError.
Proof. repeat split; try (do 2 eexists; repeat split; vm_compute; reflexivity). Qed.

(** ** C21 *)
Theorem C21_zcl_unicast : forall nwk cluster src_ep dst_ep sequence radius data w, bytes_ok data ->
  exists o, from_cluster nwk 260 cluster src_ep dst_ep sequence data radius None = Ok o /\ z_seq o = Some sequence /\
  (af_fields_ok nwk cluster src_ep dst_ep sequence radius data ->
     exists f, to_unpi_frame o = Ok f /\
       gw_send w f = (w ++ [wire 1 4 1 (le2 nwk ++ [dst_ep; src_ep] ++ le2 cluster ++
                            [sequence; 0; radius; Z.of_nat (length data)] ++ data)], Ok tt)) /\
  (~ af_fields_ok nwk cluster src_ep dst_ep sequence radius data ->
     to_unpi_frame o = Err OverflowError \/
     exists f, to_unpi_frame o = Ok f /\ gw_send w f = (w, Err ValueError)).
Proof. exact af_exact. Qed.
Print Assumptions C21_zcl_unicast.
Example C21_inhabited : af_fields_ok 53322 6 1 1 7 30 [1; 7; 0] /\
  exists o f, from_cluster 53322 260 6 1 1 7 [1; 7; 0] 30 None = Ok o /\ to_unpi_frame o = Ok f /\
    gw_send [] f = ([[254; 13; 36; 1; 74; 208; 1; 1; 6; 0; 7; 0; 30; 3; 1; 7; 0; 168]], Ok tt).
Proof. split; [unfold af_fields_ok, byte_ok; cbn; lia|]. do 2 eexists. repeat split; vm_compute; reflexivity. Qed.

(** ** C22 *)
Theorem C22_zcl_group : forall mode nwk cluster src_ep dst_ep sequence radius data w, bytes_ok data ->
  exists o, from_cluster nwk 260 cluster src_ep dst_ep sequence data radius (Some mode) = Ok o /\ z_seq o = Some sequence /\
  (af_ext_fields_ok mode nwk cluster src_ep dst_ep sequence radius data ->
     exists f addr, to_unpi_frame o = Ok f /\ bytes_ok addr /\ length addr = 8%nat /\ le_value addr = nwk /\
       gw_send w f = (w ++ [wire 1 4 2 ([mode] ++ addr ++ [dst_ep; 0; 0; src_ep] ++ le2 cluster ++
                            [sequence; 0; radius] ++ le2 (Z.of_nat (length data)) ++ data)], Ok tt)) /\
  (~ af_ext_fields_ok mode nwk cluster src_ep dst_ep sequence radius data ->
     to_unpi_frame o = Err OverflowError \/
     exists f, to_unpi_frame o = Ok f /\ gw_send w f = (w, Err ValueError)).
Proof. exact ext_exact. Qed.
Print Assumptions C22_zcl_group.
Example C22_inhabited : af_ext_fields_ok 1 4660 6 1 255 7 0 [1; 7; 0] /\
  exists o f, from_cluster 4660 260 6 1 255 7 [1; 7; 0] 0 (Some 1) = Ok o /\ to_unpi_frame o = Ok f /\
    f_data f = [1; 52; 18; 0; 0; 0; 0; 0; 0; 255; 0; 0; 1; 6; 0; 7; 0; 0; 3; 0; 1; 7; 0].
Proof. split; [unfold af_ext_fields_ok, byte_ok; cbn; lia|]. do 2 eexists. repeat split; vm_compute; reflexivity. Qed.

(** ** C23 (false): whatever is not on profile 260 is sent as a ZDO command or not at all. *)
Theorem C23_profiles_refuted : forall nwk profile cluster src_ep dst_ep sequence data radius mode o, profile <> 260 ->
  from_cluster nwk profile cluster src_ep dst_ep sequence data radius mode = Ok o -> z_sub o = ZDO.
Proof. exact other_profiles. Qed.
Print Assumptions C23_profiles_refuted.
Theorem C23_profiles_partial : forall nwk cluster src_ep dst_ep sequence data radius mode,
  exists o, from_cluster nwk 260 cluster src_ep dst_ep sequence data radius mode = Ok o /\ z_sub o = AF /\
    z_cmd o = match mode with None => "dataRequest" | Some _ => "dataRequestExt" end.
Proof. exact zha_profile. Qed.
Print Assumptions C23_profiles_partial.
(** A light-link (0xC05E) command on the scenes cluster becomes an active-endpoint query. *)
Example C23_inhabited : exists o, from_cluster 4660 49246 5 1 11 7 [1; 7; 0] 30 None = Ok o /\ z_cmd o = "activeEpReq".
Proof. eexists. split; vm_compute; reflexivity. Qed.

(** ** C64 (false for the two address requests): the destination is put where the stick expects the
    address asked about, and every following byte is shifted. *)
Theorem C64_nwk_address_request_refuted : forall nwk a0 a1 a2 a3 a4 a5 a6 a7 rt si seq e1 e2 s r m, 0 <= nwk < 65536 ->
  exists o, from_cluster nwk 0 0 e1 e2 s [seq; a0; a1; a2; a3; a4; a5; a6; a7; rt; si] r m = Ok o /\
    z_payload o = [("ieeeaddr", VEui [nwk mod 256; nwk / 256; a0; a1; a2; a3; a4; a5]);
                   ("reqtype", VInt a6); ("startindex", VInt a7)].
Proof. exact nwk_addr_request. Qed.
Print Assumptions C64_nwk_address_request_refuted.
Theorem C64_ieee_address_request_refuted : forall nwk lo hi rt si seq e1 e2 s r m, 0 <= nwk < 65536 ->
  exists o, from_cluster nwk 0 1 e1 e2 s [seq; lo; hi; rt; si] r m = Ok o /\
    z_payload o = [("shortaddr", VInt nwk); ("reqtype", VInt lo); ("startindex", VInt hi)].
Proof. exact ieee_addr_request. Qed.
Print Assumptions C64_ieee_address_request_refuted.
(** What holds: for every command that begins with the destination the arguments arrive intact. *)
Theorem C64_arguments_intact_partial : forall nwk profile c ps src_ep dst_ep sequence data radius mode o,
  profile <> 260 -> In c def_ZDO -> c_request c = Some (("dstaddr", UINT16) :: ps) ->
  String.eqb (c_name c) "mgmtPermitJoinReq" = false ->
  0 <= nwk < 65536 -> bytes_ok data ->
  from_cluster nwk profile (c_ID c) src_ep dst_ep sequence data radius mode = Ok o ->
  exists pl, z_payload o = ("dstaddr", VInt nwk) :: pl /\
    exists bs rest, skipn 1 data = bs ++ rest /\ payload_wire (Some nwk) ps pl bs.
Proof. exact zdo_dstaddr. Qed.
Print Assumptions C64_arguments_intact_partial.
Example C64_inhabited :
  map c_ID (filter (fun c => match c_request c with Some (("dstaddr", UINT16) :: _) => ct_eqb (c_type c) SREQ | _ => false end) def_ZDO)
  = [2; 3; 4; 5; 6; 7; 8; 11; 32; 33; 34; 48; 49; 50; 51; 52; 53; 55; 70; 78; 79].
Proof. vm_compute. reflexivity. Qed.
