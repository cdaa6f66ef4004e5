(** * AppProofs: what the application does with a received message *)
From Coq Require Import ZifyBool ZifyNat.
From Verif Require Import Base Types Uart Buffalo CmdTable Zpi Api App SpecCodec SpecApi UartProofs CodecProofs CodecProofs2 RequestProofs ApiProofs.
Ltac Zify.zify_post_hook ::= Z.div_mod_to_equations.

(** ** nothing for responses, requests and ignored indications *)
Lemma not_areq v devs o : z_type o <> AREQ -> handle_znp v devs o = (devs, [], Ok tt).
Proof. intro H. unfold handle_znp. destruct (ct_eqb_spec (z_type o) AREQ); [contradiction|reflexivity]. Qed.

Lemma ignored_ok n : In n ignored_names -> existsb (String.eqb n) IGNORED = true.
Proof. intro H. apply existsb_exists. exists n. split; [exact H|apply String.eqb_refl]. Qed.
Lemma ignored_not_announce n : In n ignored_names -> String.eqb n "endDeviceAnnceInd" = false.
Proof. intro H. repeat destruct H as [<-|H]; try reflexivity. destruct H. Qed.

Lemma ignored_silent v devs o : In (z_cmd o) ignored_names ->
  exists r, handle_znp v devs o = (devs, [], r) /\ (is_ok (to_unpi_frame o) = true -> r = Ok tt).
Proof.
  intro H. unfold handle_znp. destruct (negb (ct_eqb (z_type o) AREQ)); [eauto|].
  destruct (to_unpi_frame o) as [f|e]; [|eexists; split; [reflexivity|discriminate]].
  rewrite (ignored_not_announce _ H), andb_false_r.
  unfold handle_rest. rewrite (ignored_ok _ H). eauto.
Qed.

(** the ignored indications can be re-encoded, so they never raise *)
Lemma ignored_writable f r : bytes_ok (f_data f) -> from_unpi_frame f = Ok r -> z_type r = AREQ ->
  In (z_cmd r) ignored_names -> is_ok (to_unpi_frame r) = true.
Proof.
  intros Hok H Ht Hin. destruct (decoded_inv f r Hok H) as (cs & c & ps & n & pl & Hd & Hc & _ & Hsel & -> & Hw & Hnd).
  cbn [z_type z_cmd] in *. destruct Hsel as [[E _]|[_ Hreq]]; [congruence|].
  assert (E : forallb (fun '(s, c) => negb (existsb (String.eqb (c_name c)) ignored_names) ||
     match c_request c with Some ps => forallb (fun p => writable (snd p)) ps | None => false end) table = true)
    by (vm_compute; reflexivity).
  apply (table_sweep (fun s c => negb (existsb (String.eqb (c_name c)) ignored_names) ||
     match c_request c with Some ps => forallb (fun p => writable (snd p)) ps | None => false end))
    with (s := f_sub f) (cs := cs) (c := c) in E; try assumption.
  rewrite (ignored_ok _ Hin : existsb (String.eqb (c_name c)) ignored_names = true), Hreq in E. cbn [negb orb] in E.
  rewrite forallb_forall in E.
  destruct (rewrite_payload _ _ _ _ Hw pl (holds_self _ _ _ _ Hnd Hw)) as (bs' & E' & _).
  { apply Forall_forall. exact E. }
  unfold to_unpi_frame. cbn [z_params z_payload]. rewrite E'. reflexivity.
Qed.

(** ** incoming application messages *)
Definition c_incoming : cmd := nth 0 (filter (fun c => c_ID c =? 129) def_AF) (mk_cmd "" 0 SREQ None None).
Definition c_incoming_ext : cmd := nth 0 (filter (fun c => c_ID c =? 130) def_AF) (mk_cmd "" 0 SREQ None None).
Lemma c_incoming_in : In c_incoming def_AF.
Proof. assert (In c_incoming (filter (fun c => c_ID c =? 129) def_AF)) as H by (vm_compute; left; reflexivity). apply filter_In in H. tauto. Qed.
Lemma c_incoming_ext_in : In c_incoming_ext def_AF.
Proof. assert (In c_incoming_ext (filter (fun c => c_ID c =? 130) def_AF)) as H by (vm_compute; left; reflexivity). apply filter_In in H. tauto. Qed.

Definition incoming_payload (group cluster src src_ep dst_ep bcast lqi sec time tsn : Z) (data : list Z) : payload :=
  [("groupid", VInt group); ("clusterid", VInt cluster); ("srcaddr", VInt src); ("srcendpoint", VInt src_ep);
   ("dstendpoint", VInt dst_ep); ("wasbroadcast", VInt bcast); ("linkquality", VInt lqi); ("securityuse", VInt sec);
   ("timestamp", VInt time); ("transseqnumber", VInt tsn); ("len", VInt (zlen data)); ("data", VBytes data)].
Definition incoming_params : list param :=
  [("groupid", UINT16); ("clusterid", UINT16); ("srcaddr", UINT16); ("srcendpoint", UINT8);
   ("dstendpoint", UINT8); ("wasbroadcast", UINT8); ("linkquality", UINT8); ("securityuse", UINT8);
   ("timestamp", UINT32); ("transseqnumber", UINT8); ("len", UINT8); ("data", BUFFER)].

Lemma incoming_wire g cl s se de bc l sec t tsn data : incoming_ok g cl s se de bc l sec t tsn data ->
  payload_wire None incoming_params (incoming_payload g cl s se de bc l sec t tsn data)
    (incoming_body g cl s se de bc l sec t tsn data).
Proof.
  intros (H1 & H2 & H3 & H4 & H5 & H6 & H7 & H8 & H9 & H10 & H11 & H12).
  assert (byte_ok (zlen data)) by (unfold byte_ok, zlen; lia).
  replace (incoming_body g cl s se de bc l sec t tsn data)
    with (le2 g ++ le2 cl ++ le2 s ++ [se] ++ [de] ++ [bc] ++ [l] ++ [sec] ++ le4 t ++ [tsn] ++ [zlen data] ++ data ++ [])
    by (rewrite app_nil_r; reflexivity).
  unfold incoming_params, incoming_payload.
  repeat (apply pw_cons; [constructor; try assumption; cbn; discriminate|cbn [int_of]]).
  apply pw_nil.
Qed.

Lemma first_with_find nwk i devs : first_with nwk i devs -> find (fun d : list Z * Z => snd d =? nwk) devs = Some (i, nwk).
Proof.
  intros (a & b & -> & Ha). induction Ha as [|x a Hx Ha IH]; cbn [app find].
  - cbn [snd]. rewrite Z.eqb_refl. reflexivity.
  - destruct (Z.eqb_spec (snd x) nwk); [contradiction|exact IH].
Qed.
Lemma none_with_find nwk devs : none_with nwk devs -> find (fun d : list Z * Z => snd d =? nwk) devs = None.
Proof.
  induction 1 as [|x a Hx Ha IH]; cbn [find]; [reflexivity|]. destruct (Z.eqb_spec (snd x) nwk); [contradiction|exact IH].
Qed.

Lemma incoming_decodes g cl s se de bc l sec t tsn data rest n k : incoming_ok g cl s se de bc l sec t tsn data ->
  from_unpi_frame (mk_frame AREQ AF 129 (incoming_body g cl s se de bc l sec t tsn data ++ rest) n k) =
  Ok (mk_zpi AREQ AF "incomingMsg" 129 (incoming_payload g cl s se de bc l sec t tsn data) incoming_params None).
Proof.
  intro H. change 129 with (c_ID c_incoming). change "incomingMsg" with (c_name c_incoming).
  eapply (from_unpi_ok AF def_AF c_incoming incoming_params); [reflexivity|apply c_incoming_in| |apply incoming_wire, H].
  right. split; [discriminate|reflexivity].
Qed.

Lemma incoming_frame g cl s se de bc l sec t tsn data q : incoming_ok g cl s se de bc l sec t tsn data ->
  exists f, to_unpi_frame (mk_zpi AREQ AF "incomingMsg" 129 (incoming_payload g cl s se de bc l sec t tsn data) incoming_params q) = Ok f.
Proof.
  intro H. pose proof (incoming_wire _ _ _ _ _ _ _ _ _ _ _ H) as Hw.
  assert (Hnd : NoDup (names incoming_params)) by (apply nodupb_ok; reflexivity).
  destruct (rewrite_payload _ _ _ _ Hw _ (holds_self _ _ _ _ Hnd Hw)) as (bs' & E' & _); [repeat constructor|].
  unfold to_unpi_frame. cbn [z_params z_payload]. rewrite E'. eexists. reflexivity.
Qed.

Lemma incoming_handled v devs g cl s se de bc l sec t tsn data q : incoming_ok g cl s se de bc l sec t tsn data ->
  handle_znp v devs (mk_zpi AREQ AF "incomingMsg" 129 (incoming_payload g cl s se de bc l sec t tsn data) incoming_params q) =
  (devs, match find (fun d : list Z * Z => snd d =? s) devs with
         | Some d => [EMsg (fst d) l 0 260 cl se de data]
         | None => [] end, Ok tt).
Proof.
  intro H. destruct (incoming_frame g cl s se de bc l sec t tsn data q H) as [f Ef].
  unfold handle_znp. cbn [z_type ct_eqb]. change (ct_eqb AREQ AREQ) with true. cbn [negb]. rewrite Ef.
  cbn [z_sub z_cmd z_payload]. change (sub_eqb AF ZDO) with false. cbn [andb].
  unfold handle_rest, message_content, deliver_message, get_device_nwk. cbn [z_cmd z_sub z_payload z_seq].
  change (existsb (String.eqb "incomingMsg") IGNORED) with false.
  change (sub_eqb AF ZDO) with false. change (sub_eqb AF AF) with true. cbn [andb].
  change (dict_get (incoming_payload g cl s se de bc l sec t tsn data) "ieeeaddr") with (@None value).
  change (dict_get (incoming_payload g cl s se de bc l sec t tsn data) "srcaddr") with (Some (VInt s)).
  change (get_int (incoming_payload g cl s se de bc l sec t tsn data) "clusterid") with (Ok cl).
  change (get_int (incoming_payload g cl s se de bc l sec t tsn data) "srcendpoint") with (Ok se).
  change (get_int (incoming_payload g cl s se de bc l sec t tsn data) "dstendpoint") with (Ok de).
  change (get_int (incoming_payload g cl s se de bc l sec t tsn data) "linkquality") with (Ok l).
  change (get_bytes (incoming_payload g cl s se de bc l sec t tsn data) "data") with (Ok data).
  change (String.eqb "incomingMsg" "incomingMsg") with true. cbn [orb bind app].
  destruct (find (fun d : list Z * Z => snd d =? s) devs) as [[i n]|]; reflexivity.
Qed.

Lemma incoming_delivered v devs g cl s se de bc l sec t tsn data rest n k i :
  incoming_ok g cl s se de bc l sec t tsn data -> first_with s i devs ->
  exists o, from_unpi_frame (mk_frame AREQ AF 129 (incoming_body g cl s se de bc l sec t tsn data ++ rest) n k) = Ok o /\
    handle_znp v devs o = (devs, [EMsg i l 0 260 cl se de data], Ok tt).
Proof.
  intros H Hf. eexists. split; [apply incoming_decodes, H|]. rewrite incoming_handled by exact H.
  rewrite (first_with_find _ _ _ Hf). reflexivity.
Qed.
Lemma incoming_unknown v devs g cl s se de bc l sec t tsn data rest n k :
  incoming_ok g cl s se de bc l sec t tsn data -> none_with s devs ->
  exists o, from_unpi_frame (mk_frame AREQ AF 129 (incoming_body g cl s se de bc l sec t tsn data ++ rest) n k) = Ok o /\
    handle_znp v devs o = (devs, [], Ok tt).
Proof.
  intros H Hf. eexists. split; [apply incoming_decodes, H|]. rewrite incoming_handled by exact H.
  rewrite (none_with_find _ _ Hf). reflexivity.
Qed.

(** ** extended incoming messages: the source is an IEEE address but is looked up as a short one *)
Lemma ieee_value n prev v a : value_wire n IEEEADDR prev v a -> exists l, v = VEui l /\ length l = 8%nat /\ bytes_ok l /\ a = l.
Proof. intro H. inversion H; subst; eauto. discriminate. Qed.
Lemma incoming_ext_dropped v devs f r : bytes_ok (f_data f) -> f_type f = AREQ -> f_sub f = AF -> f_id f = 130 ->
  from_unpi_frame f = Ok r -> handle_znp v devs r = (devs, [], Ok tt).
Proof.
  intros Hok Ht Hs Hid H. destruct (decoded_inv f r Hok H) as (cs & c & ps & n & pl & Hd & Hc & Hid' & Hsel & -> & Hw & Hnd).
  rewrite Hs in Hd. injection Hd as <-. rewrite Ht in *. rewrite Hs in *.
  assert (c = c_incoming_ext) as ->.
  { pose proof (find_by_id AF def_AF c eq_refl Hc) as E1.
    pose proof (find_by_id AF def_AF c_incoming_ext eq_refl c_incoming_ext_in) as E2.
    rewrite Hid', Hid in E1. change (c_ID c_incoming_ext) with 130 in E2. congruence. }
  destruct Hsel as [[C _]|[_ Hreq]]; [discriminate|]. injection Hreq as <-.
  set (ps := [("groupid", UINT16); ("clusterid", UINT16); ("srcaddrmode", UINT8); ("srcaddr", IEEEADDR); ("srcendpoint", UINT8);
      ("srcpanid", UINT16); ("dstendpoint", UINT8); ("wasbroadcast", UINT8); ("linkquality", UINT8); ("securityuse", UINT8);
      ("timestamp", UINT32); ("transseqnumber", UINT8); ("len", UINT16); ("data", BUFFER)]) in *.
  change (c_name c_incoming_ext) with "incomingMsgExt".
  unfold handle_znp. cbn [z_type]. change (ct_eqb AREQ AREQ) with true. cbn [negb].
  destruct (rewrite_payload _ _ _ _ Hw _ (holds_self _ _ _ _ Hnd Hw)) as (bs' & E' & _); [repeat constructor|].
  unfold to_unpi_frame. cbn [z_params z_payload z_type z_sub z_id z_cmd]. rewrite E'. cbn [bind].
  change (sub_eqb AF ZDO) with false. cbn [andb].
  unfold handle_rest, message_content, deliver_message, get_device_nwk. cbn [z_cmd z_sub z_payload z_seq].
  change (existsb (String.eqb "incomingMsgExt") IGNORED) with false.
  change (sub_eqb AF ZDO) with false. change (sub_eqb AF AF) with true.
  change (String.eqb "incomingMsgExt" "incomingMsg") with false.
  change (String.eqb "incomingMsgExt" "incomingMsgExt") with true. cbn [andb orb].
  rewrite (wire_get_none _ _ _ _ "ieeeaddr" Hw) by (cbn; intuition discriminate).
  destruct (wire_get _ _ _ _ "srcaddr" IEEEADDR Hnd Hw) as (w & p & a & G & Hv); [cbn; tauto|].
  apply ieee_value in Hv as (l & -> & _). rewrite G.
  unfold get_int, get_bytes.
  destruct (wire_get _ _ _ _ "clusterid" UINT16 Hnd Hw) as (w1 & p1 & a1 & G1 & Hv1); [cbn; tauto|].
  apply u16_value in Hv1 as (z1 & -> & _). rewrite G1.
  destruct (wire_get _ _ _ _ "srcendpoint" UINT8 Hnd Hw) as (w2 & p2 & a2 & G2 & Hv2); [cbn; tauto|].
  apply u8_value in Hv2 as (z2 & -> & _). rewrite G2.
  destruct (wire_get _ _ _ _ "dstendpoint" UINT8 Hnd Hw) as (w3 & p3 & a3 & G3 & Hv3); [cbn; tauto|].
  apply u8_value in Hv3 as (z3 & -> & _). rewrite G3.
  destruct (wire_get _ _ _ _ "data" BUFFER Hnd Hw) as (w4 & p4 & a4 & G4 & Hv4); [cbn; tauto|].
  inversion Hv4 as [| | | | |l4 Hl4|? ? ? ? Hf4| | |]; subst; [|discriminate]. rewrite G4.
  destruct (wire_get _ _ _ _ "linkquality" UINT8 Hnd Hw) as (w5 & p5 & a5 & G5 & Hv5); [cbn; tauto|].
  apply u8_value in Hv5 as (z5 & -> & _). rewrite G5. reflexivity.
Qed.

(** ** ZDO replies *)
Definition passed_row (c : cmd) : bool :=
  match dict_get passed_replies (c_name c) with
  | Some k =>
      match c_request c with
      | Some ps => heads [("srcaddr", UINT16)] ps && negb (existsb (String.eqb "ieeeaddr") (names ps)) &&
          forallb (fun p => writable (snd p)) ps &&
          (String.eqb (c_name c) "mgmtLqiRsp" || forallb (fun p => match snd p with LIST_NEIGHBOR_LQI => false | _ => true end) ps)
      | None => false
      end &&
      match dict_get REQUESTS (c_name c) with Some (k', p) => (k' =? k) && Nat.eqb p 2 | None => false end &&
      negb (existsb (String.eqb (c_name c)) IGNORED) && negb (String.eqb (c_name c) "endDeviceAnnceInd") &&
      negb (String.eqb (c_name c) "permitJoinInd")
  | None => true
  end.
Lemma passed_rows : forallb passed_row def_ZDO = true.
Proof. vm_compute. reflexivity. Qed.

Lemma in_dict_get {A} (l : list (string * A)) n v : NoDup (map fst l) -> In (n, v) l -> dict_get l n = Some v.
Proof. apply dict_get_nodup. Qed.
Lemma passed_get n k : In (n, k) passed_replies -> dict_get passed_replies n = Some k.
Proof. apply in_dict_get. apply nodupb_ok. reflexivity. Qed.

Definition reply_led (cmd : string) (v : Z) : list effect :=
  if String.eqb cmd "mgmtPermitJoinRsp" && negb (v =? 1) then [ELed 1] else [].

Lemma reply_written v devs f r cluster q nwk i :
  bytes_ok (f_data f) -> from_unpi_frame f = Ok r -> z_type r = AREQ -> z_sub r = ZDO ->
  In (z_cmd r, cluster) passed_replies -> byte_ok q ->
  dict_get (z_payload r) "srcaddr" = Some (VInt nwk) -> first_with nwk i devs ->
  exists n body, (n <= length (f_data f))%nat /\
    (forall m, (m < n)%nat -> read_parameters (firstn m (f_data f)) (z_params r) = Err OverflowError) /\
    Forall2 masked (firstn n (f_data f)) body /\
    (z_cmd r <> "mgmtLqiRsp" -> body = firstn n (f_data f)) /\
    write_params (z_params r) (z_payload r) = Ok body /\
    handle_znp (Some v) devs (with_seq r (Some q)) =
      (devs, reply_led (z_cmd r) v ++ [EMsg i 0 0 260 cluster 0 0 (q :: skipn 2 body)], Ok tt).
Proof.
  intros Hok H Ht Hs Hin Hq Hsrc Hdev.
  destruct (decoded_inv f r Hok H) as (cs & c & ps & n & pl & Hd & Hc & Hid & Hsel & -> & Hw & Hnd).
  cbn [z_type z_sub z_cmd z_payload z_params] in *. rewrite Hs in *. injection Hd as <-.
  destruct Hsel as [[E _]|[Hns Hreq]]; [congruence|].
  pose proof passed_rows as E. rewrite forallb_forall in E. specialize (E c Hc). unfold passed_row in E.
  rewrite (passed_get _ _ Hin), Hreq in E. rewrite !andb_true_iff in E.
  destruct E as [[[[[[[E1 E2] E3] E4] E5] E6] E7] E8].
  apply negb_true_iff in E2, E6, E7, E8. rewrite forallb_forall in E3.
  destruct (dict_get REQUESTS (c_name c)) as [[k' p]|] eqn:Er; [|discriminate].
  apply andb_true_iff in E5 as [Ek Ep]. apply Z.eqb_eq in Ek as ->. apply Nat.eqb_eq in Ep as ->.
  assert (Hread : read_parameters (f_data f) ps = Ok pl).
  { unfold from_unpi_frame in H. rewrite Hs in H. cbn [definition bind] in H. unfold next_cmd in H.
    rewrite <- Hid, (find_by_id ZDO def_ZDO c eq_refl Hc) in H. cbn [bind] in H.
    unfold select_params in H. rewrite Ht in H. change (ct_eqb AREQ SRSP) with false in H. cbn [key] in H.
    rewrite Hreq in H. cbn [key bind] in H.
    destruct (read_parameters (f_data f) ps) as [pl'|]; [|discriminate]. cbn [bind] in H. injection H as ->. reflexivity. }
  assert (Hwr : Forall (fun p => writable (snd p) = true) ps) by (apply Forall_forall; exact E3).
  destruct (decode_encode ps (f_data f) pl Hnd Hok Hread Hwr) as (m & body & Hm & Hmin & _ & Hwp & _ & Hmask & Hexact).
  exists m, body. split; [exact Hm|]. split; [exact Hmin|]. split; [exact Hmask|].
  split. { intro Hne. apply Hexact. apply orb_true_iff in E4 as [E4|E4]; [apply String.eqb_eq in E4; congruence|].
    rewrite forallb_forall in E4. apply Forall_forall. intros x Hx C. specialize (E4 x Hx). rewrite C in E4. discriminate. }
  split; [exact Hwp|].
  unfold handle_znp, with_seq. cbn [z_type z_sub z_cmd z_payload z_params z_id z_seq]. rewrite Ht.
  change (ct_eqb AREQ AREQ) with true. cbn [negb]. unfold to_unpi_frame. cbn [z_params z_payload z_type z_sub z_id].
  rewrite Hwp. cbn [bind]. change (sub_eqb ZDO ZDO) with true. rewrite E7. cbn [andb].
  unfold handle_rest. cbn [z_cmd z_sub z_payload]. rewrite E6. change (sub_eqb ZDO ZDO) with true. rewrite E8. cbn [andb].
  assert (Hno : dict_get pl "ieeeaddr" = None).
  { eapply wire_get_none; [exact Hw|]. intro C. assert (existsb (String.eqb "ieeeaddr") (names ps) = true); [|congruence].
    apply existsb_exists. exists "ieeeaddr". split; [exact C|reflexivity]. }
  rewrite Hno, Hsrc.
  unfold message_content. cbn [z_sub z_cmd z_seq f_data]. change (sub_eqb ZDO ZDO) with true. rewrite Er.
  unfold py_bytes. assert (forallb byte_okb [q] = true) as -> by (cbn [forallb]; unfold byte_okb, byte_ok in *; lia).
  unfold deliver_message, get_device_nwk. cbn [bind ct_lqi ct_cluster ct_src ct_dst ct_data app].
  rewrite (first_with_find _ _ _ Hdev).
  unfold set_led, reply_led, zStack3x0, LED_On.
  destruct (String.eqb (c_name c) "mgmtPermitJoinRsp"); cbn [andb]; [|reflexivity].
  destruct (v =? 1); reflexivity.
Qed.

Lemma reply_delivered v devs f r cluster q nwk i :
  bytes_ok (f_data f) -> from_unpi_frame f = Ok r -> z_type r = AREQ -> z_sub r = ZDO ->
  In (z_cmd r, cluster) passed_replies -> byte_ok q ->
  dict_get (z_payload r) "srcaddr" = Some (VInt nwk) -> first_with nwk i devs ->
  exists n body, (n <= length (f_data f))%nat /\
    (forall m, (m < n)%nat -> read_parameters (firstn m (f_data f)) (z_params r) = Err OverflowError) /\
    Forall2 masked (firstn n (f_data f)) body /\
    (z_cmd r <> "mgmtLqiRsp" -> body = firstn n (f_data f)) /\
    handle_znp (Some v) devs (with_seq r (Some q)) =
      (devs, reply_led (z_cmd r) v ++ [EMsg i 0 0 260 cluster 0 0 (q :: skipn 2 body)], Ok tt).
Proof.
  intros. destruct (reply_written v devs f r cluster q nwk i) as (n & body & A & B & C & D & _ & E); try assumption. exists n, body. auto.
Qed.

(** ** device announcements *)
Definition lookup (devs : devices) (i : list Z) : option Z :=
  match find (fun d => ieee_eqb (fst d) i) devs with Some d => Some (snd d) | None => None end.
Lemma ieee_eqb_spec a b : reflect (a = b) (ieee_eqb a b).
Proof. unfold ieee_eqb. destruct (list_eq_dec Z.eq_dec a b); constructor; assumption. Qed.
Lemma lookup_join devs n i j : lookup (join devs n i) j = if ieee_eqb i j then Some n else lookup devs j.
Proof.
  induction devs as [|[k m] devs IH]; cbn [join]; unfold lookup in *.
  - cbn [find fst]. destruct (ieee_eqb i j); reflexivity.
  - destruct (ieee_eqb_spec k i) as [->|Hk]; cbn [find fst].
    + destruct (ieee_eqb i j); reflexivity.
    + destruct (ieee_eqb_spec k j) as [->|Hj].
      * destruct (ieee_eqb_spec i j); [congruence|reflexivity].
      * exact IH.
Qed.
Lemma join_find devs n i : exists d, find (fun d : list Z * Z => ieee_eqb (fst d) i) (join devs n i) = Some d /\ fst d = i /\ snd d = n.
Proof.
  induction devs as [|[k m] devs IH]; cbn [join].
  - cbn [find fst]. destruct (ieee_eqb_spec i i); [eauto|congruence].
  - destruct (ieee_eqb_spec k i) as [->|Hk]; cbn [find fst].
    + destruct (ieee_eqb_spec i i); [eauto|congruence].
    + destruct (ieee_eqb_spec k i); [contradiction|exact IH].
Qed.

Definition announce_params : list param := [("srcaddr", UINT16); ("nwkaddr", UINT16); ("ieeeaddr", IEEEADDR); ("capabilities", UINT8)].
Definition c_announce : cmd := nth 0 (filter (fun c => c_ID c =? 193) def_ZDO) (mk_cmd "" 0 SREQ None None).
Lemma c_announce_in : In c_announce def_ZDO.
Proof. assert (In c_announce (filter (fun c => c_ID c =? 193) def_ZDO)) as H by (vm_compute; left; reflexivity). apply filter_In in H. tauto. Qed.

Lemma announced v devs src n i cap rest l k : 0 <= src < 65536 -> 0 <= n < 65536 -> length i = 8%nat -> bytes_ok i -> byte_ok cap ->
  exists o, from_unpi_frame (mk_frame AREQ ZDO 193 (le2 src ++ le2 n ++ i ++ [cap] ++ rest) l k) = Ok o /\
    handle_znp v devs o = (join devs n i, [EJoin n i; EMsg i 0 0 260 19 0 0 (0 :: le2 n ++ i ++ [cap])], Ok tt) /\
    z_type o = AREQ /\ z_sub o = ZDO /\ z_cmd o = "endDeviceAnnceInd".
Proof.
  intros Hs Hn Hi Hio Hcap.
  set (pl := [("srcaddr", VInt src); ("nwkaddr", VInt n); ("ieeeaddr", VEui i); ("capabilities", VInt cap)]).
  assert (Hw : payload_wire None announce_params pl (le2 src ++ le2 n ++ i ++ [cap] ++ [])).
  { unfold announce_params, pl.
    repeat (apply pw_cons; [constructor; try assumption; cbn; discriminate|cbn [int_of]]). apply pw_nil. }
  exists (mk_zpi AREQ ZDO "endDeviceAnnceInd" 193 pl announce_params None). split.
  - change 193 with (c_ID c_announce). change "endDeviceAnnceInd" with (c_name c_announce).
    replace (le2 src ++ le2 n ++ i ++ [cap] ++ rest) with ((le2 src ++ le2 n ++ i ++ [cap] ++ []) ++ rest)
      by (rewrite <- !app_assoc; reflexivity).
    eapply (from_unpi_ok ZDO def_ZDO c_announce announce_params); [reflexivity|apply c_announce_in| |exact Hw].
    right. split; [discriminate|reflexivity].
  - split; [|repeat split]. assert (Hnd : NoDup (names announce_params)) by (apply nodupb_ok; reflexivity).
    destruct (rewrite_payload _ _ _ _ Hw _ (holds_self _ _ _ _ Hnd Hw)) as (bs' & E' & _ & _ & He); [repeat constructor|].
    rewrite He in E' by (repeat (constructor; [discriminate|]); constructor).
    unfold handle_znp. cbn [z_type]. change (ct_eqb AREQ AREQ) with true. cbn [negb].
    unfold to_unpi_frame. cbn [z_params z_payload z_type z_sub z_id z_cmd]. rewrite E'. cbn [bind].
    change (sub_eqb ZDO ZDO && String.eqb "endDeviceAnnceInd" "endDeviceAnnceInd") with true. cbn iota.
    change (get_int pl "nwkaddr") with (Ok n). change (dict_get pl "ieeeaddr") with (Some (VEui i)). cbn iota.
    unfold handle_rest, with_seq. cbn [z_cmd z_sub z_payload z_type z_id z_params].
    change (existsb (String.eqb "endDeviceAnnceInd") IGNORED) with false.
    change (sub_eqb ZDO ZDO && String.eqb "endDeviceAnnceInd" "mgmtPermitJoinRsp") with false.
    change (sub_eqb ZDO ZDO && String.eqb "endDeviceAnnceInd" "permitJoinInd") with false. cbn iota.
    unfold message_content. cbn [z_cmd z_sub z_seq f_data]. change (sub_eqb ZDO ZDO) with true. cbn iota.
    change (dict_get REQUESTS "endDeviceAnnceInd") with (Some (19, 2%nat)). cbn iota beta.
    change (py_bytes [0]) with (Ok [0]). cbn [bind].
    unfold deliver_message. destruct i as [|b i]; [discriminate|]. unfold get_device_ieee.
    destruct (join_find devs n (b :: i)) as (d & Ed & Hf & _). rewrite Ed. destruct d as [i' m]. cbn [fst] in Hf. subst i'.
    reflexivity.
Qed.

(** ** unsolicited replies *)
Definition is_message (e : effect) : bool := match e with EMsg _ _ _ _ _ _ _ _ => true | _ => false end.
Lemma unsolicited v devs o : z_sub o = ZDO -> z_seq o = None -> z_cmd o <> "endDeviceAnnceInd" ->
  existsb is_message (snd (fst (handle_znp v devs o))) = false /\ fst (fst (handle_znp v devs o)) = devs.
Proof.
  intros Hs Hq Hn. unfold handle_znp. destruct (negb (ct_eqb (z_type o) AREQ)); [split; reflexivity|].
  destruct (to_unpi_frame o) as [f|]; [|split; reflexivity]. rewrite Hs.
  destruct (String.eqb_spec (z_cmd o) "endDeviceAnnceInd") as [|_]; [contradiction|]. rewrite andb_false_r.
  unfold handle_rest. rewrite Hs. destruct (existsb (String.eqb (z_cmd o)) IGNORED); [split; reflexivity|].
  assert (Hl : forall m, match set_led v m with Ok l => existsb is_message l = false | Err _ => True end).
  { intro m. unfold set_led. destruct v as [v|]; [|exact I]. destruct (v =? zStack3x0); reflexivity. }
  pose proof (Hl LED_On) as H1.
  destruct (sub_eqb ZDO ZDO && String.eqb (z_cmd o) "mgmtPermitJoinRsp").
  - destruct (set_led v LED_On) as [l1|]; [|split; reflexivity].
    destruct (sub_eqb ZDO ZDO && String.eqb (z_cmd o) "permitJoinInd").
    + destruct (get_int (z_payload o) "duration") as [d|]; cbn [bind]; [|split; [exact H1|reflexivity]].
      pose proof (Hl (if d =? 0 then LED_Off else LED_On)) as H2.
      destruct (set_led v (if d =? 0 then LED_Off else LED_On)); cbn [fst snd]; [rewrite existsb_app, H1, H2|rewrite H1]; split; reflexivity.
    + unfold message_content. rewrite Hs, Hq. change (sub_eqb ZDO ZDO) with true. change (sub_eqb ZDO AF) with false. cbn [andb].
      destruct (dict_get REQUESTS (z_cmd o)) as [[k p]|]; cbn [fst snd]; (split; [exact H1|reflexivity]).
  - destruct (sub_eqb ZDO ZDO && String.eqb (z_cmd o) "permitJoinInd").
    + destruct (get_int (z_payload o) "duration") as [d|]; cbn [bind]; [|split; reflexivity].
      pose proof (Hl (if d =? 0 then LED_Off else LED_On)) as H2.
      destruct (set_led v (if d =? 0 then LED_Off else LED_On)); cbn [fst snd app]; [rewrite H2|]; split; reflexivity.
    + unfold message_content. rewrite Hs, Hq. change (sub_eqb ZDO ZDO) with true. change (sub_eqb ZDO AF) with false. cbn [andb].
      destruct (dict_get REQUESTS (z_cmd o)) as [[k p]|]; cbn [fst snd]; split; reflexivity.
Qed.

(** ** permit join *)
Lemma permit_built z : 0 <= z <= 254 -> exists o, build_permit z = Ok o /\ z_type o = SREQ /\
  to_unpi_frame o = Ok (mk_frame SREQ ZDO 54 [15; 252; 255; z; 0] None None).
Proof.
  intro H. unfold build_permit. replace ((0 <=? z) && (z <=? 254)) with true by lia.
  eexists. split; [reflexivity|]. split; [reflexivity|].
  unfold to_unpi_frame. cbn [z_params z_payload z_type z_sub z_id].
  transitivity (do data <- (do a <- to_bytes 1 z; Ok ([15; 252; 255] ++ a ++ [0])); Ok (mk_frame SREQ ZDO 54 data None None)).
  - cbn [write_params dict_getE]. 
    change (dict_getE [("addrmode", VInt ADDR_BROADCAST); ("dstaddr", VInt ALL_ROUTERS_AND_COORDINATOR); ("duration", VInt z); ("tcsignificance", VInt 0)] "addrmode") with (Ok (VInt 15)).
    cbn. destruct (to_bytes 1 z); reflexivity.
  - rewrite to_bytes1 by (unfold byte_ok; lia). reflexivity.
Qed.
Lemma permit_refused z : ~ (0 <= z <= 254) -> build_permit z = Err AssertionError.
Proof. intro H. unfold build_permit. replace ((0 <=? z) && (z <=? 254)) with false by lia. reflexivity. Qed.
