(** * AppProofs2: which decoded messages the application cannot handle *)
From Verif Require Import Base Types Uart Buffalo CmdTable Zpi Api App SpecWire SpecCodec SpecApi CodecProofs CodecProofs2 ApiProofs AppProofs.

Lemma unwritable_parameter t v : writable t = false -> write_parameter t v = Err TODO.
Proof. destruct t; intro H; try discriminate H; reflexivity. Qed.
Lemma unwritable_payload prev ps pl bs : payload_wire prev ps pl bs -> forall d, SpecCodec.holds d pl ->
  forallb (fun p => writable (snd p)) ps = false -> write_params ps d = Err TODO.
Proof.
  induction 1 as [|prev n t v a ps pl b Hv Hp IH]; intros d Hd Hw; [discriminate|]. cbn [forallb snd] in Hw. cbn [write_params].
  unfold dict_getE. rewrite (Hd n v) by (left; reflexivity). cbn [key bind]. destruct (writable t) eqn:Et.
  - destruct (rewrite_parameter _ _ _ _ _ Hv Et) as (a' & E & _). rewrite E. cbn [bind]. rewrite IH; [reflexivity| |exact Hw].
    intros n' v' Hin. apply Hd. right. exact Hin.
  - rewrite unwritable_parameter by exact Et. reflexivity.
Qed.

Definition one_way_b (s : subsystem) (n : string) : bool := existsb (fun '(s', n') => sub_eqb s s' && String.eqb n n') one_way.
Lemma one_way_spec s n : one_way_b s n = true <-> In (s, n) one_way.
Proof.
  unfold one_way_b. rewrite existsb_exists. split.
  - intros ([s' n'] & H & E). apply andb_true_iff in E as [E1 E2]. apply String.eqb_eq in E2 as <-.
    assert (s = s') as <-; [|exact H]. destruct s, s'; try reflexivity; discriminate E1.
  - intro H. exists (s, n). split; [exact H|]. rewrite String.eqb_refl. destruct s; reflexivity.
Qed.
Definition has (ps : list param) (n : string) (t : ptype) : bool :=
  existsb (fun p => String.eqb (fst p) n && match t, snd p with
    | UINT8, UINT8 | UINT16, UINT16 | IEEEADDR, IEEEADDR | BUFFER, BUFFER => true | _, _ => false end) ps.
Lemma has_in ps n t : has ps n t = true -> In (n, t) ps.
Proof.
  unfold has. intro H. apply existsb_exists in H as ([n' t'] & H & E). cbn [fst snd] in E. apply andb_true_iff in E as [E1 E2].
  apply String.eqb_eq in E1 as ->. destruct t, t'; try discriminate E2; exact H.
Qed.
Definition one_way_row (s : subsystem) (c : cmd) : bool :=
  match c_request c with
  | Some ps => negb (decodable false ps) || (Bool.eqb (one_way_b s (c_name c)) (negb (forallb (fun p => writable (snd p)) ps)) &&
     (negb (sub_eqb s ZDO && String.eqb (c_name c) "endDeviceAnnceInd") || (has ps "nwkaddr" UINT16 && has ps "ieeeaddr" IEEEADDR)) &&
     (negb (sub_eqb s ZDO && String.eqb (c_name c) "permitJoinInd") || has ps "duration" UINT8) &&
     (negb (sub_eqb s AF && (String.eqb (c_name c) "incomingMsg" || String.eqb (c_name c) "incomingMsgExt")) ||
        (has ps "clusterid" UINT16 && has ps "srcendpoint" UINT8 && has ps "dstendpoint" UINT8 && has ps "data" BUFFER && has ps "linkquality" UINT8)))
  | None => true
  end.
Lemma one_way_rows : forallb (fun '(s, c) => one_way_row s c) table = true.
Proof. vm_compute. reflexivity. Qed.

Lemma get_int_wire ps pl bs n t : NoDup (names ps) -> payload_wire None ps pl bs -> has ps n t = true -> (t = UINT8 \/ t = UINT16) ->
  exists z, get_int pl n = Ok z.
Proof.
  intros Hnd Hw Hh Ht. destruct (wire_get _ _ _ _ n t Hnd Hw (has_in _ _ _ Hh)) as (v & p & a & G & Hv). unfold get_int. rewrite G.
  destruct Ht as [-> | ->]; [apply u8_value in Hv as (z & -> & _)|apply u16_value in Hv as (z & -> & _)]; eauto.
Qed.
Lemma get_bytes_wire ps pl bs n : NoDup (names ps) -> payload_wire None ps pl bs -> has ps n BUFFER = true -> exists l, get_bytes pl n = Ok l.
Proof.
  intros Hnd Hw Hh. destruct (wire_get _ _ _ _ n BUFFER Hnd Hw (has_in _ _ _ Hh)) as (v & p & a & G & Hv). unfold get_bytes. rewrite G.
  inversion Hv; subst; eauto.
Qed.

Lemma handling_ends v devs f r q : bytes_ok (f_data f) -> from_unpi_frame f = Ok r -> (forall b, q = Some b -> byte_ok b) ->
  ends_with v r (snd (handle_znp v devs (with_seq r q))).
Proof.
  intros Hok H Hq. destruct (ct_eqb_spec (z_type r) AREQ) as [Ht|Ht]; [|rewrite not_areq by exact Ht; apply EW_not_for_it, Ht].
  destruct (decoded_inv f r Hok H) as (cs & c & ps & n & pl & Hd & Hc & Hid & Hsel & -> & Hw & Hnd).
  cbn [z_type z_sub z_cmd z_payload z_params] in *. rewrite Ht in *. destruct Hsel as [[E _]|[_ Hreq]]; [congruence|].
  pose proof (table_sweep one_way_row one_way_rows (f_sub f) cs c Hd Hc) as E. unfold one_way_row in E. rewrite Hreq in E.
  change false with (some_int None) in E at 1. rewrite (wire_decodable _ _ _ _ Hw) in E. cbn [negb orb] in E. rewrite !andb_true_iff in E. destruct E as [[[E1 E2] E3] E4].
  apply eqb_prop in E1.
  unfold handle_znp, with_seq. cbn [z_type z_sub z_cmd z_payload z_params z_id z_seq]. change (ct_eqb AREQ AREQ) with true. cbn [negb].
  unfold to_unpi_frame. cbn [z_params z_payload z_type z_sub z_id].
  destruct (forallb (fun p => writable (snd p)) ps) eqn:Ew; cbn [negb] in E1.
  2: { rewrite (unwritable_payload _ _ _ _ Hw _ (holds_self _ _ _ _ Hnd Hw) Ew). cbn [bind snd]. apply EW_one_way; [reflexivity|].
       apply one_way_spec. exact E1. }
  destruct (rewrite_payload _ _ _ _ Hw _ (holds_self _ _ _ _ Hnd Hw)) as (bs' & E' & _); [apply Forall_forall; rewrite forallb_forall in Ew; exact Ew|].
  rewrite E'. cbn [bind]. clear Ew E'.
  assert (No : ~ In (f_sub f, c_name c) one_way) by (rewrite <- one_way_spec, E1; discriminate). clear E1.
  set (sub := f_sub f) in *. set (cmd := c_name c) in *.
  assert (Hrest : forall q' nwk ieee devs', (forall b, q' = Some b -> byte_ok b) ->
    ends_with v (mk_zpi AREQ sub cmd (c_ID c) pl ps None)
      (snd (handle_rest v devs' (mk_zpi AREQ sub cmd (c_ID c) pl ps q') (mk_frame AREQ sub (c_ID c) bs' None None) nwk ieee))).
  { intros q' nwk ieee devs' Hq'. unfold handle_rest. cbn [z_sub z_cmd z_payload].
    destruct (existsb (String.eqb cmd) IGNORED) eqn:Ei.
    { apply EW_other; try assumption; try reflexivity. cbn [z_sub z_cmd snd]. intros [C|[C|[]]]; injection C as <- <-; vm_compute in Ei; discriminate. }
    assert (Hmsg : exists x, message_content (mk_zpi AREQ sub cmd (c_ID c) pl ps q') (mk_frame AREQ sub (c_ID c) bs' None None) = Ok x).
    { unfold message_content. cbn [z_sub z_cmd z_seq z_payload].
      destruct (if sub_eqb sub ZDO then dict_get REQUESTS cmd else None) as [[k p]|].
      - destruct q' as [b|]; [|eauto]. unfold py_bytes. specialize (Hq' b eq_refl).
        assert (forallb byte_okb [b] = true) as -> by (cbn [forallb]; unfold byte_okb, byte_ok in *; lia). cbn [bind]. eauto.
      - destruct (sub_eqb sub AF && (String.eqb cmd "incomingMsg" || String.eqb cmd "incomingMsgExt")); [|eauto].
        cbn [negb orb] in E4. rewrite !andb_true_iff in E4. destruct E4 as [[[[A1 A2] A3] A4] A5].
        destruct (get_int_wire _ _ _ _ _ Hnd Hw A1 ltac:(auto)) as [z1 ->]. destruct (get_int_wire _ _ _ _ _ Hnd Hw A2 ltac:(auto)) as [z2 ->].
        destruct (get_int_wire _ _ _ _ _ Hnd Hw A3 ltac:(auto)) as [z3 ->]. destruct (get_bytes_wire _ _ _ _ Hnd Hw A4) as [z4 ->].
        destruct (get_int_wire _ _ _ _ _ Hnd Hw A5 ltac:(auto)) as [z5 ->]. cbn [bind]. eauto. }
    destruct Hmsg as [x ->].
    destruct v as [v|].
    - assert (Hled : forall m, exists l, set_led (Some v) m = Ok l) by (intro m; unfold set_led; eauto).
      assert (R : snd (match (if sub_eqb sub ZDO && String.eqb cmd "mgmtPermitJoinRsp" then set_led (Some v) LED_On else Ok []) with
        | Ok led => if sub_eqb sub ZDO && String.eqb cmd "permitJoinInd" then
             match (do d <- get_int pl "duration"; set_led (Some v) (if d =? 0 then LED_Off else LED_On)) with
             | Err e => (led, Err e) | Ok l => (led ++ l, Ok tt) end
           else match x with None => (led, Ok tt) | Some c0 => (led ++ deliver_message devs' nwk ieee c0, Ok tt) end
        | Err e => ([], Err e) end) = Ok tt).
      { destruct (sub_eqb sub ZDO && String.eqb cmd "mgmtPermitJoinRsp"); [destruct (Hled LED_On) as [l ->]|];
          (destruct (sub_eqb sub ZDO && String.eqb cmd "permitJoinInd"); [|destruct x; reflexivity]); cbn [negb orb] in E3;
          destruct (get_int_wire _ _ _ _ _ Hnd Hw E3 ltac:(auto)) as [z ->]; cbn [bind];
          destruct (Hled (if z =? 0 then LED_Off else LED_On)) as [l' ->]; reflexivity. }
      rewrite R. eapply EW_known; try reflexivity. exact No.
    - cbn [set_led].
      destruct (sub_eqb sub ZDO && String.eqb cmd "mgmtPermitJoinRsp") eqn:C1.
      { apply andb_true_iff in C1 as [C1 C2]. apply String.eqb_eq in C2. destruct sub; try discriminate C1.
        apply EW_no_version; try reflexivity. cbn [z_sub z_cmd]. rewrite C2. left. reflexivity. }
      destruct (sub_eqb sub ZDO && String.eqb cmd "permitJoinInd") eqn:C2.
      { cbn [negb orb] in E3. destruct (get_int_wire _ _ _ _ _ Hnd Hw E3 ltac:(auto)) as [z ->]. cbn [bind snd].
        apply andb_true_iff in C2 as [C2 C3]. apply String.eqb_eq in C3. destruct sub; try discriminate C2.
        apply EW_no_version; try reflexivity. cbn [z_sub z_cmd]. rewrite C3. right. left. reflexivity. }
      assert (R : snd (match x with None => (@nil effect, Ok tt) | Some c0 => ([] ++ deliver_message devs' nwk ieee c0, Ok tt) end) = Ok tt) by (destruct x; reflexivity).
      rewrite R. apply EW_other; try reflexivity; [exact No|]. cbn [z_sub z_cmd].
      intros [C|[C|[]]]; injection C as D1 D2; rewrite <- D1, <- D2 in C1, C2; vm_compute in C1, C2; discriminate. }
  destruct (sub_eqb sub ZDO && String.eqb cmd "endDeviceAnnceInd").
  - cbn [negb orb] in E2. apply andb_true_iff in E2 as [A1 A2]. destruct (get_int_wire _ _ _ _ _ Hnd Hw A1 ltac:(auto)) as [z ->].
    destruct (wire_get _ _ _ _ "ieeeaddr" IEEEADDR Hnd Hw (has_in _ _ _ A2)) as (x & p & a & G & Hv). apply ieee_value in Hv as (l & -> & _). rewrite G.
    specialize (Hrest (Some 0) (Some (VInt z)) (Some (VEui l)) (join devs z l)). 
    destruct (handle_rest _ _ _ _ _ _) as [effs res]. cbn [snd] in *. apply Hrest. intros b Hb. injection Hb as <-. unfold byte_ok. lia.
  - specialize (Hrest q (dict_get pl "srcaddr") (dict_get pl "ieeeaddr") devs Hq).
    destruct (handle_rest _ _ _ _ _ _) as [effs res]. exact Hrest.
Qed.

(** ** where effects come from *)
Definition joins (es : list effect) : list (Z * list Z) := flat_map (fun e => match e with EJoin n i => [(n, i)] | _ => [] end) es.
Definition join_all (d : devices) (l : list (Z * list Z)) : devices := fold_left (fun d x => join d (fst x) (snd x)) l d.

Lemma find_first_with n d i m : find (fun d : list Z * Z => snd d =? n) d = Some (i, m) -> m = n /\ first_with n i d.
Proof.
  induction d as [|x d IH]; [discriminate|]. cbn [find]. destruct (Z.eqb_spec (snd x) n) as [E|E]; intro H.
  - injection H as ->. cbn [snd] in E. subst m. split; [reflexivity|]. exists [], d. split; [reflexivity|constructor].
  - destruct (IH H) as [-> (a & b & -> & Ha)]. split; [reflexivity|]. exists (x :: a), b. split; [reflexivity|constructor; assumption].
Qed.
Definition addr_row (s : subsystem) (c : cmd) : bool :=
  match c_request c with
  | Some ps =>
      (negb (sub_eqb s AF && String.eqb (c_name c) "incomingMsg") || negb (existsb (String.eqb "ieeeaddr") (names ps))) &&
      (negb (sub_eqb s AF && String.eqb (c_name c) "incomingMsgExt") || (c_ID c =? 130)) &&
      (negb (sub_eqb s ZDO && existsb (String.eqb (c_name c)) (map snd addressed_requests)) ||
        (negb (existsb (String.eqb "ieeeaddr") (names ps)) || match dict_get REQUESTS (c_name c) with None => true | _ => false end))
  | None => true
  end.
Lemma addr_rows : forallb (fun '(s, c) => addr_row s c) table = true.
Proof. vm_compute. reflexivity. Qed.
Lemma addressed_passed n k p : In n (map snd addressed_requests) -> dict_get REQUESTS n = Some (k, p) -> In (n, k) passed_replies /\ p = 2%nat.
Proof.
  intros Hin. assert (E : forallb (fun n => match dict_get REQUESTS n with
     | Some (k, p) => existsb (fun x => String.eqb (fst x) n && (snd x =? k)) passed_replies && Nat.eqb p 2 | None => true end) (map snd addressed_requests) = true)
    by (vm_compute; reflexivity).
  rewrite forallb_forall in E. specialize (E n Hin). intro H. rewrite H in E. apply andb_true_iff in E as [E1 E2]. apply Nat.eqb_eq in E2.
  split; [|exact E2]. apply existsb_exists in E1 as ([n' k'] & H1 & H2). cbn [fst snd] in H2. apply andb_true_iff in H2 as [H2 H3].
  apply String.eqb_eq in H2 as ->. apply Z.eqb_eq in H3 as ->. exact H1.
Qed.
Lemma no_name ps n : existsb (String.eqb n) (names ps) = false -> ~ In n (names ps).
Proof. intros E C. assert (existsb (String.eqb n) (names ps) = true); [|congruence]. apply existsb_exists. exists n. split; [exact C|apply String.eqb_refl]. Qed.

Lemma nobody_joins c devs nwk ieee : joins (deliver_message devs nwk ieee c) = [].
Proof. unfold deliver_message. destruct (match ieee with Some _ => _ | None => _ end) as [[i n]|]; reflexivity. Qed.
Lemma led_joins v m l : set_led v m = Ok l -> joins l = [].
Proof. unfold set_led. destruct v; [|discriminate]. destruct (_ =? _); intro H; injection H as <-; reflexivity. Qed.
Lemma joins_app a b : joins (a ++ b) = joins a ++ joins b.
Proof. apply flat_map_app. Qed.
Lemma rest_joins v devs o f nwk ieee : joins (fst (handle_rest v devs o f nwk ieee)) = [].
Proof.
  unfold handle_rest. destruct (existsb _ IGNORED); [reflexivity|].
  destruct (if sub_eqb (z_sub o) ZDO && String.eqb (z_cmd o) "mgmtPermitJoinRsp" then set_led v LED_On else Ok []) as [led|e] eqn:E; [|reflexivity].
  assert (Hl : joins led = []) by (destruct (_ && _) in E; [eapply led_joins, E|injection E as <-; reflexivity]).
  destruct (sub_eqb (z_sub o) ZDO && String.eqb (z_cmd o) "permitJoinInd").
  - destruct (get_int (z_payload o) "duration") as [z|]; cbn [bind]; [|exact Hl].
    destruct (set_led v (if z =? 0 then LED_Off else LED_On)) as [l|] eqn:E2; cbn [fst]; [|exact Hl].
    rewrite joins_app, Hl. eapply led_joins, E2.
  - destruct (message_content o f) as [[c|]|]; cbn [fst]; try exact Hl. rewrite joins_app, Hl, nobody_joins. reflexivity.
Qed.
Lemma handle_table v devs o : fst (fst (handle_znp v devs o)) = join_all devs (joins (snd (fst (handle_znp v devs o)))).
Proof.
  unfold handle_znp. destruct (negb _); [reflexivity|]. destruct (to_unpi_frame o) as [f|]; [|reflexivity].
  destruct (_ && _).
  - destruct (get_int (z_payload o) "nwkaddr") as [n|]; [|reflexivity]. destruct (dict_get (z_payload o) "ieeeaddr") as [[| |i| |]|]; try reflexivity.
    pose proof (rest_joins v (join devs n i) (with_seq o (Some 0)) f (Some (VInt n)) (Some (VEui i))) as J. destruct (handle_rest _ _ _ _ _ _) as [effs x]. cbn [fst snd] in *.
    cbn [joins flat_map app]. fold (joins effs). rewrite J. reflexivity.
  - pose proof (rest_joins v devs o f (dict_get (z_payload o) "srcaddr") (dict_get (z_payload o) "ieeeaddr")) as J.
    destruct (handle_rest _ _ _ _ _ _) as [effs x]. cbn [fst snd] in *. rewrite J. reflexivity.
Qed.

Lemma led_stems v m l (P : effect -> Prop) : set_led v m = Ok l -> P (ELed m) -> Forall P l.
Proof. unfold set_led. destruct v; [|discriminate]. destruct (_ =? _); intros H Hp; injection H as <-; repeat constructor. exact Hp. Qed.

Lemma handle_stems v devs f r q : bytes_ok (f_data f) -> from_unpi_frame f = Ok r ->
  (forall b, q = Some b -> z_sub r = ZDO /\ In (z_cmd r) (map snd addressed_requests)) ->
  Forall (stems r q (fst (fst (handle_znp v devs (with_seq r q))))) (snd (fst (handle_znp v devs (with_seq r q)))).
Proof.
  intros Hok H Hq. destruct (ct_eqb_spec (z_type r) AREQ) as [Ht|Ht]; [|rewrite not_areq by exact Ht; constructor].
  destruct (decoded_inv f r Hok H) as (cs & c & ps & n & pl & Hd & Hc & Hid & Hsel & Er & Hw & Hnd).
  assert (Hty : f_type f = AREQ) by (rewrite Er in Ht; exact Ht).
  destruct Hsel as [[E _]|[_ Hreq]]; [congruence|].
  pose proof (table_sweep one_way_row one_way_rows (f_sub f) cs c Hd Hc) as E. unfold one_way_row in E. rewrite Hreq in E.
  change false with (some_int None) in E at 1. rewrite (wire_decodable _ _ _ _ Hw) in E. cbn [negb orb] in E. rewrite !andb_true_iff in E. destruct E as [[[_ E2] E3] E4].
  pose proof (table_sweep addr_row addr_rows (f_sub f) cs c Hd Hc) as E. unfold addr_row in E. rewrite Hreq in E. rewrite !andb_true_iff in E. destruct E as [[E5 E6] E7].
  (* the extended message is dropped *)
  destruct (sub_eqb (f_sub f) AF && String.eqb (c_name c) "incomingMsgExt") eqn:Eext.
  { apply andb_true_iff in Eext as [X1 X2]. cbn [negb orb] in E6. apply Z.eqb_eq in E6.
    assert (Hs : f_sub f = AF) by (destruct (f_sub f); try discriminate X1; reflexivity).
    assert (q = None) as ->. { destruct q as [b|]; [|reflexivity]. destruct (Hq b eq_refl) as [C _]. rewrite Er in C. cbn [z_sub] in C. congruence. }
    replace (with_seq r None) with r by (rewrite Er; reflexivity).
    rewrite (incoming_ext_dropped v devs f r Hok Hty Hs ltac:(congruence) H). constructor. }
  subst r. cbn [z_type z_sub z_cmd z_payload z_params] in *. rewrite Hty in *.
  unfold handle_znp, with_seq. cbn [z_type z_sub z_cmd z_payload z_params z_id z_seq]. change (ct_eqb AREQ AREQ) with true. cbn [negb].
  unfold to_unpi_frame. cbn [z_params z_payload z_type z_sub z_id].
  destruct (forallb (fun p => writable (snd p)) ps) eqn:Ew.
  2: { rewrite (unwritable_payload _ _ _ _ Hw _ (holds_self _ _ _ _ Hnd Hw) Ew). constructor. }
  destruct (rewrite_payload _ _ _ _ Hw _ (holds_self _ _ _ _ Hnd Hw)) as (bs' & E' & Hw' & _); [apply Forall_forall; rewrite forallb_forall in Ew; exact Ew|].
  rewrite E'. cbn [bind]. clear Ew E' H.
  set (sub := f_sub f) in *. set (cmd := c_name c) in *. set (o := mk_zpi AREQ sub cmd (c_ID c) pl ps None).
  destruct (sub_eqb sub ZDO && String.eqb cmd "endDeviceAnnceInd") eqn:Ea.
  - (* announcement *)
    cbn [negb orb] in E2. apply andb_true_iff in E2 as [A1 A2]. apply andb_true_iff in Ea as [X1 X2]. apply String.eqb_eq in X2.
    assert (Hs : sub = ZDO) by (destruct sub; try discriminate X1; reflexivity).
    assert (Hind : indication o ZDO "endDeviceAnnceInd") by (repeat split; assumption).
    destruct (wire_get _ _ _ _ "nwkaddr" UINT16 Hnd Hw (has_in _ _ _ A1)) as (y & p1 & a1 & G1 & Hv1). apply u16_value in Hv1 as (z & -> & _).
    unfold get_int. rewrite G1.
    destruct (wire_get _ _ _ _ "ieeeaddr" IEEEADDR Hnd Hw (has_in _ _ _ A2)) as (x & p & a & G & Hv). apply ieee_value in Hv as (l & -> & Hl & _). rewrite G.
    unfold handle_rest. cbn [z_sub z_cmd z_payload]. rewrite Hs, X2.
    change (existsb (String.eqb "endDeviceAnnceInd") IGNORED) with false.
    change (sub_eqb ZDO ZDO && String.eqb "endDeviceAnnceInd" "mgmtPermitJoinRsp") with false.
    change (sub_eqb ZDO ZDO && String.eqb "endDeviceAnnceInd" "permitJoinInd") with false. cbn iota.
    unfold message_content. cbn [z_cmd z_sub z_seq f_data]. change (sub_eqb ZDO ZDO) with true. cbn iota.
    change (dict_get REQUESTS "endDeviceAnnceInd") with (Some (19, 2%nat)). cbn iota beta. change (py_bytes [0]) with (Ok [0]). cbn [bind].
    unfold deliver_message. cbn [ct_lqi ct_cluster ct_src ct_dst ct_data].
    destruct l as [|b0 l0]; [discriminate Hl|]. unfold get_device_ieee. destruct (join_find devs z (b0 :: l0)) as (dd & Ed & Hf & _). rewrite Ed. destruct dd as [i' m']. cbn [fst] in Hf. subst i'.
    cbn [fst snd app]. constructor; [eapply SM_join; eassumption|]. constructor; [|constructor]. eapply SM_announced; eassumption.
  - assert (Hrest : Forall (stems o q devs) (fst (handle_rest v devs (mk_zpi AREQ sub cmd (c_ID c) pl ps q) (mk_frame AREQ sub (c_ID c) bs' None None) (dict_get pl "srcaddr") (dict_get pl "ieeeaddr")))).
    2: { destruct (handle_rest _ _ _ _ _ _) as [effs x]. exact Hrest. }
    unfold handle_rest. cbn [z_sub z_cmd z_payload]. destruct (existsb (String.eqb cmd) IGNORED); [constructor|].
    destruct (if sub_eqb sub ZDO && String.eqb cmd "mgmtPermitJoinRsp" then set_led v LED_On else Ok []) as [led|e] eqn:El; [|constructor].
    assert (Hled : Forall (stems o q devs) led).
    { destruct (sub_eqb sub ZDO && String.eqb cmd "mgmtPermitJoinRsp") eqn:C1; [|injection El as <-; constructor].
      apply andb_true_iff in C1 as [C1 C2]. apply String.eqb_eq in C2. eapply led_stems; [exact El|]. apply SM_joinable.
      repeat split; [|exact C2]. cbn [z_sub]. destruct sub; try discriminate C1; reflexivity. }
    destruct (sub_eqb sub ZDO && String.eqb cmd "permitJoinInd") eqn:C2.
    { cbn [negb orb] in E3. destruct (wire_get _ _ _ _ "duration" UINT8 Hnd Hw (has_in _ _ _ E3)) as (y & p1 & a1 & G1 & Hv1). apply u8_value in Hv1 as (z & -> & _).
      unfold get_int. rewrite G1. cbn [bind]. destruct (set_led v (if z =? 0 then LED_Off else LED_On)) as [l|] eqn:E; [|exact Hled]. cbn [fst].
      apply Forall_app. split; [exact Hled|]. eapply led_stems; [exact E|]. apply andb_true_iff in C2 as [C2 C3]. apply String.eqb_eq in C3.
      replace (if z =? 0 then LED_Off else LED_On) with (if z =? 0 then 0 else 1) by (destruct (z =? 0); reflexivity).
      apply SM_joining; [|exact G1]. repeat split; [|exact C3]. cbn [z_sub]. destruct sub; try discriminate C2; reflexivity. }
    unfold message_content. cbn [z_sub z_cmd z_seq z_payload].
    destruct (sub_eqb sub ZDO) eqn:Es.
    + assert (Hs : sub = ZDO) by (destruct sub; try discriminate Es; reflexivity).
      assert (Haf : sub_eqb sub AF = false) by (rewrite Hs; reflexivity). rewrite Haf. cbn [andb].
      destruct (dict_get REQUESTS cmd) as [[k p]|] eqn:Er; [|exact Hled].
      destruct q as [b|]; [|exact Hled]. destruct (Hq b eq_refl) as [_ Hin].
      unfold py_bytes. destruct (forallb byte_okb [b]); cbn [bind]; [|exact Hled]. cbn [fst]. apply Forall_app. split; [exact Hled|].
      destruct (addressed_passed _ _ _ Hin Er) as [Hp ->].
      assert (Hne : dict_get pl "ieeeaddr" = None).
      { eapply wire_get_none; [exact Hw|]. apply no_name. cbn [andb] in E7.
        assert (existsb (String.eqb cmd) (map snd addressed_requests) = true) as C by (apply existsb_exists; exists cmd; split; [exact Hin|apply String.eqb_refl]).
        rewrite C in E7. cbn [negb orb] in E7.
        rewrite orb_false_r in E7. apply negb_true_iff in E7. exact E7. }
      rewrite Hne. unfold deliver_message. cbn [ct_lqi ct_cluster ct_src ct_dst ct_data f_data app].
      unfold get_device_nwk. destruct (dict_get pl "srcaddr") as [[z| | | |]|] eqn:Gs; try constructor.
      destruct (find (fun d : list Z * Z => snd d =? z) devs) as [[i m]|] eqn:Ef; [|constructor]. apply find_first_with in Ef as [-> Hf].
      constructor; [|constructor]. eapply (SM_reply o (Some b) devs cmd k z i b bs'); try eassumption; try reflexivity. repeat split. exact Hs.
    + destruct (sub_eqb sub AF) eqn:Ef; [|exact Hled]. cbn [andb] in E4, E5, Eext |- *. rewrite Eext, orb_false_r in E4 |- *.
      destruct (String.eqb cmd "incomingMsg") eqn:Ec; [|exact Hled]. cbn [negb orb] in E4, E5.
      rewrite !andb_true_iff in E4. destruct E4 as [[[[A1 A2] A3] A4] A5].
      destruct (wire_get _ _ _ _ "clusterid" UINT16 Hnd Hw (has_in _ _ _ A1)) as (y1 & p1 & a1 & G1 & Hv1). apply u16_value in Hv1 as (z1 & -> & _).
      destruct (wire_get _ _ _ _ "srcendpoint" UINT8 Hnd Hw (has_in _ _ _ A2)) as (y2 & p2 & a2 & G2 & Hv2). apply u8_value in Hv2 as (z2 & -> & _).
      destruct (wire_get _ _ _ _ "dstendpoint" UINT8 Hnd Hw (has_in _ _ _ A3)) as (y3 & p3 & a3 & G3 & Hv3). apply u8_value in Hv3 as (z3 & -> & _).
      destruct (wire_get _ _ _ _ "data" BUFFER Hnd Hw (has_in _ _ _ A4)) as (y4 & p4 & a4 & G4 & Hv4).
      destruct (wire_get _ _ _ _ "linkquality" UINT8 Hnd Hw (has_in _ _ _ A5)) as (y5 & p5 & a5 & G5 & Hv5). apply u8_value in Hv5 as (z5 & -> & _).
      assert (exists l4, y4 = VBytes l4) as [l4 ->] by (inversion Hv4; subst; eauto).
      unfold get_int, get_bytes. rewrite G1, G2, G3, G4, G5. cbn [bind fst]. apply Forall_app. split; [exact Hled|].
      apply negb_true_iff in E5. rewrite (wire_get_none _ _ _ _ "ieeeaddr" Hw (no_name _ _ E5)).
      unfold deliver_message. cbn [ct_lqi ct_cluster ct_src ct_dst ct_data]. unfold get_device_nwk.
      destruct (dict_get pl "srcaddr") as [[z| | | |]|] eqn:Gs; try constructor.
      destruct (find (fun d : list Z * Z => snd d =? z) devs) as [[i m]|] eqn:Eff; [|constructor]. apply find_first_with in Eff as [-> Hf].
      constructor; [|constructor]. eapply (SM_incoming o q devs z i); try eassumption. repeat split; [|apply String.eqb_eq, Ec].
      cbn [z_sub]. destruct sub; try discriminate Ef; reflexivity.
Qed.
