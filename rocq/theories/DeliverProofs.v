(** * DeliverProofs: what is received is handed on completely and in order *)
From Coq Require Import ZifyBool ZifyNat.
From Verif Require Import Base Types Uart Buffalo CmdTable Zpi Api App Machine SpecWire SpecCodec SpecApi SpecMachine SpecTrace SpecFirst SpecDeliver UartProofs UartProofs2 CodecProofs CodecProofs2
  RequestProofs ApiProofs AppProofs AppProofs2 MachineBase MachineInv MachineInv2 MachineInv3 MachineInv4 MachineInv5 DispatchProofs MachineProofs MachineProofs2 MachineProofs3 MachineProofs4
  MachineProofs5 MachineProofs6 MachineProofs11 MachineProofs12.

Lemma traffic_app a b : traffic (a ++ b) = traffic a ++ traffic b.
Proof. apply filter_app. Qed.
Lemma led_traffic v m l : set_led v m = Ok l -> traffic l = [].
Proof. unfold set_led. destruct v; [|discriminate]. destruct (_ =? _); intro H; injection H as <-; reflexivity. Qed.
Lemma find_none_with n d : find (fun d : list Z * Z => snd d =? n) d = None -> none_with n d.
Proof. intro H. apply Forall_forall. intros x Hx. pose proof (find_none _ _ H x Hx). cbn beta in H0. lia. Qed.
Definition srcaddr_row (s : subsystem) (c : cmd) : bool :=
  match c_request c with
  | Some ps => negb (decodable false ps) || negb (sub_eqb s AF && String.eqb (c_name c) "incomingMsg") || has ps "srcaddr" UINT16
  | None => true
  end.
Lemma srcaddr_rows : forallb (fun '(s, c) => srcaddr_row s c) CodecProofs2.table = true.
Proof. vm_compute. reflexivity. Qed.
Lemma sub_is a b : sub_eqb a b = true -> a = b.
Proof. destruct a, b; intro H; try discriminate H; reflexivity. Qed.
Lemma passed_requested c k : In (c, k) passed_replies -> dict_get REQUESTS c = Some (k, 2%nat) /\ In c (map snd addressed_requests) /\ existsb (String.eqb c) IGNORED = false /\ String.eqb c "permitJoinInd" = false /\ String.eqb c "endDeviceAnnceInd" = false.
Proof.
  intro H. cbn [passed_replies In] in H. repeat (destruct H as [H|H]; [injection H as <- <-; repeat split; try reflexivity; cbn; tauto|]). destruct H.
Qed.
Lemma other_name o q d : z_type o = AREQ -> (z_sub o = ZDO -> z_cmd o <> "endDeviceAnnceInd"%string /\ forall k, ~ In (z_cmd o, k) passed_replies) -> (z_sub o = AF -> z_cmd o <> "incomingMsg"%string) ->
  handed o q d [].
Proof.
  intros T Z F. apply HD_other.
  - intros (_ & S & C). apply (Z S), C.
  - intros (_ & S & C). apply (F S), C.
  - intros c k Hin (_ & S & C). subst c. apply (proj2 (Z S) k), Hin.
Qed.
Lemma one_way_away s n : one_way_b s n = true -> s <> ZDO /\ s <> AF.
Proof. intro H. apply one_way_spec in H. cbn [one_way In] in H. repeat (destruct H as [H|H]; [injection H as <- _; split; discriminate|]). destruct H. Qed.

Lemma pair_dec (a b : string * Z) : {a = b} + {a <> b}.
Proof. decide equality; [apply Z.eq_dec|apply string_dec]. Qed.
Lemma handle_handed v devs f r q : bytes_ok (f_data f) -> from_unpi_frame f = Ok r ->
  (forall b, q = Some b -> z_sub r = ZDO /\ In (z_cmd r) (map snd addressed_requests)) ->
  handed r q devs (traffic (snd (fst (handle_znp (Some v) devs (with_seq r q))))).
Proof.
  intros Hok H Hq. destruct (ct_eqb_spec (z_type r) AREQ) as [Ht|Ht].
  2: { rewrite not_areq by exact Ht. apply HD_other; unfold indication; tauto. }
  destruct (decoded_inv f r Hok H) as (cs & c & ps & n & pl & Hd & Hc & Hid & Hsel & Er & Hw & Hnd).
  assert (Hty : f_type f = AREQ) by (rewrite Er in Ht; exact Ht).
  destruct Hsel as [[E _]|[_ Hreq]]; [congruence|].
  pose proof (table_sweep one_way_row one_way_rows (f_sub f) cs c Hd Hc) as E. unfold one_way_row in E. rewrite Hreq in E.
  change false with (some_int None) in E at 1. rewrite (wire_decodable _ _ _ _ Hw) in E. cbn [negb orb] in E. rewrite !andb_true_iff in E. destruct E as [[[E1 E2] E3] E4].
  pose proof (table_sweep addr_row addr_rows (f_sub f) cs c Hd Hc) as E. unfold addr_row in E. rewrite Hreq in E. rewrite !andb_true_iff in E. destruct E as [[E5 E6] E7].
  pose proof (table_sweep srcaddr_row srcaddr_rows (f_sub f) cs c Hd Hc) as E8. unfold srcaddr_row in E8. rewrite Hreq in E8.
  change false with (some_int None) in E8 at 1. rewrite (wire_decodable _ _ _ _ Hw) in E8. cbn [negb orb] in E8.
  destruct (sub_eqb (f_sub f) AF && String.eqb (c_name c) "incomingMsgExt") eqn:Eext.
  { apply andb_true_iff in Eext as [X1 X2]. cbn [negb orb] in E6. apply Z.eqb_eq in E6. apply String.eqb_eq in X2.
    assert (Hs : f_sub f = AF) by (apply sub_is, X1).
    assert (q = None) as ->. { destruct q as [b|]; [|reflexivity]. destruct (Hq b eq_refl) as [C _]. rewrite Er in C. cbn [z_sub] in C. congruence. }
    replace (with_seq r None) with r by (rewrite Er; reflexivity).
    rewrite (incoming_ext_dropped (Some v) devs f r Hok Hty Hs ltac:(congruence) H).
    apply other_name; rewrite Er; cbn [z_type z_sub z_cmd]; [congruence|congruence|]. intros _. rewrite X2. discriminate. }
  subst r. cbn [z_type z_sub z_cmd z_payload z_params] in *. rewrite Hty in *.
  unfold handle_znp, with_seq. cbn [z_type z_sub z_cmd z_payload z_params z_id z_seq]. change (ct_eqb AREQ AREQ) with true. cbn [negb].
  unfold to_unpi_frame. cbn [z_params z_payload z_type z_sub z_id].
  destruct (forallb (fun p => writable (snd p)) ps) eqn:Ew.
  2: { rewrite (unwritable_payload _ _ _ _ Hw _ (holds_self _ _ _ _ Hnd Hw) Ew). apply eqb_prop in E1. cbn [negb] in E1. apply one_way_away in E1 as [N1 N2].
       apply other_name; cbn [z_type z_sub]; [reflexivity|contradiction|contradiction]. }
  destruct (rewrite_payload _ _ _ _ Hw _ (holds_self _ _ _ _ Hnd Hw)) as (bs' & E' & Hw' & _); [apply Forall_forall; rewrite forallb_forall in Ew; exact Ew|].
  rewrite E'. cbn [bind]. clear Ew E' E1.
  set (sub := f_sub f) in *. set (cmd := c_name c) in *. set (o := mk_zpi AREQ sub cmd (c_ID c) pl ps None).
  assert (ON : (sub = ZDO -> cmd <> "endDeviceAnnceInd"%string /\ forall k, ~ In (cmd, k) passed_replies) -> (sub = AF -> cmd <> "incomingMsg"%string) -> handed o q devs [])
    by (intros N1 N2; exact (other_name o q devs eq_refl N1 N2)).
  destruct (sub_eqb sub ZDO && String.eqb cmd "endDeviceAnnceInd") eqn:Ea.
  - (* announcement *)
    cbn [negb orb] in E2. apply andb_true_iff in E2 as [A1 A2]. apply andb_true_iff in Ea as [X1 X2]. apply String.eqb_eq in X2.
    assert (Hs : sub = ZDO) by (apply sub_is, X1).
    assert (Hind : indication o ZDO "endDeviceAnnceInd") by (repeat split; assumption).
    destruct (wire_get _ _ _ _ "nwkaddr" UINT16 Hnd Hw (has_in _ _ _ A1)) as (y & p1 & a1 & G1 & Hv1). apply u16_value in Hv1 as (z & -> & _).
    unfold get_int. rewrite G1.
    destruct (wire_get _ _ _ _ "ieeeaddr" IEEEADDR Hnd Hw (has_in _ _ _ A2)) as (x & p & a & G & Hv). apply ieee_value in Hv as (l & -> & Hl & _). rewrite G.
    unfold handle_rest. cbn [z_sub z_cmd z_payload]. rewrite Hs, X2.
    change (existsb (String.eqb "endDeviceAnnceInd") IGNORED) with false.
    change (sub_eqb ZDO ZDO && String.eqb "endDeviceAnnceInd" "mgmtPermitJoinRsp") with false.
    change (sub_eqb ZDO ZDO && String.eqb "endDeviceAnnceInd" "permitJoinInd") with false. cbn iota.
    unfold message_content. cbn [z_cmd z_sub z_seq f_data]. change (sub_eqb ZDO ZDO) with true. cbn iota.
    change (dict_get REQUESTS "endDeviceAnnceInd") with (Some (19, 2%nat)). cbn iota beta. change (py_bytes [0]) with (Ok [0]). cbn [bind].
    unfold deliver_message. cbn [ct_lqi ct_cluster ct_src ct_dst ct_data].
    destruct l as [|b0 l0]; [discriminate Hl|]. unfold get_device_ieee. destruct (join_find devs z (b0 :: l0)) as (dd & Ed & Hf & _). rewrite Ed. destruct dd as [i' m']. cbn [fst] in Hf. subst i'.
    cbn [fst snd app traffic filter]. eapply HD_announced; eassumption.
  - assert (Hrest : handed o q devs (traffic (fst (handle_rest (Some v) devs (mk_zpi AREQ sub cmd (c_ID c) pl ps q) (mk_frame AREQ sub (c_ID c) bs' None None) (dict_get pl "srcaddr") (dict_get pl "ieeeaddr"))))).
    2: { destruct (handle_rest _ _ _ _ _ _) as [effs x]. exact Hrest. }
    unfold handle_rest. cbn [z_sub z_cmd z_payload].
    destruct (existsb (String.eqb cmd) IGNORED) eqn:Ei.
    { apply ON.
      - intros Hs. split; [intro C; rewrite C in Ei; discriminate Ei|]. intros k C. destruct (passed_requested _ _ C) as (_ & _ & C1 & _). congruence.
      - intros Hs C. rewrite C in Ei. discriminate Ei. }
    assert (Hled : exists led, (if sub_eqb sub ZDO && String.eqb cmd "mgmtPermitJoinRsp" then set_led (Some v) LED_On else Ok []) = Ok led /\ traffic led = []).
    { destruct (sub_eqb sub ZDO && String.eqb cmd "mgmtPermitJoinRsp"); [|exists []; split; reflexivity]. unfold set_led. eexists. split; [reflexivity|]. destruct (v =? zStack3x0); reflexivity. }
    destruct Hled as (led & -> & Hled).
    destruct (sub_eqb sub ZDO && String.eqb cmd "permitJoinInd") eqn:C2.
    { cbn [negb orb] in E3. destruct (wire_get _ _ _ _ "duration" UINT8 Hnd Hw (has_in _ _ _ E3)) as (y & p1 & a1 & G1 & Hv1). apply u8_value in Hv1 as (z & -> & _).
      unfold get_int. rewrite G1. cbn [bind]. destruct (set_led (Some v) (if z =? 0 then LED_Off else LED_On)) as [l|] eqn:E; [|discriminate E]. cbn [fst].
      rewrite traffic_app, Hled, (led_traffic _ _ _ E). apply andb_true_iff in C2 as [C2 C3]. apply String.eqb_eq in C3. apply sub_is in C2.
      apply ON; [|intro Hs; congruence]. intros _. split; [rewrite C3; discriminate|]. intros k C. destruct (passed_requested _ _ C) as (_ & _ & _ & C1 & _).
      rewrite C3 in C1. discriminate C1. }
    unfold message_content. cbn [z_sub z_cmd z_seq z_payload].
    destruct (sub_eqb sub ZDO) eqn:Es.
    + assert (Hs : sub = ZDO) by (apply sub_is, Es).
      assert (Haf : sub_eqb sub AF = false) by (rewrite Hs; reflexivity). rewrite Haf. cbn [andb] in *.
      assert (Nan : cmd <> "endDeviceAnnceInd"%string) by (intro C; rewrite C in Ea; discriminate Ea).
      assert (Oth : (forall k, ~ In (cmd, k) passed_replies) -> handed o q devs (traffic led)).
      { intro N. rewrite Hled. apply ON; [auto|congruence]. }
      destruct (dict_get REQUESTS cmd) as [[k p]|] eqn:Er; [|apply Oth; intros k C; destruct (passed_requested _ _ C) as [C1 _]; congruence].
      assert (Nor : (forall tsn, q = Some tsn -> byte_ok tsn -> exists nwk, field o "srcaddr" (VInt nwk) /\ none_with nwk devs) -> handed o q devs (traffic led)).
      { intro N. destruct (in_dec pair_dec (cmd, k) passed_replies) as [Y|Y].
        - rewrite Hled. eapply HD_no_reply; [repeat split; exact Hs|exact Y|exact N].
        - apply Oth. intros k' C. destruct (passed_requested _ _ C) as [C1 _]. rewrite C1 in Er. injection Er as <- _. apply Y, C. }
      destruct q as [b|]; [|apply Nor; discriminate]. destruct (Hq b eq_refl) as [_ Hin].
      unfold py_bytes. destruct (forallb byte_okb [b]) eqn:Eb; cbn [bind].
      2: { apply Nor. intros tsn [= <-] B. exfalso. cbn [forallb] in Eb. unfold byte_okb, byte_ok in *. lia. }
      assert (Bb : byte_ok b) by (cbn [forallb] in Eb; unfold byte_okb, byte_ok in *; lia).
      destruct (addressed_passed _ _ _ Hin Er) as [Hp ->].
      assert (Hne : dict_get pl "ieeeaddr" = None).
      { eapply wire_get_none; [exact Hw|]. apply no_name. cbn [andb] in E7.
        assert (existsb (String.eqb cmd) (map snd addressed_requests) = true) as C by (apply existsb_exists; exists cmd; split; [exact Hin|apply String.eqb_refl]).
        rewrite C in E7. cbn [negb orb] in E7.
        rewrite orb_false_r in E7. apply negb_true_iff in E7. exact E7. }
      rewrite Hne. unfold deliver_message. cbn [ct_lqi ct_cluster ct_src ct_dst ct_data f_data app fst].
      rewrite traffic_app, Hled. cbn [app].
      destruct (reply_has_srcaddr f o cmd Hok H Hin eq_refl Hs eq_refl) as [z Gs].
      cbn [z_payload o] in Gs. unfold get_device_nwk. rewrite Gs.
      destruct (find (fun d : list Z * Z => snd d =? z) devs) as [[i m]|] eqn:Ef; cbn [traffic filter].
      * apply find_first_with in Ef as [-> Hf]. eapply (HD_reply o (Some b) devs cmd k z i b bs'); try eassumption; try reflexivity. repeat split. exact Hs.
      * apply find_none_with in Ef. eapply HD_no_reply; [repeat split; exact Hs|exact Hp|]. intros. exists z. split; [exact Gs|exact Ef].
    + assert (Nz : sub <> ZDO) by (intro C; rewrite C in Es; discriminate Es).
      assert (Oth : (sub = AF -> cmd <> "incomingMsg"%string) -> handed o q devs (traffic led)).
      { intro N. rewrite Hled. apply ON; [contradiction|exact N]. }
      destruct (sub_eqb sub AF) eqn:Ef; [|apply Oth; intro C; rewrite C in Ef; discriminate Ef]. cbn [andb] in E4, E5, E8, Eext |- *. rewrite Eext, orb_false_r in E4 |- *.
      destruct (String.eqb cmd "incomingMsg") eqn:Ec; [|apply Oth; intros _ C; rewrite C in Ec; discriminate Ec]. cbn [negb orb] in E4, E5, E8.
      rewrite !andb_true_iff in E4. destruct E4 as [[[[A1 A2] A3] A4] A5].
      destruct (wire_get _ _ _ _ "clusterid" UINT16 Hnd Hw (has_in _ _ _ A1)) as (y1 & p1 & a1 & G1 & Hv1). apply u16_value in Hv1 as (z1 & -> & _).
      destruct (wire_get _ _ _ _ "srcendpoint" UINT8 Hnd Hw (has_in _ _ _ A2)) as (y2 & p2 & a2 & G2 & Hv2). apply u8_value in Hv2 as (z2 & -> & _).
      destruct (wire_get _ _ _ _ "dstendpoint" UINT8 Hnd Hw (has_in _ _ _ A3)) as (y3 & p3 & a3 & G3 & Hv3). apply u8_value in Hv3 as (z3 & -> & _).
      destruct (wire_get _ _ _ _ "data" BUFFER Hnd Hw (has_in _ _ _ A4)) as (y4 & p4 & a4 & G4 & Hv4).
      destruct (wire_get _ _ _ _ "linkquality" UINT8 Hnd Hw (has_in _ _ _ A5)) as (y5 & p5 & a5 & G5 & Hv5). apply u8_value in Hv5 as (z5 & -> & _).
      destruct (wire_get _ _ _ _ "srcaddr" UINT16 Hnd Hw (has_in _ _ _ E8)) as (y6 & p6 & a6 & Gs & Hv6). apply u16_value in Hv6 as (z & -> & _).
      assert (exists l4, y4 = VBytes l4) as [l4 ->] by (inversion Hv4; subst; eauto).
      unfold get_int, get_bytes. rewrite G1, G2, G3, G4, G5. cbn [bind fst]. rewrite traffic_app, Hled. cbn [app].
      apply negb_true_iff in E5. rewrite (wire_get_none _ _ _ _ "ieeeaddr" Hw (no_name _ _ E5)).
      unfold deliver_message. cbn [ct_lqi ct_cluster ct_src ct_dst ct_data]. unfold get_device_nwk. rewrite Gs.
      assert (Hind : indication o AF "incomingMsg") by (repeat split; [apply sub_is, Ef|apply String.eqb_eq, Ec]).
      destruct (find (fun d : list Z * Z => snd d =? z) devs) as [[i m]|] eqn:Eff; cbn [traffic filter].
      * apply find_first_with in Eff as [-> Hf]. eapply (HD_incoming o q devs z i); eassumption.
      * apply find_none_with in Eff. eapply HD_stranger; eassumption.
Qed.

(** ** history *)
Inductive in_orderL (A : zpi -> Z -> Prop) (L : zpi -> Prop) : devices -> list zpi -> list effect -> Prop :=
| OL_nil d : in_orderL A L d [] []
| OL_cons d o q es os es' : handed o q d es \/ (es = [] /\ L o) -> (forall b, q = Some b -> A o b) -> in_orderL A L (after d es) os es' -> in_orderL A L d (o :: os) (es ++ es').
Lemma ol_snoc A L d os es : in_orderL A L d os es -> forall o q es', handed o q (after d es) es' \/ (es' = [] /\ L o) -> (forall b, q = Some b -> A o b) -> in_orderL A L d (os ++ [o]) (es ++ es').
Proof.
  induction 1 as [d|d o q es os es' Hh Ha _ IH]; intros o2 q2 es2 H2 A2.
  - cbn [app]. rewrite <- (app_nil_r es2). eapply OL_cons; [exact H2|exact A2|constructor].
  - rewrite <- app_assoc. cbn [app]. eapply OL_cons; [exact Hh|exact Ha|]. eapply IH; [|exact A2]. unfold after in *. rewrite fold_left_app in H2. exact H2.
Qed.
Lemma ol_mono (A B : zpi -> Z -> Prop) (L M : zpi -> Prop) d os es : (forall o b, A o b -> B o b) -> (forall o, L o -> M o) -> in_orderL A L d os es -> in_orderL B M d os es.
Proof. intros H1 H2. induction 1 as [|d o q es os es' [Hh|[He Hl]] Ha _ IH]; [constructor| |]; eapply OL_cons; eauto. Qed.
Lemma ol_plain A L d os es : in_orderL A L d os es -> (forall o, In o os -> ~ L o) -> in_order A d os es.
Proof.
  induction 1 as [|d o q es os es' Hh Ha _ IH]; intro N; [constructor|]. eapply IO_cons; [|exact Ha|apply IH; intros; apply N; right; assumption].
  destruct Hh as [Hh|[_ Hl]]; [exact Hh|]. exfalso. eapply N; [left; reflexivity|exact Hl].
Qed.
Lemma after_joins es : forall d, after d (traffic es) = join_all d (joins es).
Proof.
  induction es as [|e es IH]; intro d; [reflexivity|]. destruct e; cbn [traffic filter]; fold (traffic es); cbn [after fold_left joins flat_map app join_all]; fold (joins es).
  - cbn [fst snd]. rewrite <- (enter_join d). apply IH.
  - apply IH.
  - apply IH.
Qed.
Lemma got_app a b : got (a ++ b) = got a ++ got b.
Proof. apply flat_map_app. Qed.
Definition lacking (s : st) (o : zpi) : Prop := exists t k m to, get s t = Some k /\ t_job k = JWaitFor m to /\ ~ has_fields m o.
Lemma lacking_grow s s' o : same_job s s' -> lacking s o -> lacking s' o.
Proof. intros J (t & k & m & to & G & Hj & N). destruct (J t k G) as (k' & G' & E). exists t, k', m, to. rewrite E. auto. Qed.
Lemma raise_lacking s w f r e : bytes_ok (f_data f) -> from_unpi_frame f = Ok r -> Comes s w -> waiter_match (w_matcher w) r = Err e -> lacking s r.
Proof.
  intros Hok Hf C E. assert (N : ~ has_fields (w_matcher w) r) by (intro F; exact (no_raise_ok _ _ F e E)).
  assert (NoJobs : forall t k m to, get (init 0 None [] true) t = Some k -> t_job k = JWaitFor m to -> has_fields m r) by (intros t k m to G; discriminate G).
  destruct C as [C|[(_ & t & k & to & G & Hj)|C]].
  - exfalso. apply N. exact (comes_fields (init 0 None [] true) w f r Hok Hf (or_introl C) NoJobs).
  - exists t, k, (w_matcher w), to. auto.
  - exfalso. apply N. exact (comes_fields (init 0 None [] true) w f r Hok Hf (or_intror (or_intror C)) NoJobs).
Qed.
Record DL (d0 : devices) (s : st) : Prop := mk_DL {
  DL_log : in_orderL (attributed s) (lacking s) d0 (got (s_log s)) (traffic (effects (s_log s)));
  DL_devs : s_devs s = after d0 (traffic (effects (s_log s)));
  DL_app : s_app s = true;
  DL_version : exists v, s_version s = Some v }.
Lemma silent_nothing l : Forall silent l -> got l = [] /\ effects l = [].
Proof. induction 1 as [|x l H _ [IH1 IH2]]; [auto|]. destruct x; try destruct H; exact (conj IH1 IH2). Qed.
Lemma entry_messages l : Forall app_entry l -> got l = [].
Proof. induction 1 as [|x l H _ IH]; [reflexivity|]. destruct x; try destruct H; exact IH. Qed.
Lemma completed_nothing o cs : Forall (fun x => exists i, x = OCompleted i o) cs -> got cs = [] /\ effects cs = [].
Proof. induction 1 as [|x l (i & ->) _ [IH1 IH2]]; auto. Qed.
Lemma dl_quiet d0 s s' : DL d0 s -> prims s s' -> quiet s s' -> (exists v, s_version s' = Some v) -> DL d0 s'.
Proof.
  intros [L D A V] P Q V'. destruct Q as [Qd Qa Qv Q4 Q5 (l & El & Fl)]. destruct (silent_nothing l Fl) as [M1 M2]. pose proof (same_job_prims _ _ P) as J. constructor.
  - rewrite El, got_app, effects_app, M1, M2, !app_nil_r. eapply ol_mono; [| |exact L]; [intros o b; apply attributed_grow, J|intros o; apply lacking_grow, J].
  - rewrite El, effects_app, M2, app_nil_r. congruence.
  - congruence.
  - exact V'.
Qed.
Lemma dl_received d0 s f : Core s -> Asked s -> Origin s -> bytes_ok (f_data f) -> DL d0 s -> DL d0 (fst (data_received s f)).
Proof.
  intros Hc Ha Ho Hok [L D A (v & V)]. pose proof (same_job_prims _ _ (data_received_prims s f Hc)) as J.
  unfold data_received in *. destruct (from_unpi_frame f) as [o|e] eqn:Hf; [|constructor; eauto].
  destruct (dispatch_spec o (s_waiters (note (OReceived o) s)) (note (OReceived o) s)) as (pre & post & o' & r & E & Ed & Hst).
  change (s_waiters (note (OReceived o) s)) with (s_waiters s) in *. cbv zeta in *. rewrite Ed in *.
  set (s1 := completes (filter (hit o) pre) o (note (OReceived o) s)) in *.
  set (cs := map (fun w => OCompleted (w_id w) o) (filter (hit o) pre)).
  assert (Hcs : Forall (fun x => exists i, x = OCompleted i o) cs).
  { apply Forall_forall. intros x Hx. apply in_map_iff in Hx as (w & <- & _). eauto. }
  destruct (completed_nothing o cs Hcs) as [Mc Ec].
  assert (L1 : s_log s1 = s_log s ++ OReceived o :: cs) by (unfold s1; rewrite completes_nf; unfold note; fld; rewrite <- app_assoc; reflexivity).
  assert (D1 : s_devs s1 = s_devs s) by (unfold s1; rewrite completes_nf; reflexivity).
  assert (A1 : s_app s1 = true) by (unfold s1; rewrite completes_nf; exact A).
  assert (V1 : s_version s1 = Some v) by (unfold s1; rewrite completes_nf; exact V).
  assert (M1 : got (s_log s1) = got (s_log s) ++ [o]) by (rewrite L1, got_app; f_equal; cbn [got flat_map app]; fold (got cs); rewrite Mc; reflexivity).
  assert (E1 : effects (s_log s1) = effects (s_log s)) by (rewrite L1, effects_app; cbn [effects flat_map app]; fold (effects cs); rewrite Ec, app_nil_r; reflexivity).
  destruct r as [[]|e].
  2: { inversion Hst as [| |p w e' po Hp H1]; subst. cbn [fst] in *. constructor; [|rewrite D1, E1; exact D|exact A1|eauto].
       rewrite M1, E1, <- (app_nil_r (traffic _)).
       assert (L' : in_orderL (attributed s1) (lacking s1) d0 (got (s_log s)) (traffic (effects (s_log s)))) by (eapply ol_mono; [| |exact L]; [intros ? ?; apply attributed_grow, J|intros ?; apply lacking_grow, J]).
       apply (ol_snoc _ _ _ _ _ L' _ None []); [right; split; [reflexivity|]|discriminate].
       eapply lacking_grow; [exact J|]. eapply raise_lacking; [exact Hok|exact Hf| |exact H1]. apply Ho. rewrite E. apply in_or_app. right. left. reflexivity. }
  unfold app_handle in *. rewrite A1 in *.
  assert (Hq : exists q, o' = with_seq o q /\ forall b, q = Some b -> attributed s o b).
  { inversion Hst as [p Hp|p w q po Hp H1 H2 H3|]; subst.
    - exists None. split; [|discriminate]. destruct (decoded_inv f o' Hok Hf) as (xs & c & ps & n & pl & _ & _ & _ & _ & Er & _ & _). rewrite Er. reflexivity.
    - exists (Some q). split; [reflexivity|]. intros b [= <-]. destruct (Ha w q) as (t & k & nwk & cluster & data & rsp & a & G & Hk & Hin & Hm & Hx).
      { rewrite E. apply in_or_app. left. apply in_or_app. right. left. reflexivity. } { exact H2. }
      apply hit_answers in H1. rewrite Hm in H1. destruct H1 as (B1 & B2 & B3 & B4). cbn [m_type m_sub m_cmd m_payload] in *.
      split; [exact H3|]. split; [congruence|]. split; [congruence|]. exists t, k, nwk, cluster, data. rewrite <- B3.
      repeat (split; [assumption|]). intro Hd. specialize (Hx Hd). subst a. inversion B4 as [|? ? (x & Ex & Vx) _]; subst. cbn [fst snd] in *.
      unfold field. rewrite Ex. f_equal. inversion Vx as [| |? ? ? K|]; subst; [congruence|inversion K]. }
  destruct Hq as (q & -> & Hq). rewrite V1 in *. pose proof (handle_table (Some v) (s_devs s1) (with_seq o q)) as Ht.
  assert (Hs : handed o q (s_devs s1) (traffic (snd (fst (handle_znp (Some v) (s_devs s1) (with_seq o q)))))).
  { apply handle_handed with (f := f); [exact Hok|exact Hf|]. intros b Hb. destruct (Hq b Hb) as (_ & _ & A2 & t & k & nwk & cluster & data & _ & _ & Hin & _). split; [exact A2|].
    change (z_cmd o) with (snd (cluster, z_cmd o)). apply in_map, Hin. }
  destruct (handle_znp (Some v) (s_devs s1) (with_seq o q)) as [[d es] r]. cbn [fst snd] in *. subst d.
  destruct (effects_log es (set_devs (join_all (s_devs s1) (joins es)) s1)) as (ef & Le & Fe & Ee).
  destruct (effects_keep es (set_devs (join_all (s_devs s1) (joins es)) s1)) as (K1 & K2 & K3 & K4 & K5 & De & K7).
  set (s2 := fold_left _ es _) in *.
  assert (Ls : s_log s2 = s_log s1 ++ ef) by exact Le.
  assert (Ms : got (s_log s2) = got (s_log s) ++ [o]) by (rewrite Ls, got_app, (entry_messages ef Fe), app_nil_r; exact M1).
  assert (Es : effects (s_log s2) = effects (s_log s) ++ es) by (rewrite Ls, effects_app, E1, Ee; reflexivity).
  constructor.
  - rewrite Ms, Es, traffic_app. eapply ol_snoc; [|left; rewrite <- D, <- D1; exact Hs|].
    + eapply ol_mono; [| |exact L]; [intros ? ?; apply attributed_grow, J|intros ?; apply lacking_grow, J].
    + intros b Hb. eapply attributed_grow; [exact J|]. apply Hq, Hb.
  - rewrite De. fld. rewrite Es, traffic_app. unfold after. rewrite fold_left_app. fold (after d0 (traffic (effects (s_log s)))). rewrite <- D, <- D1. symmetry. apply after_joins.
  - destruct K7 as (_ & K8 & _). rewrite K8. fld. exact A1.
  - destruct K7 as (K8 & _). exists v. rewrite K8. fld. exact V1.
Qed.
Definition Dt (d0 : devices) (s : st) : Prop := Core s /\ Asked s /\ Origin s /\ good_buffer (s_buf s) /\ DL d0 s.
Lemma dl_gw d0 bs : forall s b, Core s -> Asked s -> Origin s -> good_buffer b -> DL d0 s ->
  let x := gw_data_received data_received b s bs in DL d0 (snd (fst x)) /\ good_buffer (fst (fst x)).
Proof.
  induction bs as [|x bs IH]; intros s b Hc Ha Ho Hb T; cbn [gw_data_received]; cbv zeta; [auto|].
  destruct (parser_write b x) as [b1 r] eqn:E. destruct (write_bytes b x b1 r Hb E) as [Hb1 Hf].
  destruct r as [[f|]|e]; [|apply IH; assumption|auto].
  pose proof (dl_received d0 s f Hc Ha Ho (Hf f eq_refl) T) as T1. pose proof (data_received_prims s f Hc) as P.
  destruct (data_received s f) as [s1 [[]|e]]; cbn [fst snd] in *; [|auto].
  apply IH; try assumption; [eapply core_prims; eassumption|eapply (prims_inv Asked asked_prim); eassumption|eapply (prims_inv Origin origin_prim); eassumption].
Qed.
Lemma dt_step d0 e s : Dt d0 s -> Dt d0 (step e s).
Proof.
  intros (Hc & Ha & Ho & Hb & T). pose proof (step_prims e s Hc) as P. unfold Dt.
  split; [eapply core_prims; eassumption|]. split; [eapply (prims_inv Asked asked_prim); eassumption|]. split; [eapply (prims_inv Origin origin_prim); eassumption|].
  assert (Hqu : quiet s (step e s) -> good_buffer (s_buf (step e s)) /\ DL d0 (step e s)).
  { intro Q. split; [rewrite (Q_buf _ _ Q); exact Hb|]. eapply dl_quiet; [exact T|exact P|exact Q|]. rewrite (Q_version _ _ Q). apply (DL_version _ _ T). }
  destruct e; cbn [step] in *.
  - apply Hqu, quiet_spawn.
  - apply Hqu, quiet_resume.
  - apply Hqu, quiet_timeout.
  - apply Hqu, quiet_cancel.
  - apply Hqu, quiet_cleanup.
  - apply Hqu. destruct (0 <=? ms); [quiet_same|apply quiet_refl].
  - unfold receive in *. destruct (dl_gw d0 data s (s_buf s) Hc Ha Ho Hb T) as [T1 B1].
    destruct (gw_data_received data_received (s_buf s) s data) as [[b s1] r]. cbn [fst snd] in *. destruct T1 as [L1 D1 A1 V1].
    destruct r as [u|e]; (split; [exact B1|]); [constructor; assumption|]. unfold note. fld. constructor; fld; try assumption.
    + rewrite got_app, effects_app. cbn [got effects flat_map app]. rewrite !app_nil_r. exact L1.
    + rewrite effects_app. cbn [effects flat_map app]. rewrite app_nil_r. exact D1.
  - split; [exact Hb|]. destruct T as [L1 D1 A1 V1]. constructor; assumption.
  - split; [exact Hb|]. destruct T as [L1 D1 A1 V1]. constructor; fld; eauto.
Qed.
Lemma dt_run d0 es : forall s, Dt d0 s -> Dt d0 (run es s).
Proof. unfold run. induction es as [|e es IH]; intros s H; cbn [fold_left]; [exact H|apply IH, dt_step, H]. Qed.
Lemma dt_init cap v d : Dt d (init cap (Some v) d true).
Proof. split; [apply core_init|]. split; [apply asked_init|]. split; [intros w []|]. split; [apply good_nil|]. constructor; try reflexivity; [constructor|exists v; reflexivity]. Qed.
Lemma all_handed cap v d es : let s := run es (init cap (Some v) d true) in
  fields_exist s -> in_order (attributed s) d (got (s_log s)) (traffic (effects (s_log s))).
Proof.
  intros s F. destruct (dt_run d es _ (dt_init cap v d)) as (_ & _ & _ & _ & [L _ _ _]). fold s in L. eapply ol_plain; [exact L|].
  intros o Hin (t & k & m & to & G & Hj & N). apply N. eapply F; [exact G|exact Hj|]. unfold got in Hin. apply in_flat_map in Hin as (x & Hx & Hi). destruct x; try destruct Hi as [->|[]]; try destruct Hi. exact Hx.
Qed.

(** ** from bytes to messages *)
Lemma received_got s f o : from_unpi_frame f = Ok o -> got (s_log (fst (data_received s f))) = got (s_log s) ++ [o].
Proof.
  intro Hf. unfold data_received. rewrite Hf. cbv zeta.
  destruct (dispatch_spec o (s_waiters (note (OReceived o) s)) (note (OReceived o) s)) as (pre & post & o' & r & E & Ed & _). rewrite Ed.
  set (s1 := completes (filter (hit o) pre) o (note (OReceived o) s)) in *.
  set (cs := map (fun w => OCompleted (w_id w) o) (filter (hit o) pre)).
  assert (Hcs : Forall (fun x => exists i, x = OCompleted i o) cs).
  { apply Forall_forall. intros x Hx. apply in_map_iff in Hx as (w & <- & _). eauto. }
  assert (M1 : got (s_log s1) = got (s_log s) ++ [o]).
  { unfold s1. rewrite completes_nf. unfold note. fld. rewrite <- app_assoc, got_app. f_equal. cbn [got flat_map app]. fold cs. fold (got cs). rewrite (proj1 (completed_nothing o cs Hcs)). reflexivity. }
  destruct r as [u|e]; [|exact M1]. unfold app_handle. destruct (s_app s1); [|exact M1]. destruct (handle_znp _ _ _) as [[d es] r]. cbn [fst].
  destruct (effects_log es (set_devs d s1)) as (ef & -> & Fe & _). rewrite got_app, (entry_messages ef Fe), app_nil_r. exact M1.
Qed.
Lemma gw_got bs : forall s b b' s', gw_data_received data_received b s bs = (b', s', Ok tt) ->
  exists fs os, parser_run b bs = (b', map Ok fs) /\ got (s_log s') = got (s_log s) ++ os /\ map from_unpi_frame fs = map Ok os.
Proof.
  induction bs as [|x bs IH]; intros s b b' s' H; cbn [gw_data_received parser_run] in *.
  - injection H as <- <-. exists [], []. rewrite app_nil_r. auto.
  - destruct (parser_write b x) as [b1 [[f|]|e]]; [| |discriminate H].
    + destruct (data_received s f) as [s1 [[]|e]] eqn:Ed; [|discriminate H]. destruct (IH _ _ _ _ H) as (fs & os & Ep & El & Em). rewrite Ep.
      destruct (from_unpi_frame f) as [o|e] eqn:Hf; [|unfold data_received in Ed; rewrite Hf in Ed; discriminate Ed].
      exists (f :: fs), (o :: os). split; [reflexivity|]. split; [|cbn [map]; rewrite Hf, Em; reflexivity].
      pose proof (received_got s f o Hf) as G. rewrite Ed in G. cbn [fst] in G. rewrite El, G, <- app_assoc. reflexivity.
    + destruct (IH _ _ _ _ H) as (fs & os & Ep & El & Em). rewrite Ep. exists fs, os. auto.
Qed.
Lemma step_calm e s : (forall data, e <> ERecv data) -> s_buf (step e s) = s_buf s /\ got (s_log (step e s)) = got (s_log s).
Proof.
  intro N. assert (K : forall s', quiet s s' -> s_buf s' = s_buf s /\ got (s_log s') = got (s_log s)).
  { intros s' Q. split; [apply (Q_buf _ _ Q)|]. destruct (Q_log _ _ Q) as (l & -> & Fl). rewrite got_app, (proj1 (silent_nothing l Fl)), app_nil_r. reflexivity. }
  destruct e; cbn [step].
  - apply K, quiet_spawn.
  - apply K, quiet_resume.
  - apply K, quiet_timeout.
  - apply K, quiet_cancel.
  - apply K, quiet_cleanup.
  - apply K. destruct (0 <=? ms); [quiet_same|apply quiet_refl].
  - exfalso. eapply N. reflexivity.
  - split; reflexivity.
  - split; reflexivity.
Qed.
Lemma stream_got es : forall s b0 fs0, Core s -> let s' := run es s in (forall e, ~ In (ORaised e) (s_log s')) ->
  parser_run [] b0 = (s_buf s, map Ok fs0) -> map from_unpi_frame fs0 = map Ok (got (s_log s)) ->
  exists fs, parser_run [] (b0 ++ arrived es) = (s_buf s', map Ok fs) /\ map from_unpi_frame fs = map Ok (got (s_log s')).
Proof.
  induction es as [|e es IH]; intros s b0 fs0 Hc s' N P M; [exists fs0; subst s'; cbn [arrived flat_map]; rewrite app_nil_r; auto|].
  pose proof (core_prims _ _ (step_prims e s Hc) Hc) as Hc1. cbn [arrived flat_map]. fold (arrived es). rewrite app_assoc. subst s'. cbn [run fold_left] in *. fold (run es (step e s)) in *.
  destruct (log_prims _ _ (run_prims es _ Hc1)) as (l & El).
  assert (N1 : forall x, ~ In (ORaised x) (s_log (step e s))) by (intros x C; eapply N; rewrite El; apply in_or_app; left; exact C).
  destruct e; try (match goal with |- context [step ?e s] => destruct (step_calm e s ltac:(discriminate)) as [B1 G1] end;
    rewrite app_nil_r; eapply (IH _ b0 fs0); [exact Hc1|exact N|rewrite B1; exact P|rewrite G1; exact M]).
  cbn [step] in *. unfold receive in *. destruct (gw_data_received data_received (s_buf s) s data) as [[b s1] r] eqn:Eg. destruct r as [[]|x].
  - destruct (gw_got _ _ _ _ _ Eg) as (fs & os & Ep & Eo & Em). eapply (IH _ (b0 ++ data) (fs0 ++ fs)); [exact Hc1|exact N| |].
    + rewrite parser_run_app, P, Ep, map_app. reflexivity.
    + fld. rewrite Eo, !map_app, M, Em. reflexivity.
  - exfalso. apply (N1 x). unfold note. fld. apply in_or_app. right. left. reflexivity.
Qed.
Lemma bytes_messages cap v d a es : let s := run es (init cap v d a) in (forall e, ~ In (ORaised e) (s_log s)) ->
  exists fs, parser_run [] (arrived es) = (s_buf s, map Ok fs) /\ map from_unpi_frame fs = map Ok (got (s_log s)).
Proof. intros s N. apply (stream_got es (init cap v d a) [] []); [apply core_init|exact N|reflexivity|reflexivity]. Qed.
