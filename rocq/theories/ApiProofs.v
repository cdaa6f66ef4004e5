(** * ApiProofs: matching of replies *)
From Coq Require Import ZifyBool ZifyNat.
From Verif Require Import Base Types Uart Buffalo CmdTable Zpi Api SpecCodec SpecApi UartProofs CodecProofs CodecProofs2 RequestProofs.
Ltac Zify.zify_post_hook ::= Z.div_mod_to_equations.

Lemma ct_eqb_eq a b : ct_eqb a b = true <-> a = b.
Proof. split; [|intros ->; destruct b; reflexivity]. destruct a, b; intro H; try reflexivity; discriminate H. Qed.
Lemma sub_eqb_eq a b : sub_eqb a b = true <-> a = b.
Proof. split; [|intros ->; destruct b; reflexivity]. destruct a, b; intro H; try reflexivity; discriminate H. Qed.
Lemma ct_eqb_spec a b : reflect (a = b) (ct_eqb a b).
Proof. apply iff_reflect. symmetry. apply ct_eqb_eq. Qed.
Lemma sub_eqb_spec a b : reflect (a = b) (sub_eqb a b).
Proof. apply iff_reflect. symmetry. apply sub_eqb_eq. Qed.

(** the parameter list starts with these parameters *)
Definition ptype_eqb (a b : ptype) : bool :=
  match a, b with UINT8, UINT8 | UINT16, UINT16 | UINT32, UINT32 | IEEEADDR, IEEEADDR => true | _, _ => false end.
Fixpoint heads (l ps : list param) : bool :=
  match l, ps with
  | [], _ => true
  | (n, t) :: l, (n', t') :: ps => String.eqb n n' && ptype_eqb t t' && heads l ps
  | _, [] => false
  end.
Lemma heads_ok l : forall ps, heads l ps = true -> exists r, ps = l ++ r.
Proof.
  induction l as [|[n t] l IH]; intros ps H; [exists ps; reflexivity|]. destruct ps as [|[n' t'] ps]; [discriminate|].
  cbn [heads] in H. rewrite !andb_true_iff in H. destruct H as [[Hn Ht] Hl]. apply String.eqb_eq in Hn as <-.
  assert (t = t') as <- by (destruct t, t'; try reflexivity; discriminate Ht).
  destruct (IH ps Hl) as [r ->]. exists r. reflexivity.
Qed.

(** what a decoded message looks like *)
Lemma decoded_inv f r : bytes_ok (f_data f) -> from_unpi_frame f = Ok r ->
  exists cs c ps n pl, definition (f_sub f) = Ok cs /\ In c cs /\ c_ID c = f_id f /\
    (f_type f = SRSP /\ c_response c = Some ps \/ f_type f <> SRSP /\ c_request c = Some ps) /\
    r = mk_zpi (f_type f) (f_sub f) (c_name c) (c_ID c) pl ps None /\
    payload_wire None ps pl (firstn n (f_data f)) /\ NoDup (names ps).
Proof.
  intros Hok H. unfold from_unpi_frame in H.
  destruct (definition (f_sub f)) as [cs|] eqn:Ed; [|discriminate]. cbn [bind] in H. unfold next_cmd in H.
  destruct (find (fun c => c_ID c =? f_id f) cs) as [c|] eqn:Ef; [|discriminate]. cbn [bind] in H.
  apply find_some in Ef as [Hc Hid].
  destruct (select_params (f_type f) c) as [ps|] eqn:Es; [|discriminate]. cbn [bind] in H.
  destruct (read_parameters (f_data f) ps) as [pl|] eqn:Er; [|discriminate]. cbn [bind] in H.
  assert (Hsel : f_type f = SRSP /\ c_response c = Some ps \/ f_type f <> SRSP /\ c_request c = Some ps).
  { unfold select_params in Es. destruct (ct_eqb_spec (f_type f) SRSP) as [E|E].
    - left. split; [exact E|]. destruct (c_response c); [injection Es as ->; reflexivity|discriminate].
    - right. split; [exact E|]. destruct (c_request c); [injection Es as ->; reflexivity|discriminate]. }
  assert (Hnd : NoDup (names ps)).
  { eapply table_params; [exact Ed|exact Hc|]. destruct Hsel as [[_ E]|[_ E]]; auto. }
  destruct (decode_consumes ps _ pl Hnd Hok Er) as (n & _ & Hw & _).
  exists cs, c, ps, n, pl. injection H as <-.
  split; [reflexivity|]. split; [exact Hc|]. split; [lia|]. split; [exact Hsel|]. split; [reflexivity|].
  split; assumption.
Qed.

Lemma wire_get prev ps pl bs n t : NoDup (names ps) -> payload_wire prev ps pl bs -> In (n, t) ps ->
  exists v prev' a, dict_get pl n = Some v /\ value_wire n t prev' v a.
Proof.
  intros Hnd H. induction H as [|prev m t0 v a ps pl b Hv Hp IH]; intros Hin; [destruct Hin|].
  inversion Hnd as [|? ? Hm Hnd']; subst. cbn [dict_get]. destruct Hin as [E|Hin].
  - injection E as -> ->. rewrite String.eqb_refl. eauto.
  - destruct (String.eqb_spec n m) as [->|Hne]; [|apply IH; assumption].
    exfalso. apply Hm. change m with (fst (m, t)). apply in_map, Hin.
Qed.

Lemma wire_get_none prev ps pl bs n : payload_wire prev ps pl bs -> ~ In n (names ps) -> dict_get pl n = None.
Proof.
  induction 1 as [|prev m t0 v a ps pl b Hv Hp IH]; intro Hn; [reflexivity|]. cbn [dict_get].
  destruct (String.eqb_spec n m) as [->|Hne]; [exfalso; apply Hn; left; reflexivity|]. apply IH.
  intro C. apply Hn. right. exact C.
Qed.

Lemma u16_value n prev v a : value_wire n UINT16 prev v a -> exists z, v = VInt z /\ 0 <= z < 65536 /\ a = le2 z.
Proof. intro H. inversion H; subst; eauto. discriminate. Qed.
Lemma u8_value n prev v a : value_wire n UINT8 prev v a -> exists z, v = VInt z /\ byte_ok z /\ a = [z].
Proof. intro H. inversion H; subst; eauto. discriminate. Qed.

(** a matcher with one integer field *)
Lemma match_one t s c n z r : (forall x, z_type r = t -> z_sub r = s -> z_cmd r = c ->
    dict_get (z_payload r) n = x -> exists y, x = Some (VInt y)) ->
  exists b, waiter_match (mk_matcher t s c [(n, VInt z)]) r = Ok b /\
    (b = true <-> z_type r = t /\ z_sub r = s /\ z_cmd r = c /\ dict_get (z_payload r) n = Some (VInt z)).
Proof.
  intro H. unfold waiter_match. cbn [m_type m_sub m_cmd m_payload].
  destruct (ct_eqb_spec t (z_type r)) as [Et|Et]; cbn [negb orb];
    [|exists false; split; [reflexivity|]; split; [discriminate|intros (E & _); congruence]].
  destruct (sub_eqb_spec s (z_sub r)) as [Es|Es]; cbn [negb orb];
    [|exists false; split; [reflexivity|]; split; [discriminate|intros (_ & E & _); congruence]].
  destruct (String.eqb_spec c (z_cmd r)) as [Ec|Ec]; cbn [negb orb];
    [|exists false; split; [reflexivity|]; split; [discriminate|intros (_ & _ & E & _); congruence]].
  unfold match_payload, dict_getE.
  destruct (H _ (eq_sym Et) (eq_sym Es) (eq_sym Ec) eq_refl) as [y Hy]. rewrite Hy. cbn [bind value_eqb].
  destruct (Z.eqb_spec z y) as [->|Hne].
  - exists true. split; [reflexivity|]. split; [auto|reflexivity].
  - exists false. split; [reflexivity|]. split; [discriminate|]. intros (_ & _ & _ & E). congruence.
Qed.

(** dataConfirm messages carry a transaction id, ZDO replies a source address *)
Lemma confirm_has_transid f r : bytes_ok (f_data f) -> from_unpi_frame f = Ok r ->
  z_type r = AREQ -> z_sub r = AF -> z_cmd r = "dataConfirm" -> exists y, dict_get (z_payload r) "transid" = Some (VInt y).
Proof.
  intros Hok H Ht Hs Hcmd. destruct (decoded_inv f r Hok H) as (cs & c & ps & n & pl & Hd & Hc & _ & Hsel & -> & Hw & Hnd).
  cbn [z_type z_sub z_cmd z_payload] in *. rewrite Hs in Hd.
  destruct Hsel as [[E _]|[_ Hreq]]; [congruence|].
  assert (E : forallb (fun '(s, c) => negb (sub_eqb s AF) || negb (String.eqb (c_name c) "dataConfirm") ||
     match c_request c with Some ps => existsb (fun p => String.eqb (fst p) "transid" && match snd p with UINT8 => true | _ => false end) ps | None => false end) table = true)
    by (vm_compute; reflexivity).
  apply (table_sweep (fun s c => negb (sub_eqb s AF) || negb (String.eqb (c_name c) "dataConfirm") ||
     match c_request c with Some ps => existsb (fun p => String.eqb (fst p) "transid" && match snd p with UINT8 => true | _ => false end) ps | None => false end))
    with (s := AF) (cs := cs) (c := c) in E; try assumption.
  rewrite Hcmd, Hreq in E. cbn [sub_eqb negb orb] in E. rewrite String.eqb_refl in E. cbn [negb orb] in E.
  change (sub_val AF =? sub_val AF) with true in E. cbn [negb orb] in E.
  apply existsb_exists in E as ([m t] & Hin & E). cbn [fst snd] in E. apply andb_true_iff in E as [Em Et].
  apply String.eqb_eq in Em as ->. destruct t; try discriminate Et.
  destruct (wire_get _ _ _ _ _ _ Hnd Hw Hin) as (v & p & a & G & Hv). destruct (u8_value _ _ _ _ Hv) as (z & -> & _).
  eauto.
Qed.

Lemma reply_has_srcaddr f r rsp : bytes_ok (f_data f) -> from_unpi_frame f = Ok r ->
  In rsp (map snd addressed_requests) ->
  z_type r = AREQ -> z_sub r = ZDO -> z_cmd r = rsp -> exists y, dict_get (z_payload r) "srcaddr" = Some (VInt y).
Proof.
  intros Hok H Hin Ht Hs Hcmd. destruct (decoded_inv f r Hok H) as (cs & c & ps & n & pl & Hd & Hc & _ & Hsel & -> & Hw & Hnd).
  cbn [z_type z_sub z_cmd z_payload] in *. rewrite Hs in Hd.
  destruct Hsel as [[E _]|[_ Hreq]]; [congruence|].
  assert (E : forallb (fun '(s, c) => negb (sub_eqb s ZDO) || negb (existsb (String.eqb (c_name c)) (map snd addressed_requests)) ||
     match c_request c with Some ps => heads [("srcaddr", UINT16)] ps | None => false end) table = true)
    by (vm_compute; reflexivity).
  apply (table_sweep (fun s c => negb (sub_eqb s ZDO) || negb (existsb (String.eqb (c_name c)) (map snd addressed_requests)) ||
     match c_request c with Some ps => heads [("srcaddr", UINT16)] ps | None => false end))
    with (s := ZDO) (cs := cs) (c := c) in E; try assumption.
  replace (existsb (String.eqb (c_name c)) (map snd addressed_requests)) with true in E
    by (symmetry; apply existsb_exists; exists rsp; split; [exact Hin|apply String.eqb_eq, Hcmd]).
  change (sub_eqb ZDO ZDO) with true in E. cbn [negb orb] in E. rewrite Hreq in E.
  destruct (heads_ok _ _ E) as [rest ->].
  destruct (wire_get _ _ _ _ "srcaddr" UINT16 Hnd Hw (or_introl eq_refl)) as (v & p & a & G & Hv).
  destruct (u16_value _ _ _ _ Hv) as (z & -> & _). eauto.
Qed.

(** ** the waiter of a data request *)
Lemma data_waiter nwk cluster src_ep dst_ep sequence data radius mode o s :
  from_cluster nwk 260 cluster src_ep dst_ep sequence data radius mode = Ok o ->
  exists m, create_response_waiter o s = Ok (Some (m, None)) /\
    forall f r, bytes_ok (f_data f) -> from_unpi_frame f = Ok r ->
      exists b, waiter_match m r = Ok b /\ (b = true <-> confirms sequence r).
Proof.
  intro H. exists (mk_matcher AREQ AF "dataConfirm" [("transid", VInt sequence)]). split.
  - destruct mode; (injection H as <- || (rewrite from_cluster_af in H; injection H as <-) || (rewrite from_cluster_ext in H; injection H as <-)); reflexivity.
  - intros f r Hok Hr. apply (match_one AREQ AF "dataConfirm" "transid" sequence r).
    intros x Ht Hs Hc <-. eapply confirm_has_transid; eassumption.
Qed.

(** ** the waiter of a ZDO request *)
Definition req_row (x : Z * string) : bool :=
  match find (fun c => c_ID c =? fst x) def_ZDO with
  | Some c => ct_eqb (c_type c) SREQ && endswith (c_name c) "Req" && String.eqb (replace_req (c_name c)) (snd x) &&
      negb (startswith (c_name c) "dataRequest") &&
      existsb (fun d => String.eqb (snd x) (c_name d)) def_ZDO &&
      match c_request c with
      | Some ps => heads (if is_permit_join c then [("addrmode", UINT8); ("dstaddr", UINT16)] else [("dstaddr", UINT16)]) ps
      | None => false
      end
  | None => false
  end.

Lemma addressed_row cluster rsp : In (cluster, rsp) addressed_requests -> exists c ps,
  In c def_ZDO /\ c_ID c = cluster /\ c_type c = SREQ /\ endswith (c_name c) "Req" = true /\
  replace_req (c_name c) = rsp /\ startswith (c_name c) "dataRequest" = false /\
  (exists d, find (fun d => String.eqb rsp (c_name d)) def_ZDO = Some d) /\
  c_request c = Some ((if is_permit_join c then [("addrmode", UINT8); ("dstaddr", UINT16)] else [("dstaddr", UINT16)]) ++ ps).
Proof.
  intro H. assert (E : forallb req_row addressed_requests = true) by (vm_compute; reflexivity).
  rewrite forallb_forall in E. specialize (E _ H). unfold req_row in E. cbn [fst snd] in E.
  destruct (find (fun c => c_ID c =? cluster) def_ZDO) as [c|] eqn:Ef; [|discriminate].
  apply find_some in Ef as [Hc Hid]. rewrite !andb_true_iff in E.
  destruct E as [[[[[E1 E2] E3] E4] E5] E6].
  destruct (c_request c) as [ps|] eqn:Ep; [|discriminate]. apply heads_ok in E6 as [r ->].
  exists c, r. split; [exact Hc|]. split; [lia|]. split; [apply ct_eqb_eq, E1|]. split; [exact E2|].
  split; [apply String.eqb_eq, E3|]. split; [apply negb_true_iff, E4|]. split; [|exact Ep].
  destruct (find (fun d => String.eqb rsp (c_name d)) def_ZDO) as [d|] eqn:E; [eauto|].
  apply existsb_exists in E5 as (d & Hd & Eq). exfalso. pose proof (find_none _ _ E d Hd) as C. cbn in C. congruence.
Qed.

Lemma zdo_dst nwk profile c ps src_ep dst_ep sequence data radius mode o :
  profile <> 260 -> In c def_ZDO ->
  c_request c = Some ((if is_permit_join c then [("addrmode", UINT8); ("dstaddr", UINT16)] else [("dstaddr", UINT16)]) ++ ps) ->
  0 <= nwk < 65536 -> bytes_ok data ->
  from_cluster nwk profile (c_ID c) src_ep dst_ep sequence data radius mode = Ok o ->
  dict_get (z_payload o) "dstaddr" = Some (VInt nwk) /\ z_type o = c_type c /\ z_sub o = ZDO /\ z_cmd o = c_name c.
Proof.
  intros Hp Hc Hps Hn Hd H. rewrite (from_cluster_zdo _ _ _ _ _ _ _ _ _ _ Hp Hc Hps Hn) in H.
  assert (Hnd : NoDup (names ((if is_permit_join c then [("addrmode", UINT8); ("dstaddr", UINT16)] else [("dstaddr", UINT16)]) ++ ps)))
    by (eapply (table_params ZDO); [reflexivity|exact Hc|auto]).
  pose proof (zdo_body_ok (is_permit_join c) nwk data Hn Hd) as Hb.
  destruct (is_permit_join c); cbn [app] in *;
    match type of H with (do _ <- ?x; _) = _ => destruct x as [pl|] eqn:E; [|discriminate] end;
    cbn [bind] in H; injection H as <-; cbn [z_payload z_type z_sub z_cmd];
    (split; [|repeat split; reflexivity]);
    apply decode_inv in E as (bs & rest & Hs & Hw); [|exact Hnd|assumption| |exact Hnd|assumption].
  - inversion Hw as [|? ? ? v a ? pl' b Hv Hrest]; subst. apply u8_value in Hv as (m & -> & _ & ->).
    inversion Hrest as [|? ? ? v a ? pl'' b' Hv Hrest']; subst. apply u16_value in Hv as (z & -> & Hz & ->).
    unfold zdo_body, le2 in Hs. cbn [app] in Hs. injection Hs as E1 E2 E3 E4. cbn. do 2 f_equal. lia.
  - inversion Hw as [|? ? ? v a ? pl' b Hv Hrest]; subst. apply u16_value in Hv as (z & -> & Hz & ->).
    unfold zdo_body, le2 in Hs. cbn [app] in Hs. injection Hs as E1 E2 E3. cbn. do 2 f_equal. lia.
Qed.

Lemma zdo_waiter nwk profile cluster rsp src_ep dst_ep sequence data radius mode o s :
  profile <> 260 -> In (cluster, rsp) addressed_requests -> 0 <= nwk < 65536 -> bytes_ok data ->
  from_cluster nwk profile cluster src_ep dst_ep sequence data radius mode = Ok o ->
  exists m, create_response_waiter o s = Ok (Some (m, s)) /\
    forall f r, bytes_ok (f_data f) -> from_unpi_frame f = Ok r ->
      exists b, waiter_match m r = Ok b /\ (b = true <-> replies rsp nwk r).
Proof.
  intros Hp Hin Hn Hd H. destruct (addressed_row _ _ Hin) as (c & ps & Hc & <- & Ht & He & Hr & Hs & [d Hf] & Hps).
  destruct (zdo_dst nwk profile c ps _ _ _ _ _ _ o Hp Hc Hps Hn Hd H) as (Hdst & Hty & Hsub & Hcmd).
  exists (mk_matcher AREQ ZDO rsp [("srcaddr", VInt nwk)]). split.
  - unfold create_response_waiter. rewrite Hty, Ht, Hcmd, Hs, He, Hr, Hsub. cbn [ct_eqb andb].
    change (ct_val SREQ =? ct_val SREQ) with true. cbn [andb definition bind]. rewrite Hf.
    unfold dict_getE. rewrite Hdst. reflexivity.
  - intros f r Hok Hfr. apply (match_one AREQ ZDO rsp "srcaddr" nwk r).
    intros x H1 H2 H3 <-. eapply reply_has_srcaddr; try eassumption.
    change rsp with (snd (c_ID c, rsp)). apply in_map, Hin.
Qed.

Lemma built_command nwk profile cluster src_ep dst_ep sequence data radius mode o : profile <> 260 ->
  from_cluster nwk profile cluster src_ep dst_ep sequence data radius mode = Ok o ->
  z_sub o = ZDO /\ exists c, In c def_ZDO /\ c_ID c = cluster /\ z_cmd o = c_name c /\ z_type o = c_type c.
Proof.
  intros Hp H. unfold from_cluster, ZHA_PROFILE in H. apply Z.eqb_neq in Hp. rewrite Hp in H.
  change (definition ZDO) with (Ok def_ZDO) in H. cbn [bind] in H. unfold next_cmd in H.
  destruct (find (fun c => c_ID c =? cluster) def_ZDO) as [c|] eqn:Ef; [|discriminate]. cbn [bind] in H.
  apply find_some in Ef as [Hc Hid].
  destruct (select_params (c_type c) c) as [ps|]; [|discriminate]. cbn [bind] in H.
  match type of H with (do d <- ?e; _) = _ => destruct e; [|discriminate] end.
  cbn [bind] in H. injection H as <-. cbn [z_sub z_cmd z_type]. split; [reflexivity|].
  exists c. repeat split; try assumption. lia.
Qed.

(** requests without a reply: no waiter *)
Lemma no_waiter nwk profile cluster src_ep dst_ep sequence data radius mode o s :
  profile <> 260 -> ~ In cluster (map fst addressed_requests) -> ~ In cluster unaddressed_requests ->
  from_cluster nwk profile cluster src_ep dst_ep sequence data radius mode = Ok o ->
  create_response_waiter o s = Ok None.
Proof.
  intros Hp H1 H2 H. destruct (built_command _ _ _ _ _ _ _ _ _ _ Hp H) as (Hsub & c & Hc & Hid & Hcmd & Hty).
  assert (E : forallb (fun c => existsb (Z.eqb (c_ID c)) (map fst addressed_requests ++ unaddressed_requests) ||
     negb (startswith (c_name c) "dataRequest") &&
     (negb (ct_eqb (c_type c) SREQ && endswith (c_name c) "Req") ||
      match find (fun d => String.eqb (replace_req (c_name c)) (c_name d)) def_ZDO with Some _ => false | None => true end)) def_ZDO = true)
    by (vm_compute; reflexivity).
  rewrite forallb_forall in E. specialize (E c Hc). apply orb_true_iff in E as [E|E].
  - exfalso. apply existsb_exists in E as (x & Hx & Eq). apply Z.eqb_eq in Eq as <-.
    rewrite Hid in Hx. apply in_app_or in Hx. tauto.
  - apply andb_true_iff in E as [E1 E2]. unfold create_response_waiter. rewrite Hsub, Hcmd, Hty.
    apply negb_true_iff in E1. rewrite E1, andb_false_r.
    destruct (ct_eqb (c_type c) SREQ && endswith (c_name c) "Req"); [|reflexivity].
    cbn [definition bind]. cbn [negb orb] in E2.
    destruct (find (fun d => String.eqb (replace_req (c_name c)) (c_name d)) def_ZDO); [discriminate|reflexivity].
Qed.

(** requests with a reply but without destination field: creating the waiter fails *)
Lemma waiter_fails nwk profile cluster src_ep dst_ep sequence data radius mode o s :
  profile <> 260 -> In cluster unaddressed_requests -> 0 <= nwk < 65536 -> bytes_ok data ->
  from_cluster nwk profile cluster src_ep dst_ep sequence data radius mode = Ok o ->
  create_response_waiter o s = Err KeyError.
Proof.
  intros Hp Hin Hn Hd H.
  assert (exists c ps, In c def_ZDO /\ c_ID c = cluster /\ c_type c = SREQ /\ c_request c = Some ps /\
     ~ In "dstaddr" (names ps) /\ startswith (c_name c) "dataRequest" = false /\ endswith (c_name c) "Req" = true /\
     exists d, find (fun d => String.eqb (replace_req (c_name c)) (c_name d)) def_ZDO = Some d) as
    (c & ps & Hc & <- & Ht & Hps & Hno & Hs & He & d & Hf).
  { assert (E : forallb (fun x => match find (fun c => c_ID c =? x) def_ZDO with
       | Some c => ct_eqb (c_type c) SREQ && endswith (c_name c) "Req" && negb (startswith (c_name c) "dataRequest") &&
           match c_request c with Some ps => negb (existsb (String.eqb "dstaddr") (names ps)) | None => false end &&
           match find (fun d => String.eqb (replace_req (c_name c)) (c_name d)) def_ZDO with Some _ => true | None => false end
       | None => false end) unaddressed_requests = true) by (vm_compute; reflexivity).
    rewrite forallb_forall in E. specialize (E _ Hin).
    destruct (find (fun c => c_ID c =? cluster) def_ZDO) as [c|] eqn:Ef; [|discriminate].
    apply find_some in Ef as [Hc Hid]. rewrite !andb_true_iff in E. destruct E as [[[[E1 E2] E3] E4] E5].
    destruct (c_request c) as [ps|] eqn:Eps; [|discriminate].
    exists c, ps. split; [exact Hc|]. split; [lia|]. split; [apply ct_eqb_eq, E1|]. split; [exact Eps|].
    split. { intro C. apply negb_true_iff in E4. assert (existsb (String.eqb "dstaddr") (names ps) = true); [|congruence].
             apply existsb_exists. exists "dstaddr". split; [exact C|reflexivity]. }
    split; [apply negb_true_iff, E3|]. split; [exact E2|].
    destruct (find (fun d => String.eqb (replace_req (c_name c)) (c_name d)) def_ZDO) as [d|]; [eauto|discriminate]. }
  rewrite (from_cluster_zdo _ _ _ ps _ _ _ _ _ _ Hp Hc Hps Hn) in H.
  assert (Hnd : NoDup (names ps)) by (eapply (table_params ZDO); [reflexivity|exact Hc|auto]).
  pose proof (zdo_body_ok (is_permit_join c) nwk data Hn Hd) as Hb.
  destruct (read_parameters (zdo_body (is_permit_join c) nwk data) ps) as [pl|] eqn:E; [|discriminate]. cbn [bind] in H.
  apply decode_inv in E as (bs & rest & _ & Hw); [|exact Hnd|exact Hb].
  injection H as <-. unfold create_response_waiter. cbn [z_type z_cmd z_sub z_payload]. rewrite Ht, Hs, He.
  change (ct_eqb SREQ SREQ) with true. cbn [andb definition bind]. rewrite Hf.
  unfold dict_getE. rewrite (wire_get_none _ _ _ _ _ Hw Hno). reflexivity.
Qed.
