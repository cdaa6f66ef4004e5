(** * MachineProofs6: where waiters come from; offering a message never raises; answers arrive *)
From Coq Require Import ZifyBool ZifyNat.
From Verif Require Import Base Types Uart Buffalo CmdTable Zpi Api App Machine SpecWire UartProofs UartProofs2 SpecCodec SpecApi SpecMachine CodecProofs CodecProofs2 RequestProofs ApiProofs AppProofs
  MachineBase MachineInv MachineInv2 MachineInv3 MachineInv4 MachineInv5 DispatchProofs MachineProofs MachineProofs2 MachineProofs3 MachineProofs4 MachineProofs5.

(** ** the waiters the application creates *)
Lemma read_params_none n ps : forall len res l pl, ~ In n (map fst ps) -> read_params ps len res l = Ok pl -> dict_get pl n = dict_get res n.
Proof.
  induction ps as [|[m t] ps IH]; intros len res l pl Hn H; cbn [read_params] in H; [congruence|]. unfold bind in H.
  destruct (read_parameter m t _ l) as [[v rem]|]; [|discriminate]. apply IH in H; [|cbn [map In] in Hn; tauto].
  rewrite H, dict_set_get. destruct (String.eqb_spec n m) as [->|]; [exfalso; apply Hn; left; reflexivity|reflexivity].
Qed.
Definition zdo_req_ok (c : cmd) : bool :=
  negb (startswith (c_name c) "dataRequest") &&
  (negb (ct_eqb (c_type c) SREQ && endswith (c_name c) "Req") ||
   match find (fun d => String.eqb (replace_req (c_name c)) (c_name d)) def_ZDO with
   | None => true
   | Some _ => existsb (String.eqb (replace_req (c_name c))) (map snd addressed_requests) ||
       match c_request c with Some ps => negb (existsb (String.eqb "dstaddr") (map fst ps)) | None => true end
   end).
Lemma zdo_reqs c : In c def_ZDO -> zdo_req_ok c = true.
Proof. assert (E : forallb zdo_req_ok def_ZDO = true) by (vm_compute; reflexivity). rewrite forallb_forall in E. apply E. Qed.

Definition wanted (m : matcher) (q : option Z) (sequence : Z) : Prop :=
  (exists v, m = mk_matcher AREQ AF "dataConfirm" [("transid", v)] /\ q = None) \/
  (exists rsp a, m = mk_matcher AREQ ZDO rsp [("srcaddr", a)] /\ In rsp (map snd addressed_requests) /\ q = Some sequence).
Lemma created_shape nwk profile cluster src_ep dst_ep sequence data radius mode o m q s :
  from_cluster nwk profile cluster src_ep dst_ep sequence data radius mode = Ok o ->
  create_response_waiter o (Some s) = Ok (Some (m, q)) -> wanted m q s.
Proof.
  intros Hb Hw. destruct (Z.eq_dec profile 260) as [->|Hp].
  - destruct (data_waiter _ _ _ _ _ _ _ _ _ (Some s) Hb) as (m' & E & _). rewrite E in Hw. injection Hw as <- <-.
    left. unfold create_response_waiter in E. destruct (_ && _) in E; [|destruct (_ && _) in E; [|discriminate]].
    + unfold bind in E. destruct (dict_getE _ _) as [v|]; [|discriminate]. injection E as <-. exists v. auto.
    + unfold bind in E. destruct (definition _); [|discriminate]. destruct (find _ _); [|discriminate]. destruct (dict_getE _ _); discriminate.
  - right. unfold from_cluster, ZHA_PROFILE in Hb. apply Z.eqb_neq in Hp. rewrite Hp in Hb.
    change (definition ZDO) with (Ok def_ZDO) in Hb. cbn [bind] in Hb. unfold next_cmd in Hb.
    destruct (find (fun c => c_ID c =? cluster) def_ZDO) as [c|] eqn:Ef; [|discriminate]. cbn [bind] in Hb.
    apply find_some in Ef as [Hc _]. destruct (zdo_names c Hc) as [N1 N2]. apply String.eqb_neq in N1, N2. rewrite N1, N2 in Hb.
    destruct (select_params (c_type c) c) as [ps|] eqn:Es; [|discriminate]. cbn [bind] in Hb. unfold bind in Hb.
    assert (Hrd : exists l d, read_parameters l ps = Ok d /\ o = mk_zpi (c_type c) ZDO (c_name c) (c_ID c) d ps (Some sequence)).
    { destruct (String.eqb (c_name c) "mgmtPermitJoinReq"); [destruct (py_bytes _) as [pb|]; [|discriminate]|];
        (destruct (to_bytes 2 nwk) as [a|]; [|discriminate]);
        match type of Hb with match read_parameters ?l ps with _ => _ end = _ => exists l; destruct (read_parameters l ps) as [d|]; [|discriminate] end;
        injection Hb as <-; eauto. }
    clear Hb. destruct Hrd as (l & d & Hrd & ->). unfold create_response_waiter in Hw. cbn [z_type z_cmd z_sub z_payload] in Hw.
    pose proof (zdo_reqs c Hc) as Hz. unfold zdo_req_ok in Hz. apply andb_true_iff in Hz as [Z1 Z2]. apply negb_true_iff in Z1.
    rewrite Z1, andb_false_r in Hw. destruct (ct_eqb (c_type c) SREQ) eqn:Et; cbn [andb] in Hw; [|discriminate].
    destruct (endswith (c_name c) "Req") eqn:Ee; [|discriminate]. cbn [andb negb orb] in Z2. cbn [definition bind] in Hw.
    destruct (find (fun d => String.eqb (replace_req (c_name c)) (c_name d)) def_ZDO) as [rc|]; [|discriminate].
    unfold bind, dict_getE in Hw. destruct (dict_get d "dstaddr") as [a|] eqn:Ea; [|discriminate]. injection Hw as <- <-.
    exists (replace_req (c_name c)), a. split; [reflexivity|]. split; [|reflexivity].
    apply orb_true_iff in Z2 as [Z2|Z2].
    + apply existsb_exists in Z2 as (x & Hx & E). apply String.eqb_eq in E. congruence.
    + exfalso. unfold select_params in Es. apply ct_eqb_eq in Et. rewrite Et in Es. change (ct_eqb SREQ SRSP) with false in Es. cbv iota in Es. unfold key in Es.
      destruct (c_request c) as [ps'|]; [|discriminate]. injection Es as ->. apply negb_true_iff in Z2.
      unfold read_parameters in Hrd. apply (read_params_none "dstaddr") in Hrd.
      * rewrite Ea in Hrd. discriminate.
      * intro C. assert (X : existsb (String.eqb "dstaddr") (map fst ps) = true) by (apply existsb_exists; exists "dstaddr"; split; [exact C|reflexivity]). congruence.
Qed.
Lemma response_shape j o m q : build j = Ok o -> response_waiter j o = Ok (Some (m, q)) -> exists sq, wanted m q sq.
Proof.
  assert (IC : forall (x : result zpi) y, in_coroutine x = Ok y -> x = Ok y) by (intros [|[]] y H; cbn in *; congruence).
  destruct j; try discriminate; cbn [build response_waiter].
  - destruct expect_reply; [|discriminate]. unfold build_request. intros Hb Hw. apply IC in Hb. eexists. eapply created_shape; eassumption.
  - unfold build_mrequest. intros Hb Hw. apply IC in Hb. eexists. eapply created_shape; eassumption.
Qed.

(** ** the origin of every waiter *)
Definition Comes (s : st) (w : waiter) : Prop :=
  (w_seq w = None /\ exists o to, awaited o = Some (w_matcher w, to)) \/
  (w_seq w = None /\ exists t k to, get s t = Some k /\ t_job k = JWaitFor (w_matcher w) to) \/
  (exists sq, wanted (w_matcher w) (w_seq w) sq).
Definition Origin (s : st) : Prop := forall w, In w (s_waiters s) -> Comes s w.
Lemma comes_keep s s' w : same_job s s' -> Comes s w -> Comes s' w.
Proof.
  intros J [H|[(Hs & t & k & to & G & Hj)|H]]; [left; exact H| |right; right; exact H].
  right. left. split; [exact Hs|]. destruct (J t k G) as (k' & G' & Hj'). exists t, k', to. split; [exact G'|congruence].
Qed.
Lemma origin_grow s s' ws : Origin s -> same_job s s' ->
  (forall w, In w (s_waiters s') -> In w (s_waiters s) \/ In w ws) -> Forall (Comes s') ws -> Origin s'.
Proof.
  intros O J Hw Hws w Hin. destruct (Hw w Hin) as [H|H]; [eapply comes_keep; [exact J|apply O, H]|].
  rewrite Forall_forall in Hws. apply Hws, H.
Qed.
Lemma origin_prim s s' : prim s s' -> Origin s -> Origin s'.
Proof.
  intros H O. pose proof (job_prim s s' H) as J. revert J. destruct H; prim_nf; intro J;
    try (eapply (origin_grow s _ []); [exact O|exact J| |constructor]; intros x Hx; opn_in Hx; left;
         first [exact Hx|apply filter_In in Hx; apply Hx|destruct (s_futs s i); first [exact Hx|apply filter_In in Hx; apply Hx]]; fail).
  - eapply (origin_grow s _ [mk_waiter (s_next s) m Timeouts_default q]); [exact O|exact J| |].
    + intros x Hx. opn_in Hx. apply in_app_or in Hx. exact Hx.
    + constructor; [|constructor]. right. right. cbn [w_matcher w_seq]. eapply response_shape; eassumption.
  - eapply (origin_grow s _ [mk_waiter (s_next s) m to None]); [exact O|exact J| |].
    + intros x Hx. opn_in Hx. apply in_app_or in Hx. exact Hx.
    + constructor; [|constructor]. right. left. cbn [w_matcher w_seq]. split; [reflexivity|]. eexists t, _, to. split; [rewrite (get_put _ _ _ k); [rewrite Z.eqb_refl; reflexivity|exact H]|]. exact H1.
  - eapply (origin_grow s _ [mk_waiter (s_next s) m to None]); [exact O|exact J| |].
    + intros x Hx. opn_in Hx. apply in_app_or in Hx. exact Hx.
    + constructor; [|constructor]. left. cbn [w_matcher w_seq]. split; [reflexivity|]. eauto.
  - eapply (origin_grow s _ [mk_waiter (s_next s) m to None]); [exact O|exact J| |].
    + intros x Hx. opn_in Hx. apply in_app_or in Hx. exact Hx.
    + constructor; [|constructor]. left. cbn [w_matcher w_seq]. split; [reflexivity|]. eauto.
Qed.
Lemma reachable_origin cap s : reachable cap s -> Origin s.
Proof.
  intros (v & d & a & es & ->). eapply (prims_inv Origin origin_prim); [apply run_prims, core_init|]. intros w [].
Qed.

(** ** offering a decoded message to the waiters never raises *)
Lemma awaited_payload o m to : awaited o = Some (m, to) -> m_payload m = [].
Proof. unfold awaited. destruct (z_type o); try discriminate; [|destruct (is_reset_command o); [|discriminate]]; intro H; injection H as <- _; reflexivity. Qed.
Lemma comes_fields s w f r : bytes_ok (f_data f) -> from_unpi_frame f = Ok r -> Comes s w ->
  (forall t k m to, get s t = Some k -> t_job k = JWaitFor m to -> has_fields m r) -> has_fields (w_matcher w) r.
Proof.
  intros Hok Hf [(_ & o & to & Ha)|[(_ & t & k & to & G & Hj)|(sq & [(v & E & _)|(rsp & a & E & Hin & _)])]] Hw.
  - intros _ _ _. rewrite (awaited_payload _ _ _ Ha). constructor.
  - eapply Hw; eassumption.
  - rewrite E. intros E1 E2 E3. cbn [m_type m_sub m_cmd m_payload] in *. constructor; [|constructor]. cbn [fst].
    destruct (confirm_has_transid f r Hok Hf) as [y Hy]; congruence.
  - rewrite E. intros E1 E2 E3. cbn [m_type m_sub m_cmd m_payload] in *. constructor; [|constructor]. cbn [fst].
    destruct (reply_has_srcaddr f r rsp Hok Hf Hin) as [y Hy]; congruence.
Qed.
Lemma never_raises cap s f r w : 0 <= cap -> reachable cap s -> bytes_ok (f_data f) -> from_unpi_frame f = Ok r ->
  (forall t k m to, get s t = Some k -> t_job k = JWaitFor m to -> has_fields m r) -> In w (s_waiters s) ->
  exists b, waiter_match (w_matcher w) r = Ok b.
Proof.
  intros Hcap Hr Hok Hf Hw Hin. pose proof (no_raise_ok _ _ (comes_fields s w f r Hok Hf (reachable_origin cap s Hr w Hin) Hw)) as H.
  destruct (waiter_match (w_matcher w) r) as [b|e]; [eauto|]. exfalso. eapply H. reflexivity.
Qed.

(** ** a response reaches the request that waits for it *)
Lemma effects_get es : forall s t k, get s t = Some k -> get (fold_left (fun s e => do_effect e s) es s) t = Some k.
Proof.
  induction es as [|e es IH]; intros s t k G; cbn [fold_left]; [exact G|]. apply IH. destruct e; try exact G.
  unfold do_effect, spawn, note, get in *. fld. rewrite assoc_snoc, G. reflexivity.
Qed.
Lemma data_received_get s f t k : get s t = Some k -> get (fst (data_received s f)) t = Some k.
Proof.
  intro G. unfold data_received. destruct (from_unpi_frame f) as [o|e]; [|exact G].
  destruct (dispatch_spec o (s_waiters (note (OReceived o) s)) (note (OReceived o) s)) as (pre & post & o' & r & _ & E & _). rewrite E.
  assert (H1 : get (completes (filter (hit o) pre) o (note (OReceived o) s)) t = Some k) by (rewrite completes_nf; exact G).
  destruct r; [|exact H1]. unfold app_handle. destruct (s_app _); [|exact H1].
  destruct (handle_znp _ _ _) as [[d es] r]. apply effects_get. exact H1.
Qed.
Lemma answer_arrives cap s f r w : 0 <= cap -> reachable cap s -> from_unpi_frame f = Ok r -> (z_type r = SRSP \/ z_sub r = SYS) ->
  nobody_waits_for (z_type r) (z_sub r) (z_cmd r) s -> In w (s_waiters s) -> s_futs s (w_id w) = FPending -> answers (w_matcher w) r ->
  s_futs (fst (data_received s f)) (w_id w) = FDone r.
Proof.
  intros Hcap Hr Hf Hkind Hnob Hw Hp Ha. pose proof (reachable_origin cap s Hr) as O.
  assert (Hwanted : forall m q sq, wanted m q sq -> ~ (m_type m = z_type r /\ m_sub m = z_sub r)).
  { intros m q sq [(v & -> & _)|(rsp & a & -> & _)] [E1 E2]; cbn [m_type m_sub] in *; destruct Hkind; congruence. }
  assert (Hno : forall x, In x (s_waiters s) -> has_fields (w_matcher x) r).
  { intros x Hx E1 E2 E3. destruct (O x Hx) as [(_ & o & to & A)|[(_ & t & k & to & G & Hj)|(sq & Hs)]].
    - rewrite (awaited_payload _ _ _ A). constructor.
    - exfalso. eapply Hnob; eauto.
    - exfalso. eapply Hwanted; eauto. }
  destruct (message_completes cap s f r Hcap Hr Hf Hno) as (pre & post & keep & (E & _ & Hstop) & _ & _ & Hfut & _). cbv zeta in *.
  assert (Hpre : In w pre).
  { rewrite E in Hw. apply in_app_or in Hw as [Hw|Hw]; [exact Hw|exfalso]. destruct Hstop as [->|(a & x & -> & (A1 & A2 & _) & q & Hq & Hq0)]; [exact Hw|].
    assert (Hx : In x (s_waiters s)) by (rewrite E; apply in_or_app; left; apply in_or_app; right; left; reflexivity).
    destruct (O x Hx) as [(Hn & _)|[(Hn & _)|(sq & Hs)]]; [congruence|congruence|]. eapply Hwanted; eauto. }
  rewrite (Hfut w Hpre Ha), Hp. reflexivity.
Qed.

(** ** one frame in one read *)
Lemma receive_frame s f : sendable f -> f_data f <> [] -> s_buf s = [] ->
  step (ERecv (wire_of f)) s =
  let '(s1, r) := data_received s (received f) in match r with Ok _ => set_buf [] s1 | Err e => note (ORaised e) (set_buf [] s1) end.
Proof.
  intros (H1 & H2 & H3) Hne Hb. destruct f as [ty sub id d l c]. cbn [f_id f_data] in *.
  assert (Hraw : raw_ok (type_code ty, sub_code sub, id, d)).
  { unfold raw_ok. split; [destruct ty; cbn; lia|]. split; [destruct sub; cbn; lia|]. auto. }
  pose proof (chunk_raw data_received s (type_code ty, sub_code sub, id, d) Hraw) as E.
  cbn [step]. unfold receive. rewrite Hb. change (wire_of (mk_frame ty sub id d l c)) with (raw_wire (type_code ty, sub_code sub, id, d)). rewrite E.
  unfold deliver. replace (raw_frame (type_code ty, sub_code sub, id, d)) with (Some (received (mk_frame ty sub id d l c))).
  - destruct (data_received s (received (mk_frame ty sub id d l c))) as [s1 r]; reflexivity.
  - unfold raw_frame. destruct ty, sub; reflexivity.
Qed.
