(** * MachineProofs4: how requests end *)
From Coq Require Import ZifyBool ZifyNat.
From Verif Require Import Base Types Uart Buffalo CmdTable Zpi Api App Machine SpecCodec SpecApi SpecMachine CodecProofs CodecProofs2 ApiProofs AppProofs
  MachineBase MachineInv MachineInv2 MachineInv3 MachineInv4 MachineInv5 DispatchProofs MachineProofs MachineProofs2 MachineProofs3.

(** ** statuses of decoded messages *)
Lemma dict_set_get {A} (d : list (string * A)) n v m : dict_get (dict_set d n v) m = if String.eqb m n then Some v else dict_get d m.
Proof.
  induction d as [|[k w] d IH]; cbn [dict_set dict_get].
  - reflexivity.
  - destruct (String.eqb_spec n k) as [->|Hn]; cbn [dict_get].
    + destruct (String.eqb_spec m k); reflexivity.
    + rewrite IH. destruct (String.eqb_spec m k) as [->|]; [|reflexivity]. destruct (String.eqb_spec k n); [congruence|reflexivity].
Qed.
Lemma u8_int name len l v r : read_parameter name UINT8 len l = Ok (v, r) -> exists z, v = VInt z.
Proof.
  cbn [read_parameter]. unfold bind. destruct (read_int 1 l) as [[z r1]|]; [|discriminate].
  destruct (endswith name "addrmode"); [destruct (address_mode_of z); [|discriminate]|]; intro H; injection H as <- _; eauto.
Qed.
Lemma read_params_get n ps : forall len res l pl, (forall t, In (n, t) ps -> t = UINT8) ->
  (forall v, dict_get res n = Some v -> exists z, v = VInt z) -> read_params ps len res l = Ok pl ->
  (forall v, dict_get pl n = Some v -> exists z, v = VInt z) /\
  (In n (map fst ps) \/ dict_get res n <> None -> dict_get pl n <> None) /\
  (~ In n (map fst ps) -> dict_get pl n = dict_get res n).
Proof.
  induction ps as [|[m t] ps IH]; intros len res l pl Ht Hres Hr.
  - cbn [read_params] in Hr. injection Hr as <-. split; [exact Hres|]. split; [|reflexivity]. intros [[]|H]. exact H.
  - cbn [read_params] in Hr. unfold bind in Hr. destruct (read_parameter m t _ l) as [[v rem]|e] eqn:Ep; [|discriminate].
    apply IH in Hr.
    + destruct Hr as (H1 & H2 & H3). split; [exact H1|]. cbn [map In fst]. rewrite dict_set_get in *. split.
      * intro H. apply H2. destruct (String.eqb_spec n m) as [->|]; [right; congruence|]. destruct H as [[H|H]|H]; [congruence|left; exact H|right; exact H].
      * intro H. rewrite H3 by tauto. destruct (String.eqb_spec n m) as [->|]; [exfalso; tauto|reflexivity].
    + intros t' Hin. apply Ht. right. exact Hin.
    + intros w. rewrite dict_set_get. destruct (String.eqb_spec n m) as [->|]; [|apply Hres].
      intro E. injection E as <-. rewrite (Ht t (or_introl eq_refl)) in Ep. eapply u8_int, Ep.
Qed.
Lemma status_types s cs c ps t : definition s = Ok cs -> In c cs -> (c_request c = Some ps \/ c_response c = Some ps) ->
  In ("status", t) ps -> t = UINT8.
Proof.
  intros Hd Hin Hps Ht.
  pose (P := fun (_ : subsystem) (c : cmd) =>
    let ok := fun o => match o with Some ps => forallb (fun p : param => negb (String.eqb (fst p) "status") || match snd p with UINT8 => true | _ => false end) ps | None => true end in
    ok (c_request c) && ok (c_response c)).
  assert (Hs : P s c = true) by (eapply (table_sweep P); [vm_compute; reflexivity|eassumption..]).
  unfold P in Hs. apply andb_true_iff in Hs as [S1 S2].
  assert (Hf : forallb (fun p : param => negb (String.eqb (fst p) "status") || match snd p with UINT8 => true | _ => false end) ps = true)
    by (destruct Hps as [E|E]; rewrite E in *; assumption).
  rewrite forallb_forall in Hf. specialize (Hf _ Ht). cbn [fst snd] in Hf. rewrite String.eqb_refl in Hf. cbn [negb orb] in Hf.
  destruct t; try discriminate. reflexivity.
Qed.
Lemma decoded_def f r : from_unpi_frame f = Ok r -> exists cs c, definition (z_sub r) = Ok cs /\ In c cs /\ z_cmd r = c_name c /\
  select_params (z_type r) c = Ok (z_params r) /\ read_parameters (f_data f) (z_params r) = Ok (z_payload r).
Proof.
  unfold from_unpi_frame, next_cmd. destruct (definition (f_sub f)) as [cs|] eqn:Ed; [|discriminate]. cbn [bind].
  destruct (find _ cs) as [c|] eqn:Ef; [|discriminate]. cbn [bind]. destruct (select_params (f_type f) c) as [ps|] eqn:Es; [|discriminate]. cbn [bind].
  destruct (read_parameters _ ps) as [pl|] eqn:Er; [|discriminate]. cbn [bind]. intro H. injection H as <-. cbn [z_sub z_cmd z_type z_params z_payload].
  exists cs, c. apply find_some in Ef as [Hin _]. auto.
Qed.
Lemma select_either t c ps : select_params t c = Ok ps -> c_request c = Some ps \/ c_response c = Some ps.
Proof.
  unfold select_params, key. destruct (ct_eqb t SRSP); [destruct (c_response c)|destruct (c_request c)]; try discriminate; intro H; injection H as ->; auto.
Qed.
Lemma status_is_int f r v : from_unpi_frame f = Ok r -> status_of r = Some v -> exists c, v = VInt c.
Proof.
  intros Hf Hs. destruct (decoded_def f r Hf) as (cs & c & Hd & Hin & _ & Hsel & Hr). apply select_either in Hsel.
  unfold read_parameters in Hr. apply (read_params_get "status") in Hr; [|intros t Ht; eapply status_types; eassumption|discriminate].
  apply (proj1 Hr), Hs.
Qed.
Lemma status_there f r : from_unpi_frame f = Ok r -> z_type r = SRSP ->
  z_sub r = ZDO \/ z_sub r = AF /\ (z_cmd r = "dataRequest" \/ z_cmd r = "dataRequestExt") ->
  (exists c, status_of r = Some (VInt c)) \/ (z_sub r = ZDO /\ In (z_cmd r) no_status /\ status_of r = None) \/
  (exists c cs, definition ZDO = Ok cs /\ In c cs /\ c_name c = z_cmd r /\ c_type c <> SREQ).
Proof.
  intros Hf Ht Hc. destruct (decoded_def f r Hf) as (cs & c & Hd & Hin & Hn & Hsel & Hr). pose proof (select_either _ _ _ Hsel) as Hps.
  unfold read_parameters in Hr. apply (read_params_get "status") in Hr; [|intros t Hst; eapply status_types; eassumption|discriminate].
  destruct Hr as (H1 & H2 & H3). unfold select_params in Hsel. rewrite Ht in Hsel. change (ct_eqb SRSP SRSP) with true in Hsel. cbv iota in Hsel. unfold key in Hsel.
  destruct (c_response c) as [ps|] eqn:Ers; [|discriminate]. injection Hsel as Eps.
  destruct (in_dec string_dec "status" (map fst (z_params r))) as [Hs|Hs].
  - left. unfold status_of. destruct (dict_get (z_payload r) "status") as [v|] eqn:Ev; [|exfalso; apply (H2 (or_introl Hs)); reflexivity].
    destruct (H1 v eq_refl) as [z ->]. eauto.
  - pose (P := fun (s : subsystem) (c : cmd) => negb (sub_eqb s ZDO || sub_eqb s AF && (String.eqb (c_name c) "dataRequest" || String.eqb (c_name c) "dataRequestExt"))
      || match c_response c with Some ps => existsb (fun p : param => String.eqb (fst p) "status") ps | None => true end
      || sub_eqb s ZDO && (existsb (String.eqb (c_name c)) no_status || negb (ct_eqb (c_type c) SREQ))).
    assert (Hsw : P (z_sub r) c = true) by (eapply (table_sweep P); [vm_compute; reflexivity|eassumption..]).
    unfold P in Hsw. rewrite Ers in Hsw. rewrite !orb_true_iff in Hsw. destruct Hsw as [[Hsw|Hsw]|Hsw].
    + exfalso. apply negb_true_iff, orb_false_iff in Hsw as [W1 W2]. rewrite <- Hn in W2.
      destruct Hc as [Hc|[Hc [Hc'|Hc']]]; rewrite ?Hc, ?Hc' in *; discriminate.
    + exfalso. apply Hs. apply existsb_exists in Hsw as ([n t] & Hp & En). apply String.eqb_eq in En. cbn [fst] in En. subst n.
      rewrite <- Eps. apply (in_map fst) in Hp. exact Hp.
    + apply andb_true_iff in Hsw as [W1 W2]. apply sub_eqb_eq in W1. rewrite orb_true_iff in W2. right. destruct W2 as [W2|W2].
      * left. split; [exact W1|]. split; [|unfold status_of; rewrite H3 by exact Hs; reflexivity]. apply existsb_exists in W2 as (x & Hx & E). apply String.eqb_eq in E. congruence.
      * right. exists c, cs. rewrite W1 in Hd. repeat split; auto. intro C. rewrite C in W2. discriminate.
Qed.

(** ** encoding never raises a command error *)
Ltac no_cmd_error :=
  repeat match goal with
  | |- context [match ?x with _ => _ end] => destruct x; try discriminate
  end.
Lemma to_bytes_no_cmd n z c : to_bytes n z <> Err (CommandError c).
Proof. unfold to_bytes. destruct (_ && _); discriminate. Qed.
Lemma write_each_no_cmd n l c : write_each n l <> Err (CommandError c).
Proof.
  induction l as [|z l IH]; cbn [write_each]; [discriminate|]. unfold bind.
  destruct (to_bytes n z) as [a|e] eqn:E; [|intro H; injection H as ->; exact (to_bytes_no_cmd _ _ _ E)].
  destruct (write_each n l) as [b|e]; [discriminate|]. exact IH.
Qed.
Lemma write_no_cmd v n c : write v n <> Err (CommandError c).
Proof. destruct v; cbn [write]; try discriminate. apply to_bytes_no_cmd. Qed.
Lemma write_neighbors_no_cmd l c : write_neighbors l <> Err (CommandError c).
Proof.
  induction l as [|n l IH]; cbn [write_neighbors]; [discriminate|]. unfold bind.
  destruct (write_neighbor_lqi n) as [a|e] eqn:E; [destruct (write_neighbors l); [discriminate|exact IH]|].
  intro H. injection H as ->. revert E. unfold write_neighbor_lqi, bind.
  repeat match goal with
  | |- context [match ?x with Ok _ => _ | Err _ => _ end] => let F := fresh in destruct x eqn:F; [|intro E; injection E as ->; first [exact (to_bytes_no_cmd _ _ _ F)|exact (write_each_no_cmd _ _ _ F)]]
  end. discriminate.
Qed.
Lemma write_parameter_no_cmd t v c : write_parameter t v <> Err (CommandError c).
Proof.
  destruct t; cbn [write_parameter]; try discriminate; try apply write_no_cmd; destruct v as [z|l|l|l|l]; try discriminate;
    try apply write_each_no_cmd; try apply write_no_cmd; try apply write_neighbors_no_cmd; try (destruct l; discriminate).
Qed.
Lemma write_params_no_cmd ps d c : write_params ps d <> Err (CommandError c).
Proof.
  induction ps as [|[n t] ps IH]; cbn [write_params]; [discriminate|]. unfold bind, dict_getE. destruct (dict_get d n) as [v|]; [|discriminate].
  destruct (write_parameter t v) as [a|e] eqn:E; [|intro H; injection H as ->; exact (write_parameter_no_cmd _ _ _ E)].
  destruct (write_params ps d) as [b|e]; [discriminate|]. exact IH.
Qed.
Lemma frame_no_cmd o c : to_unpi_frame o <> Err (CommandError c).
Proof.
  unfold to_unpi_frame, bind. destruct (write_params (z_params o) (z_payload o)) as [b|e] eqn:E; [discriminate|].
  intro H. injection H as ->. exact (write_params_no_cmd _ _ _ E).
Qed.
Lemma to_buffer_no_cmd f c : to_buffer f <> Err (CommandError c).
Proof. unfold to_buffer, py_bytes, bind. repeat match goal with |- context [if ?x then _ else _] => destruct x end; discriminate. Qed.

(** ** small facts *)
Lemma reported_exn j c : outcome_of_exn j (CommandError c) = reported j c.
Proof. destruct j; reflexivity. Qed.
Lemma exn_status j e c : outcome_of_exn j e = OStatus c -> e = CommandError c.
Proof. unfold outcome_of_exn. destruct e; try discriminate. destruct (_ && _); [|discriminate]. congruence. Qed.
Lemma expects_in j c : expects j c <-> In c (expected_of j).
Proof.
  destruct j; cbn [expects expected_of In]; try reflexivity; (split; [intros ->; auto|intros [H|[]]; congruence]).
Qed.
Lemma unexpected_some r j c : unexpected_status r (expected_of j) = Some c <-> status_of r = Some (VInt c) /\ ~ expects j c.
Proof.
  unfold unexpected_status, status_of. destruct (dict_get (z_payload r) "status") as [[z| | | |]|]; try (split; [discriminate|intros [H _]; discriminate]).
  destruct (existsb (Z.eqb z) (expected_of j)) eqn:E.
  - split; [discriminate|]. intros [H N]. injection H as ->. exfalso. apply N, expects_in. apply existsb_exists in E as (x & Hx & Ex). apply Z.eqb_eq in Ex. congruence.
  - split.
    + intro H. injection H as ->. split; [reflexivity|]. rewrite expects_in. intro C. 
      assert (existsb (Z.eqb c) (expected_of j) = true) by (apply existsb_exists; exists c; split; [exact C|apply Z.eqb_refl]). congruence.
    + intros [H _]. injection H as ->. reflexivity.
Qed.
Lemma unexpected_none r j c : unexpected_status r (expected_of j) = None -> status_of r = Some (VInt c) -> expects j c.
Proof.
  unfold unexpected_status, status_of. intros H E. rewrite E in H. destruct (existsb (Z.eqb c) (expected_of j)) eqn:X; [|discriminate].
  apply expects_in. apply existsb_exists in X as (x & Hx & Ex). apply Z.eqb_eq in Ex. congruence.
Qed.
Lemma awaited_limit o m to : awaited o = Some (m, to) -> to = limit o.
Proof.
  unfold awaited, limit. destruct (z_type o); try discriminate.
  - intro H. injection H as _ <-. unfold sreq_timeout. cbn [existsb]. rewrite orb_false_r. destruct (_ || _); reflexivity.
  - destruct (is_reset_command o); [|discriminate]. intro H. injection H as _ <-. reflexivity.
Qed.
Lemma awaited_sreq o m to : awaited o = Some (m, to) -> z_type o = SREQ -> m = mk_matcher SRSP (z_sub o) (z_cmd o) [].
Proof. unfold awaited. intros H E. rewrite E in H. injection H as <- _. reflexivity. Qed.
Lemma is_reset o : is_reset_command o = true <-> resets o.
Proof.
  unfold is_reset_command, resets. rewrite orb_true_iff, !andb_true_iff, !String.eqb_eq, !sub_eqb_eq. tauto.
Qed.
Lemma awaited_areq o m to : awaited o = Some (m, to) -> z_type o = AREQ -> m = mk_matcher AREQ SYS "resetInd" [] /\ resets o.
Proof.
  unfold awaited. intros H E. rewrite E in H. destruct (is_reset_command o) eqn:R; [|discriminate]. injection H as <- _. split; [reflexivity|]. apply is_reset, R.
Qed.
Lemma matched m r : waiter_match m r = Ok true -> z_type r = m_type m /\ z_sub r = m_sub m /\ z_cmd r = m_cmd m.
Proof.
  unfold waiter_match. destruct (ct_eqb (m_type m) (z_type r)) eqn:E1; [|discriminate]. destruct (sub_eqb (m_sub m) (z_sub r)) eqn:E2; [|discriminate].
  destruct (String.eqb (m_cmd m) (z_cmd r)) eqn:E3; [|discriminate]. intros _. apply ct_eqb_eq in E1. apply sub_eqb_eq in E2. apply String.eqb_eq in E3. auto.
Qed.
Lemma ended_reason cap s t r : 0 <= cap -> reachable cap s -> In (OEnded t r) (s_log s) ->
  exists k, get s t = Some k /\ t_phase k = PDone r /\ Reason (t_job k) t (s_log s) r.
Proof.
  intros Hcap Hr Hin. pose proof (reachable_inv cap s Hcap Hr) as HI. destruct (life_of s t (I_life _ _ HI)) as (_ & _ & L).
  destruct (L r Hin) as (k & G & Hp). exists k. split; [exact G|]. split; [exact Hp|].
  pose proof (I_ended _ _ HI t k G) as He. unfold Ended1 in He. rewrite Hp in He. exact He.
Qed.
Lemma get_job cap s t k r : 0 <= cap -> reachable cap s -> get s t = Some k -> In (OEnded t r) (s_log s) -> Reason (t_job k) t (s_log s) r.
Proof.
  intros Hcap Hr G Hin. destruct (ended_reason cap s t r Hcap Hr Hin) as (k' & G' & _ & H). congruence.
Qed.
Lemma outstanding_in t at_ bs lb l x : outstanding t at_ bs lb l -> In x lb -> In x l.
Proof. intros (la & lc & -> & _) H. apply in_or_app. right. right. apply in_or_app. left. exact H. Qed.

(** ** C33 *)
Lemma own_answer cap s t k o r : 0 <= cap -> reachable cap s -> get s t = Some k -> build (t_job k) = Ok o -> z_type o = SREQ ->
  In (OEnded t (ORet (Some r))) (s_log s) ->
  response_to o r /\ (forall v, status_of r = Some v -> exists c, v = VInt c /\ expects (t_job k) c) /\
  exists at_ bs lb, frame_bytes o bs /\ outstanding t at_ bs lb (s_log s) /\ In (OReceived r) lb.
Proof.
  intros Hcap Hr G Hb Ht Hin. pose proof (get_job cap s t k _ Hcap Hr G Hin) as HR.
  pose proof (I_received _ _ (reachable_inv cap s Hcap Hr)) as Hrec.
  remember (ORet (Some r)) as out eqn:Eout. destruct HR as [|e He|o' e Ho He|o' e Ho He|x Ha|o' m to at_ bs lb r' c Ho Hs Haw Hfb Hout Hi Hm Hu| | |m to r' Hj Hi Hm|]; try discriminate.
  - unfold outcome_of_exn in Eout. destruct e; try discriminate. destruct (_ && _); discriminate.
  - assert (x = Some r) by (destruct (t_job k); cbn [outcome_of_result] in Eout; congruence). subst x.
    inversion Ha as [|o' m to at_ bs lb r' Ho Haw Hfb Hout Hi Hm Hu]; subst. rewrite Hb in Ho. injection Ho as <-.
    rewrite (awaited_sreq _ _ _ Haw Ht) in Hm. apply matched in Hm. cbn [m_type m_sub m_cmd] in Hm. split; [exact Hm|]. split.
    + intros v Hv. destruct (Hrec r (outstanding_in _ _ _ _ _ _ Hout Hi)) as [f Hf]. destruct (status_is_int f r v Hf Hv) as [c ->].
      exists c. split; [reflexivity|]. eapply unexpected_none; [apply Hu, Ht|exact Hv].
    + eauto 8.
  - rewrite reported_exn in Eout. destruct (t_job k); discriminate.
  - rewrite Hj in Hb. discriminate.
Qed.

(** ** C45 *)
Lemma sends_build j o : sends j -> build j = Ok o ->
  z_sub o = ZDO /\ (exists cs c, definition ZDO = Ok cs /\ In c cs /\ c_name c = z_cmd o /\ c_type c = z_type o) \/ 
  z_sub o = AF /\ (z_cmd o = "dataRequest" \/ z_cmd o = "dataRequestExt").
Proof.
  assert (H : forall nwk profile cluster src_ep dst_ep sequence data radius mode,
    in_coroutine (from_cluster nwk profile cluster src_ep dst_ep sequence data radius mode) = Ok o ->
    z_sub o = ZDO /\ (exists cs c, definition ZDO = Ok cs /\ In c cs /\ c_name c = z_cmd o /\ c_type c = z_type o) \/
    z_sub o = AF /\ (z_cmd o = "dataRequest" \/ z_cmd o = "dataRequestExt")).
  { intros nwk profile cluster src_ep dst_ep sequence data radius mode Hb.
    assert (Hb' : from_cluster nwk profile cluster src_ep dst_ep sequence data radius mode = Ok o)
      by (unfold in_coroutine in Hb; destruct (from_cluster _ _ _ _ _ _ _ _ _) as [|[]]; congruence). clear Hb.
    unfold from_cluster in Hb'. destruct (Z.eqb_spec profile ZHA_PROFILE) as [Ep|Ep].
    - right. destruct mode; cbn [bind definition] in Hb';
      match type of Hb' with context [next_cmd ?p ?l] => let c := eval vm_compute in (next_cmd p l) in change (next_cmd p l) with c in Hb' end;
      cbn [bind] in Hb'; unfold bind in Hb';
      destruct (select_params _ _) as [ps|] in Hb'; try discriminate;
      match type of Hb' with context [match ?x with Ok _ => _ | Err _ => _ end] => destruct x end; try discriminate;
      injection Hb' as <-; cbn [z_sub z_cmd c_name]; auto.
    - left. destruct (definition ZDO) as [cs|] eqn:Ed; [|discriminate]. cbn [bind] in Hb'. unfold next_cmd in Hb'.
      destruct (find _ cs) as [c|] eqn:Ef; [|discriminate]. cbn [bind] in Hb'. destruct (select_params (c_type c) c) as [ps|]; [|discriminate].
      unfold bind in Hb'.
      match type of Hb' with match ?x with Ok _ => _ | Err _ => _ end = _ => destruct x; [|discriminate] end.
      injection Hb' as <-. cbn [z_sub z_cmd z_type]. split; [reflexivity|]. exists cs, c. apply find_some in Ef as [Hin _]. auto. }
  intros Hs Hb. destruct j; try contradiction; cbn [build] in Hb; unfold build_request, build_mrequest, build_broadcast in Hb; eapply H, Hb.
Qed.
Lemma sent_result cap s t k o c : 0 <= cap -> reachable cap s -> get s t = Some k -> sends (t_job k) -> build (t_job k) = Ok o -> z_type o = SREQ ->
  In (OEnded t (OStatus c)) (s_log s) ->
  exists r at_ bs lb, frame_bytes o bs /\ outstanding t at_ bs lb (s_log s) /\ In (OReceived r) lb /\ response_to o r /\
    (status_of r = Some (VInt c) \/ c = 0 /\ z_sub r = ZDO /\ In (z_cmd r) no_status /\ status_of r = None).
Proof.
  intros Hcap Hr G Hsd Hb Ht Hin. pose proof (get_job cap s t k _ Hcap Hr G Hin) as HR.
  pose proof (I_received _ _ (reachable_inv cap s Hcap Hr)) as Hrec.
  remember (OStatus c) as out eqn:Eout. destruct HR as [|e He|o' e Ho He|o' e Ho He|x Ha|o' m to at_ bs lb r' c' Ho Hs Haw Hfb Hout Hi Hm Hu| | |m to r' Hj Hi Hm|]; try discriminate.
  - exfalso. apply exn_status in Eout as ->. destruct He as [He|[(_ & [He|(f & _ & He)])|(_ & _ & He)]]; try discriminate.
    + exact (frame_no_cmd _ _ He).
    + exact (to_buffer_no_cmd _ _ He).
  - assert (c = 0) by (destruct (t_job k); cbn [outcome_of_result sends] in *; try contradiction; congruence). subst c.
    inversion Ha as [o' at_ bs Ho Hty Haw Hfb Hout|o' m to at_ bs lb r' Ho Haw Hfb Hout Hi Hm Hu]; subst; rewrite Hb in Ho; injection Ho as <-; [congruence|].
    rewrite (awaited_sreq _ _ _ Haw Ht) in Hm. apply matched in Hm. cbn [m_type m_sub m_cmd] in Hm. 
    exists r', at_, bs, lb. split; [exact Hfb|]. split; [exact Hout|]. split; [exact Hi|]. split; [exact Hm|]. destruct Hm as (M1 & M2 & M3).
    destruct (Hrec r' (outstanding_in _ _ _ _ _ _ Hout Hi)) as [f Hf].
    destruct (status_there f r' Hf M1) as [(c & Hc)|[(Z1 & Z2 & Z3)|(c & cs & D1 & D2 & D3 & D4)]].
    + rewrite M2, M3. destruct (sends_build _ _ Hsd Hb) as [[H _]|H]; auto.
    + left. rewrite Hc. pose proof (unexpected_none _ _ _ (Hu Ht) Hc) as He. do 2 f_equal. destruct (t_job k); cbn [sends expects] in *; tauto.
    + right. auto.
    + exfalso. destruct (sends_build _ _ Hsd Hb) as [[H (cs' & c' & E1 & E2 & E3 & E4)]|[H1 H2]].
      * rewrite D1 in E1. injection E1 as <-. pose proof (find_by_name _ _ _ D1 D2) as F1. pose proof (find_by_name _ _ _ D1 E2) as F2.
        rewrite E3, <- M3, <- D3 in F2. rewrite F1 in F2. injection F2 as <-. congruence.
      * pose proof (find_by_name _ _ _ D1 D2) as F1. rewrite D3, M3 in F1. injection D1 as <-.
        assert (F2 : forall n, n = "dataRequest" \/ n = "dataRequestExt" -> find (fun x => String.eqb (c_name x) n) def_ZDO = None) by (intros n [->| ->]; vm_compute; reflexivity).
        rewrite F2 in F1 by exact H2. discriminate.
  - rewrite Hb in Ho. injection Ho as <-. rewrite reported_exn in Eout.
    assert (c' = c) by (destruct (t_job k); cbn [reported sends] in *; try contradiction; congruence). subst c'.
    rewrite (awaited_sreq _ _ _ Haw Ht) in Hm. apply matched in Hm. cbn [m_type m_sub m_cmd] in Hm.
    exists r', at_, bs, lb. split; [exact Hfb|]. split; [exact Hout|]. split; [exact Hi|]. split; [exact Hm|]. left. apply unexpected_some in Hu. tauto.
Qed.
