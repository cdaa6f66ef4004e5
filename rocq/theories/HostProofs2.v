(** * HostProofs2: the frames of the start-up program *)
From Coq Require Import ZifyBool ZifyNat.
From Verif Require Import Base Types Uart Buffalo CmdTable Zpi Api App Machine SpecWire SpecCodec SpecApi SpecMachine Nv StartZnp SpecStart Host SpecHost
  UartProofs CodecProofs2 ApiProofs AppProofs MachineBase MachineInv MachineInv2 MachineInv3 MachineInv4 MachineInv5 DispatchProofs MachineProofs MachineProofs2 MachineProofs3 MachineProofs4 MachineProofs5
  MachineProofs11 StartProofs StartProofs2 StartProofs3 StartProofs4 StartProofs5 StartProofs6 StartSend StartLink HostProofs.

(** ** writes expect status 0 *)
Definition expects_zero (a : act) : Prop :=
  match a with ARequest _ cmd _ x _ => existsb (String.eqb cmd) ["osalNvWrite"; "writeConfiguration"] = true -> x = [0] | _ => True end.
Lemma only_zero sub cmd d x : (existsb (String.eqb cmd) ["osalNvWrite"; "writeConfiguration"] = true -> x = [0]) -> only expects_zero (request sub cmd d x).
Proof. intro H. apply only_request. intros r. exact H. Qed.
Ltac ez := first
  [ apply only_ret | apply only_raise | apply only_field | apply only_listen; exact I | apply only_await; intro; exact I
  | apply only_spawn; exact I | apply only_zero; intro; first [reflexivity|discriminate] ].
Lemma only_zero_validate item sub cmd x : (existsb (String.eqb cmd) ["osalNvWrite"; "writeConfiguration"] = true -> x = [0]) -> only expects_zero (validate_item item sub cmd x).
Proof. intro H. unfold validate_item. apply only_seq; [apply only_zero, H|intro]. apply only_seq; [apply only_field|intro]. destruct (value_eqb _ _); [apply only_ret|apply only_raise]. Qed.
Ltac ezv := apply only_zero_validate; intro; discriminate.
Lemma start_expects_zero v o g b : only expects_zero (start_znp (version_of v) o g b).
Proof.
  rewrite start_eq.
  next idtac.
  { unfold has_configured. apply only_attempt.
    - next ezv. ez.
    - intros e q E. destruct e; try discriminate E; injection E as <-; ez. }
  next idtac.
  { unfold configure. destruct (b && negb a); [ez|]. next idtac.
    - unfold needs_init. apply only_attempt.
      + next ezv. next ezv. next ezv. next ltac:(destruct (version_of v =? zStack3x0); ezv). next idtac; [|ez].
        unfold validate_pan. apply only_attempt.
        * next ezv. ezv.
        * intros e q E. destruct (is_assertion e); [|discriminate E].
          match type of E with Some ?x = Some ?y => assert (Eq : y = x) by congruence; subst y end.
          destruct (stack3 (version_of v)); [|ez]. next ez. next ez. destruct (value_eqb _ _); ez.
      + intros e q E. destruct (is_assertion e); [injection E as <-; ez|discriminate E].
    - destruct a0; [|ez]. next idtac; [|ez]. unfold initialise, nv_write, soft_reset.
      next ez. next ez. next ez. next ez. next ez. next ez. next ez. next ez. next ez.
      next idtac.
      + rewrite stack3_version. destruct v.
        * next ez. ez.
        * next ez. next ez. next ez. next ez. next ez. next idtac; [|ez].
          unfold await_started. apply only_attempt; [ez|]. intros e q E. destruct e; try discriminate E; injection E as <-; ez.
        * next ez. next ez. next ez. next ez. next ez. next idtac; [|ez].
          unfold await_started. apply only_attempt; [ez|]. intros e q E. destruct e; try discriminate E; injection E as <-; ez.
      + next ez. next ez. ez. }
  unfold rest.
  next idtac. { unfold boot. next ez. next ez. destruct (value_eqb _ _); [ez|]. next ez. next ez. next ez. ez. }
  next idtac. { unfold register_endpoints. next ez. next ez. next ez. apply register_loop_only. intros e r _ C. discriminate C. }
  next idtac. { unfold add_to_group. next ez. next ez. destruct (value_eqb _ _); [|ez]. next ez. ez. }
  next idtac; [|ez]. destruct a0; try ez. next ez. ez.
Qed.

(** ** frames *)
Lemma command_frame sub cmd d o bs : can_send sub cmd d -> from_command sub cmd d = Ok o -> frame_bytes o bs ->
  exists cs c ps data, definition sub = Ok cs /\ In c cs /\ c_name c = cmd /\ select_params (c_type c) c = Ok ps /\ write_params ps d = Ok data /\
    z_type o = c_type c /\ bytes_ok data /\ bs = wire (type_code (c_type c)) (sub_code sub) (c_ID c) data.
Proof.
  intros (o' & f' & H1 & _ & H2 & Hs & _) H (f & F1 & F2). rewrite H in H1. injection H1 as <-. rewrite F1 in H2. injection H2 as <-.
  rewrite (to_buffer_wire f Hs) in F2. injection F2 as <-.
  unfold from_command in H. destruct (definition sub) as [cs|] eqn:Ed; [|discriminate]. cbn [bind] in H.
  unfold next_cmd in H. destruct (find _ cs) as [c|] eqn:Ef; [|discriminate]. cbn [bind] in H. apply find_some in Ef as [Hc Hn]. apply String.eqb_eq in Hn.
  destruct (select_params (c_type c) c) as [ps|] eqn:Es; [|discriminate]. cbn [bind] in H. injection H as <-.
  unfold to_unpi_frame in F1. cbn [z_params z_payload z_type z_sub z_id] in *. destruct (write_params ps d) as [data|] eqn:Ew; [|discriminate]. cbn [bind] in F1. injection F1 as <-.
  exists cs, c, ps, data. destruct Hs as (_ & Hb & _). cbn [f_data] in Hb. repeat split; assumption.
Qed.
Lemma wire_inj a s i d a' s' i' d' : 0 <= s < 32 -> 0 <= s' < 32 -> wire a s i d = wire a' s' i' d' -> a = a' /\ s = s' /\ i = i' /\ d = d'.
Proof.
  intros H H' E. assert (E1 : 32 * a + s = 32 * a' + s') by exact (f_equal (fun l => nth 2 l 0) E).
  assert (E2 : i = i') by exact (f_equal (fun l => nth 3 l 0) E). apply (f_equal (skipn 4)) in E. unfold wire in E. cbn [app skipn] in E.
  apply app_inj_tail in E as [E _]. assert (a = a') by lia. repeat split; try assumption; lia.
Qed.
Lemma sub_code_small s : 0 <= sub_code s < 32.
Proof. destruct s; cbn; lia. Qed.

Lemma nv_row sub cs c : definition sub = Ok cs -> In c cs -> type_code (c_type c) = 1 -> sub_code sub = 1 -> c_ID c = 9 ->
  sub = SYS /\ c = mk_cmd "osalNvWrite" 9 SREQ (Some [("id", UINT16); ("offset", UINT8); ("len", UINT8); ("value", BUFFER)]) (Some [("status", UINT8)]).
Proof.
  intros Hd Hc Ht Hs Hi. assert (sub = SYS) as -> by (destruct sub; cbn in Hs; congruence). split; [reflexivity|].
  injection Hd as <-. cbn [In def_SYS] in Hc. unfold def_SYS in Hc. cbn [In] in Hc.
  repeat (destruct Hc as [<-|Hc]; [first [reflexivity|exfalso; cbn in Hi; lia]|]). contradiction.
Qed.
Lemma sapi_row sub cs c : definition sub = Ok cs -> In c cs -> type_code (c_type c) = 1 -> sub_code sub = 6 -> c_ID c = 5 ->
  sub = SAPI /\ c = mk_cmd "writeConfiguration" 5 SREQ (Some [("configid", UINT8); ("len", UINT8); ("value", BUFFER)]) (Some [("status", UINT8)]).
Proof.
  intros Hd Hc Ht Hs Hi. assert (sub = SAPI) as -> by (destruct sub; cbn in Hs; congruence). split; [reflexivity|].
  injection Hd as <-. unfold def_SAPI in Hc. cbn [In] in Hc.
  repeat (destruct Hc as [<-|Hc]; [first [reflexivity|exfalso; cbn in Hi; lia]|]). contradiction.
Qed.

Lemma stored_range v o i b : In (i, b) (settings v o ++ [(marker v, set_mark)]) -> 0 <= i < 65536.
Proof.
  intro H. unfold settings in H. destruct v; cbn [app In marker] in H;
    repeat (destruct H as [H|H]; [injection H as <- _; lia|]); contradiction.
Qed.
Lemma write1 z a : write_parameter UINT8 (VInt z) = Ok a -> a = [z].
Proof.
  cbn [write_parameter write]. unfold to_bytes. change (256 ^ Z.of_nat 1) with 256. destruct ((0 <=? z) && (z <? 256)) eqn:E; [|discriminate].
  intro H. injection H as <-. cbn [le_bytes]. rewrite Z.mod_small by lia. reflexivity.
Qed.
Lemma write2 z a : write_parameter UINT16 (VInt z) = Ok a -> a = le2 z.
Proof.
  cbn [write_parameter write]. unfold to_bytes. change (256 ^ Z.of_nat 2) with 65536. destruct ((0 <=? z) && (z <? 65536)) eqn:E; [|discriminate].
  intro H. injection H as <-. cbn [le_bytes]. unfold le2. rewrite (Z.mod_small (z / 256)) by (split; [apply Z.div_pos; lia|apply Z.div_lt_upper_bound; lia]). reflexivity.
Qed.
Lemma wp_inv n t ps d data v : write_params ((n, t) :: ps) d = Ok data -> dict_get d n = Some v ->
  exists a r, write_parameter t v = Ok a /\ write_params ps d = Ok r /\ data = a ++ r.
Proof.
  intros H G. cbn [write_params] in H. unfold dict_getE in H. rewrite G in H. cbn [bind] in H. destruct (write_parameter t v) as [a|]; [|discriminate]. cbn [bind] in H.
  destruct (write_params ps d) as [r|]; [|discriminate]. cbn [bind] in H. injection H as <-. eauto.
Qed.
Lemma int_of_get d k z : int_of d k = Some z -> dict_get d k = Some (VInt z).
Proof. unfold int_of. destruct (dict_get d k) as [[]|]; congruence. Qed.
Lemma bytes_of_get d k z : bytes_of d k = Some z -> dict_get d k = Some (VBytes z).
Proof. unfold bytes_of. destruct (dict_get d k) as [[]|]; congruence. Qed.

Lemma nv_frame v o d z bs i b : item_well_formed v o SYS "osalNvWrite" d -> can_send SYS "osalNvWrite" d -> from_command SYS "osalNvWrite" d = Ok z ->
  frame_bytes z bs -> storage_of SYS "osalNvWrite" d = Writes i b -> bs = wire 1 1 9 (le2 i ++ [0; Z.of_nat (length b)] ++ b).
Proof.
  intros W C F B S. destruct (command_frame _ _ _ _ _ C F B) as (cs & c & ps & data & Hd & Hc & Hn & Hsel & Hw & _ & _ & ->).
  assert (Hr : c = mk_cmd "osalNvWrite" 9 SREQ (Some [("id", UINT16); ("offset", UINT8); ("len", UINT8); ("value", BUFFER)]) (Some [("status", UINT8)])).
  { injection Hd as <-. unfold def_SYS in Hc. cbn [In] in Hc. repeat (destruct Hc as [<-|Hc]; [first [reflexivity|discriminate Hn]|]). contradiction. }
  subst c. cbn [c_type c_ID type_code sub_code]. injection Hsel as <-. specialize (W eq_refl). rewrite S in W. destruct W as (_ & (V & L & _) & O).
  assert (I : dict_get d "id" = Some (VInt i)).
  { cbn [storage_of String.eqb Ascii.eqb Bool.eqb] in S. destruct (int_of d "id") as [i'|] eqn:Ei; [|discriminate]. destruct (bytes_of d "value"); [|discriminate].
    injection S as -> _. apply int_of_get, Ei. }
  destruct (wp_inv _ _ _ _ _ _ Hw I) as (a1 & r1 & A1 & Hw1 & ->). apply write2 in A1 as ->.
  destruct (wp_inv _ _ _ _ _ _ Hw1 O) as (a2 & r2 & A2 & Hw2 & ->). apply write1 in A2 as ->.
  destruct (wp_inv _ _ _ _ _ _ Hw2 L) as (a3 & r3 & A3 & Hw3 & ->). apply write1 in A3 as ->.
  destruct (wp_inv _ _ _ _ _ _ Hw3 V) as (a4 & r4 & A4 & Hw4 & ->). injection A4 as <-. injection Hw4 as <-. rewrite app_nil_r. reflexivity.
Qed.
Lemma sapi_frame v o d z bs i b : item_well_formed v o SAPI "writeConfiguration" d -> can_send SAPI "writeConfiguration" d -> from_command SAPI "writeConfiguration" d = Ok z ->
  frame_bytes z bs -> storage_of SAPI "writeConfiguration" d = Writes i b -> bs = wire 1 6 5 ([i; Z.of_nat (length b)] ++ b).
Proof.
  intros W C F B S. destruct (command_frame _ _ _ _ _ C F B) as (cs & c & ps & data & Hd & Hc & Hn & Hsel & Hw & _ & _ & ->).
  assert (Hr : c = mk_cmd "writeConfiguration" 5 SREQ (Some [("configid", UINT8); ("len", UINT8); ("value", BUFFER)]) (Some [("status", UINT8)])).
  { injection Hd as <-. unfold def_SAPI in Hc. cbn [In] in Hc. repeat (destruct Hc as [<-|Hc]; [first [reflexivity|discriminate Hn]|]). contradiction. }
  subst c. cbn [c_type c_ID type_code sub_code]. injection Hsel as <-. specialize (W eq_refl). rewrite S in W. destruct W as (_ & (V & L & _) & O).
  assert (I : dict_get d "configid" = Some (VInt i)).
  { cbn [storage_of String.eqb Ascii.eqb Bool.eqb] in S. destruct (int_of d "configid") as [i'|] eqn:Ei; [|discriminate]. destruct (bytes_of d "value"); [|discriminate].
    injection S as -> _. apply int_of_get, Ei. }
  destruct (wp_inv _ _ _ _ _ _ Hw I) as (a1 & r1 & A1 & Hw1 & ->). apply write1 in A1 as ->.
  destruct (wp_inv _ _ _ _ _ _ Hw1 L) as (a3 & r3 & A3 & Hw3 & ->). apply write1 in A3 as ->.
  destruct (wp_inv _ _ _ _ _ _ Hw3 V) as (a4 & r4 & A4 & Hw4 & ->). injection A4 as <-. injection Hw4 as <-. rewrite app_nil_r. reflexivity.
Qed.
Lemma storage_writes sub cmd d i b : storage_of sub cmd d = Writes i b -> sub = SYS /\ cmd = "osalNvWrite" \/ sub = SAPI /\ cmd = "writeConfiguration".
Proof.
  unfold storage_of. destruct sub; try discriminate.
  - destruct (String.eqb cmd "osalNvRead"); [destruct (int_of d "id"); discriminate|]. destruct (String.eqb cmd "osalNvWrite") eqn:E; [apply String.eqb_eq in E; auto|].
    destruct (String.eqb cmd "osalNvItemInit"); [destruct (int_of d "id"), (bytes_of d "initvalue"); discriminate|]. destruct (String.eqb cmd "resetReq"); discriminate.
  - destruct (String.eqb cmd "readConfiguration"); [destruct (int_of d "configid"); discriminate|].
    destruct (String.eqb cmd "writeConfiguration") eqn:E; [apply String.eqb_eq in E; auto|discriminate].
Qed.
Lemma act_frame v o sub cmd d z bs i b : item_well_formed v o sub cmd d -> can_send sub cmd d -> from_command sub cmd d = Ok z ->
  frame_bytes z bs -> storage_of sub cmd d = Writes i b -> In bs (item_frames i b).
Proof.
  intros W C F B S. destruct (storage_writes _ _ _ _ _ S) as [[-> ->]|[-> ->]]; unfold item_frames; [left|right; left]; symmetry.
  - eapply nv_frame; eassumption.
  - eapply sapi_frame; eassumption.
Qed.
Lemma le2_inj a b : 0 <= a < 65536 -> 0 <= b < 65536 -> le2 a = le2 b -> a = b.
Proof. intros Ha Hb E. unfold le2 in E. injection E as E1 E2. pose proof (Z.div_mod a 256). pose proof (Z.div_mod b 256). lia. Qed.
Lemma frame_act v o sub cmd d z bs i b : item_well_formed v o sub cmd d -> can_send sub cmd d -> from_command sub cmd d = Ok z ->
  frame_bytes z bs -> 0 <= i < 65536 -> In bs (item_frames i b) -> storage_of sub cmd d = Writes i b.
Proof.
  intros W C F B Hi [E|[E|[]]]; destruct (command_frame _ _ _ _ _ C F B) as (cs & c & ps & data & Hd & Hc & Hn & Hsel & Hw & _ & _ & Eb); rewrite <- E in Eb.
  - apply wire_inj in Eb as (E1 & E2 & E3 & _); [|lia|apply sub_code_small]. destruct (nv_row sub cs c Hd Hc (eq_sym E1) (eq_sym E2) (eq_sym E3)) as [-> ->]. cbn [c_name] in Hn. subst cmd.
    pose proof (W eq_refl) as W'. destruct (storage_of SYS "osalNvWrite" d) as [i'|i' b'|i' b'| |] eqn:S.
    + cbn [storage_of String.eqb Ascii.eqb Bool.eqb] in S. destruct (int_of d "id"), (bytes_of d "value"); discriminate S.
    + pose proof (nv_frame _ _ _ _ _ _ _ W C F B S) as Eb. rewrite <- E in Eb. apply wire_inj in Eb as (_ & _ & _ & Eb); [|lia..].
      destruct W' as (W' & _). apply stored_range in W'. assert (E4 : firstn 2 (le2 i ++ [0; Z.of_nat (length b)] ++ b) = firstn 2 (le2 i' ++ [0; Z.of_nat (length b')] ++ b')) by congruence.
      cbn [firstn app le2] in E4. apply (le2_inj i i' Hi W') in E4. subst i'. apply app_inv_head in Eb. apply (f_equal (skipn 2)) in Eb. cbn [app skipn] in Eb. congruence.
    + cbn [storage_of String.eqb Ascii.eqb Bool.eqb] in S. destruct (int_of d "id"), (bytes_of d "value"); discriminate S.
    + contradiction.
    + contradiction.
  - apply wire_inj in Eb as (E1 & E2 & E3 & _); [|lia|apply sub_code_small]. destruct (sapi_row sub cs c Hd Hc (eq_sym E1) (eq_sym E2) (eq_sym E3)) as [-> ->]. cbn [c_name] in Hn. subst cmd.
    pose proof (W eq_refl) as W'. destruct (storage_of SAPI "writeConfiguration" d) as [i'|i' b'|i' b'| |] eqn:S.
    + cbn [storage_of String.eqb Ascii.eqb Bool.eqb] in S. destruct (int_of d "configid"), (bytes_of d "value"); discriminate S.
    + pose proof (sapi_frame _ _ _ _ _ _ _ W C F B S) as Eb. rewrite <- E in Eb. apply wire_inj in Eb as (_ & _ & _ & Eb); [|lia..].
      cbn [app] in Eb. injection Eb as -> _ ->. reflexivity.
    + cbn [storage_of String.eqb Ascii.eqb Bool.eqb] in S. destruct (int_of d "configid"), (bytes_of d "value"); discriminate S.
    + contradiction.
    + contradiction.
Qed.
(** a frame that changes the stick is not that of a harmless command *)
Lemma harmless_frame v o sub cmd d z bs ct sc id data : item_well_formed v o sub cmd d -> can_send sub cmd d -> from_command sub cmd d = Ok z ->
  frame_bytes z bs -> match storage_of sub cmd d with Reads _ | NoStorage => True | _ => False end ->
  0 <= sc < 32 -> bs = wire ct sc id data -> ~ In (ct, sc, id) changing.
Proof.
  intros W C F B Hs Hsc E K. destruct (command_frame _ _ _ _ _ C F B) as (cs & c & ps & data' & Hd & Hc & Hn & _ & _ & _ & _ & Eb). rewrite Eb in E.
  apply wire_inj in E as (E1 & E2 & E3 & _); [|apply sub_code_small|exact Hsc]. subst ct sc id cmd. clear Eb B F C.
  pose (P := fun (s : subsystem) (c : cmd) => negb (existsb (fun '(a, b, i) => (a =? type_code (c_type c)) && (b =? sub_code s) && (i =? c_ID c)) changing) ||
    existsb (String.eqb (c_name c)) ["osalNvItemInit"; "osalNvWrite"] && sub_eqb s SYS || String.eqb (c_name c) "writeConfiguration" && sub_eqb s SAPI ||
    String.eqb (c_name c) "resetReq" && sub_eqb s SYS).
  assert (H : P sub c = true) by (eapply (table_sweep P); [vm_compute; reflexivity|eassumption..]).
  unfold P in H. rewrite !orb_true_iff, !andb_true_iff in H. destruct H as [[[H|[H1 H2]]|[H1 H2]]|[H1 H2]].
  - apply negb_true_iff in H. rewrite <- not_true_iff_false in H. apply H. apply existsb_exists. eexists. split; [exact K|]. cbn beta iota. rewrite !Z.eqb_refl. reflexivity.
  - apply sub_eqb_eq in H2. subst sub. cbn [existsb] in H1. rewrite !orb_true_iff in H1. destruct H1 as [H1|[H1|H1]]; [..|discriminate]; apply String.eqb_eq in H1; rewrite H1 in *.
    + specialize (W eq_refl). cbn [storage_of String.eqb Ascii.eqb Bool.eqb] in W, Hs. destruct (int_of d "id"), (bytes_of d "initvalue"); contradiction.
    + specialize (W eq_refl). cbn [storage_of String.eqb Ascii.eqb Bool.eqb] in W, Hs. destruct (int_of d "id"), (bytes_of d "value"); contradiction.
  - apply sub_eqb_eq in H2. subst sub. apply String.eqb_eq in H1. rewrite H1 in *. specialize (W eq_refl). cbn [storage_of String.eqb Ascii.eqb Bool.eqb] in W, Hs.
    destruct (int_of d "configid"), (bytes_of d "value"); contradiction.
  - apply sub_eqb_eq in H2. subst sub. apply String.eqb_eq in H1. rewrite H1 in *. cbn [storage_of String.eqb Ascii.eqb Bool.eqb] in Hs. contradiction.
Qed.

(** ** the marker comes last on the link *)
Lemma runs_possible {A} (p : prog A) tr f sub cmd d x r : runs p tr f -> In (ARequest sub cmd d x (Some r)) tr -> answer_possible x r.
Proof.
  intro H. induction H; intro K; try contradiction.
  - destruct K as [K|[]]. discriminate K.
  - destruct K as [K|K]; [injection K as <- <- <- <- <-; assumption|auto].
  - destruct K as [K|K]; [discriminate K|auto].
  - destruct K as [K|K]; [discriminate K|auto].
  - destruct K as [K|K]; [discriminate K|auto].
Qed.
Lemma stored_status f m : from_unpi_frame f = Ok m -> z_type m = SRSP ->
  z_sub m = SYS /\ z_cmd m = "osalNvWrite" \/ z_sub m = SAPI /\ z_cmd m = "writeConfiguration" -> exists c, status_of m = Some (VInt c).
Proof.
  intros Hf Ht Hc. destruct (decoded_def f m Hf) as (cs & c & Hd & Hin & Hn & Hsel & Hr). pose proof (select_either _ _ _ Hsel) as Hps.
  unfold read_parameters in Hr. apply (read_params_get "status") in Hr; [|intros t Hst; eapply status_types; eassumption|discriminate].
  destruct Hr as (H1 & H2 & H3).
  pose (P := fun (s : subsystem) (c : cmd) => negb (sub_eqb s SYS && String.eqb (c_name c) "osalNvWrite" || sub_eqb s SAPI && String.eqb (c_name c) "writeConfiguration")
      || match c_response c with Some ps => existsb (fun p : param => String.eqb (fst p) "status") ps | None => false end).
  assert (Hsw : P (z_sub m) c = true) by (eapply (table_sweep P); [vm_compute; reflexivity|eassumption..]).
  unfold select_params in Hsel. rewrite Ht in Hsel. change (ct_eqb SRSP SRSP) with true in Hsel. cbv iota in Hsel. unfold key in Hsel.
  destruct (c_response c) as [ps|] eqn:Ers; [|discriminate]. injection Hsel as Eps. unfold P in Hsw. rewrite Ers in Hsw. rewrite <- Hn in Hsw.
  apply orb_true_iff in Hsw as [W|W]; [exfalso; destruct Hc as [[E1 E2]|[E1 E2]]; rewrite E1, E2 in W; discriminate W|].
  unfold status_of. destruct (dict_get (z_payload m) "status") as [x|] eqn:Ev.
  - destruct (H1 x eq_refl) as [z ->]. eauto.
  - exfalso. apply existsb_exists in W as ([n t] & Hp & En). apply String.eqb_eq in En. cbn [fst] in En. subst n.
    assert (Hs : In "status" (map fst (z_params m))) by (rewrite <- Eps; apply (in_map fst) in Hp; exact Hp). apply (H2 (or_introl Hs)). reflexivity.
Qed.

Lemma marker_range v : 0 <= marker v < 65536.
Proof. destruct v; cbn; lia. Qed.
(** a start of the stick, by what it did ([D]) and the history of the link ([L]) *)
Section Start.
  Variables (v : firmware) (o : options) (g : Z) (b : bool) (D : list (Z * act)) (L : list obs) (f : fin start_result).
  Hypotheses (Hwf : wf_options o) (Hg : 0 <= g < 65536).
  Hypothesis HR : runs (start_znp (version_of v) o g b) (map snd D) f.
  Hypothesis Hwrote : forall t y at_ bs, In (t, y) D -> In (OWritten t at_ bs) L ->
    match y with
    | ARequest sub cmd d _ _ | ASpawn sub cmd d => exists o, from_command sub cmd d = Ok o /\ frame_bytes o bs
    | _ => False
    end.
  Hypothesis Hord : forall a t1 sub cmd d x m b t2 y2 la at_ bs lb, D = a ++ (t1, ARequest sub cmd d x (Some (Ok m))) :: b -> In (t2, y2) b -> starts y2 ->
    L = la ++ OWritten t2 at_ bs :: lb -> exchanged t1 sub cmd d m la.
  Hypothesis Hrec : forall m, In (OReceived m) L -> exists f, from_unpi_frame f = Ok m.
  Lemma started_act t at_ bs : In t (map fst D) -> In (OWritten t at_ bs) (L) ->
    exists y sub cmd d z, In (t, y) D /\ In y (map snd D) /\ starts y /\ (y = ASpawn sub cmd d \/ exists x r, y = ARequest sub cmd d x r) /\
      item_well_formed v o sub cmd d /\ can_send sub cmd d /\ from_command sub cmd d = Ok z /\ frame_bytes z bs.
  Proof.
    intros Ht Hw. apply in_map_iff in Ht as ([t' y] & E & Hi). cbn [fst] in E. subst t'. pose proof (Hwrote _ _ _ _ Hi Hw) as K.
    assert (Ha : In y (map snd D)) by (apply in_map_iff; exists (t, y); auto).
    pose proof (start_well_formed v o g b Hwf _ _ HR) as F1. rewrite Forall_forall in F1. pose proof (F1 _ Ha) as W1.
    pose proof (start_sendable v o g b Hwf Hg _ _ HR) as F2. rewrite Forall_forall in F2. pose proof (F2 _ Ha) as W2.
    destruct y as [sub cmd d x r|m to|m r|sub cmd d]; try contradiction; destruct K as (z & K1 & K2).
    - exists (ARequest sub cmd d x r), sub, cmd, d, z. repeat (split; [first [assumption|exact I|right; eauto]|]). assumption.
    - exists (ASpawn sub cmd d), sub, cmd, d, z. repeat (split; [first [assumption|exact I|left; reflexivity]|]). assumption.
  Qed.
  Lemma marker_last_in t at_ bs la lb c : In t (map fst D) -> L = la ++ OWritten t at_ bs :: lb -> In bs (item_frames (marker v) c) ->
    c = set_mark /\
    forall i e, In (i, e) (settings v o) -> exists t' at' bs' lb' m,
      In t' (map fst D) /\ In bs' (item_frames i e) /\ outstanding t' at' bs' lb' la /\ In (OReceived m) lb' /\ stored_ok m.
  Proof.
    intros Ht El Hb. destruct (started_act t at_ bs Ht) as (y & sub & cmd & d & z & Hi & _ & Hst & Hy & W & C & F & B); [rewrite El; apply in_or_app; right; left; reflexivity|].
    assert (Hwr : writes y (marker v) c).
    { pose proof (frame_act _ _ _ _ _ _ _ _ _ W C F B (marker_range v) Hb) as S. destruct Hy as [->|(x & r & ->)]; exact S. }
    apply in_split in Hi as (d1 & d2 & Ed). pose proof HR as HR'. rewrite Ed, map_app in HR'. cbn [map snd] in HR'.
    destruct (mark_last v o g b _ _ _ _ _ Hwf HR' Hwr) as (Hc & Hs & _). split; [exact Hc|].
    intros i e Hie. destruct (Hs i e Hie) as (w & Hw & Hack & Hww). apply in_map_iff in Hw as ([t' w'] & E & Hw). cbn [snd] in E. subst w'.
    assert (Hwd : In (t', w) D) by (rewrite Ed; apply in_or_app; left; exact Hw).
    assert (Hwa : In w (map snd D)) by (apply in_map_iff; exists (t', w); auto).
    apply in_split in Hw as (a & b' & Ea). rewrite Ea, <- app_assoc in Ed. cbn [app] in Ed.
    assert (Ev : match w with ARequest sub cmd d _ (Some (Ok m)) => exchanged t' sub cmd d m la | _ => True end).
    { destruct w as [sub0 cmd0 d0 x0 [[m0|]|]| | |]; try exact I. eapply (Hord a t' sub0 cmd0 d0 x0 m0 (b' ++ (t, y) :: d2) t y); [exact Ed|apply in_or_app; right; left; reflexivity|exact Hst|exact El]. }
    pose proof (start_well_formed v o g b Hwf _ _ HR) as F1. rewrite Forall_forall in F1. specialize (F1 _ Hwa).
    pose proof (start_sendable v o g b Hwf Hg _ _ HR) as F2. rewrite Forall_forall in F2. specialize (F2 _ Hwa).
    pose proof (start_expects_zero v o g b _ _ HR) as F3. rewrite Forall_forall in F3. specialize (F3 _ Hwa).
    destruct w as [sub' cmd' d' x' [[m|]|]| | |]; try contradiction. cbn [writes act_well_formed act_sendable expects_zero] in *.
    destruct Ev as (o' & at' & bs' & lb' & E1 & E2 & E3 & E4 & E5).
    exists t', at', bs', lb', m. split; [apply in_map_iff; exists (t', ARequest sub' cmd' d' x' (Some (Ok m))); auto|].
    split; [eapply act_frame; eassumption|]. split; [exact E3|]. split; [exact E4|].
    pose proof (runs_possible _ _ _ _ _ _ _ _ HR Hwa) as Hp. cbn [answer_possible] in Hp.
    destruct (command_frame _ _ _ _ _ F2 E1 E2) as (cs & k & ps & data & Hd & Hk & Hn & _ & _ & Htz & _).
    assert (Hsc : z_sub o' = sub' /\ z_cmd o' = cmd').
    { unfold from_command in E1. destruct (definition sub') as [cs'|]; [|discriminate]. cbn [bind] in E1. unfold next_cmd in E1. destruct (find _ cs') as [k'|] eqn:Ef; [|discriminate].
      apply find_some in Ef as [_ Ef]. apply String.eqb_eq in Ef. cbn [bind] in E1. destruct (select_params (c_type k') k'); [|discriminate]. cbn [bind] in E1. injection E1 as <-. auto. }
    destruct Hsc as [Hsub Hcmd].
    destruct E5 as [[_ (R1 & R2 & R3)]|[_ [R2 _]]].
    2: { exfalso. unfold resets in R2. rewrite Hsub, Hcmd in R2. destruct (storage_writes _ _ _ _ _ Hww) as [[-> ->]|[-> ->]]; destruct R2 as [[? ?]|[? ?]]; discriminate. }
    rewrite Hsub in R2. rewrite Hcmd in R3.
    assert (Hmm : z_sub m = SYS /\ z_cmd m = "osalNvWrite" \/ z_sub m = SAPI /\ z_cmd m = "writeConfiguration").
    { rewrite R2, R3. eapply storage_writes, Hww. }
    split; [exact R1|]. split; [exact Hmm|].
    assert (Hlog : In (OReceived m) (L)) by (rewrite El; apply in_or_app; left; eapply outstanding_in; eassumption).
    destruct (Hrec m Hlog) as [fr Hf].
    destruct (stored_status fr m Hf R1 Hmm) as [st Hst0]. pose proof (Hp st Hst0) as Hin.
    rewrite F3 in Hin by (destruct (storage_writes _ _ _ _ _ Hww) as [[-> ->]|[-> ->]]; reflexivity). destruct Hin as [<-|[]]. exact Hst0.
  Qed.
  Lemma configured_untouched_in store store' : config_matches v o store -> stick store (map snd D) store' ->
    store' = store /\ forall t at_ bs ct sub id data, In t (map fst D) -> In (OWritten t at_ bs) (L) -> In (ct, sub, id) changing -> bs <> wire ct sub id data.
  Proof.
    intros M S. destruct (accepted_left_alone v o g b store (map snd D) f store' Hwf (config_accepted _ _ _ M) HR S) as (Hh & Hs & _). split; [exact Hs|].
    intros t at_ bs ct sub id data Ht Hw Hc Eb. destruct (started_act t at_ bs Ht Hw) as (y & sub' & cmd & d & z & _ & Hy & _ & Ey & W & C & F & B).
    rewrite Forall_forall in Hh. specialize (Hh y Hy).
    assert (Hx : match storage_of sub' cmd d with Reads _ | NoStorage => True | _ => False end) by (destruct Ey as [->|(x & r & ->)]; exact Hh).
    eapply harmless_frame; [exact W|exact C|exact F|exact B|exact Hx| |exact Eb|exact Hc].
    unfold changing in Hc. cbn [In] in Hc. repeat (destruct Hc as [Hc|Hc]; [injection Hc as _ <- _; lia|]). contradiction.
  Qed.
End Start.
Section OnLink.
  Variables (cap : Z) (v : firmware) (o : options) (g : Z) (b : bool) (s0 : st) (es : list hevent).
  Hypotheses (Hcap : 0 <= cap) (Hreach : reachable cap s0) (Hwf : wf_options o) (Hg : 0 <= g < 65536).
  Let h := hrun es (hosted (start_znp (version_of v) o g b) s0).
  Let HI : HInv cap (start_znp (version_of v) o g b) h := host_inv cap _ s0 es Hcap Hreach.
  Let HR : runs (start_znp (version_of v) o g b) (map snd (doings h)) (ending h) := host_runs cap _ h HI.
  Let Hwrote t y at_ bs := host_wrote cap (start_znp (version_of v) o g b) h t y at_ bs Hcap HI.
  Let Hord a t1 sub cmd d x m b0 t2 y2 la at_ bs lb := host_order cap (start_znp (version_of v) o g b) h a t1 (ARequest sub cmd d x (Some (Ok m))) b0 t2 y2 la at_ bs lb Hcap HI.
  Let Hrec m : In (OReceived m) (s_log (h_st h)) -> exists f, from_unpi_frame f = Ok m := I_received _ _ (reachable_inv cap _ Hcap (H_reach _ _ _ HI)) m.
  Lemma marker_last_on_link t at_ bs la lb c : started h t -> s_log (h_st h) = la ++ OWritten t at_ bs :: lb -> In bs (item_frames (marker v) c) ->
    c = set_mark /\
    forall i e, In (i, e) (settings v o) -> exists t' at' bs' lb' m,
      started h t' /\ In bs' (item_frames i e) /\ outstanding t' at' bs' lb' la /\ In (OReceived m) lb' /\ stored_ok m.
  Proof. exact (marker_last_in v o g b (doings h) (s_log (h_st h)) (ending h) Hwf Hg HR Hwrote Hord Hrec t at_ bs la lb c). Qed.
  Lemma configured_untouched_on_link store store' : config_matches v o store -> stick store (acts h) store' ->
    store' = store /\ forall t at_ bs ct sub id data, started h t -> In (OWritten t at_ bs) (s_log (h_st h)) -> In (ct, sub, id) changing -> bs <> wire ct sub id data.
  Proof. exact (configured_untouched_in v o g b (doings h) (s_log (h_st h)) (ending h) Hwf Hg HR Hwrote Hord Hrec store store'). Qed.
End OnLink.
