(** * LinkStart: start-up succeeds on the link *)
From Coq Require Import ZifyBool ZifyNat.
From Verif Require Import Base Types Uart Buffalo CmdTable Zpi Api App Machine SpecWire SpecCodec SpecMachine Nv CodecProofs2 StartZnp SpecStart
  Host SpecHost AppStart SpecAppStart StartProofs StartProofs2 StartProofs3 StartProofs4 StartProofs5 StartProofs6 StartSend AppStartProofs StartProofs8 SpecReal SpecLinkStart.

Section Link.
Variables (ieee eps : list Z) (nwk state from group_status : Z).
Hypothesis Hi : address_ok ieee nwk.
Hypothesis Hst : byte_ok state.
Hypothesis He : bytes_ok eps /\ (length eps <= 240)%nat.
Hypothesis Hf : 0 <= from < 65536.
Hypothesis Hg : group_status = 0 \/ group_status = 1.
Variable P : act -> Prop.
Hypothesis HP : forall a, (forall v b, ~ writes a (marker v) b) -> P a.

Definition listed (m : zpi) : Prop :=
  z_cmd m = "activeEpRsp" -> dict_get (z_payload m) "nwkaddr" = Some (VInt from) /\ dict_get (z_payload m) "activeeplist" = Some (VList eps).
Definition fine (a : act) : Prop := can_come a /\ P a /\ match a with AAwait _ (Ok m) => listed m | _ => True end.
Definition wins {A} (p : prog A) (s : store) (Q : result A -> store -> Prop) : Prop :=
  exists tr r s', runs p tr (match r with Ok a => Returned a | Err e => Raised e end) /\ stick s tr s' /\ Forall fine tr /\ Q r s'.
Definition stops {A} (p : prog A) (s : store) (Q : store -> Prop) : Prop :=
  exists tr s', runs p tr Interrupted /\ stick s tr s' /\ Forall fine tr /\ Q s'.

Lemma win_ret {A} (a : A) s (Q : result A -> store -> Prop) : Q (Ok a) s -> wins (DRet a) s Q.
Proof. intro H. exists [], (Ok a), s. repeat split; try constructor. exact H. Qed.
Lemma win_raise {A} e s (Q : result A -> store -> Prop) : Q (Err e) s -> wins (DRaise e) s Q.
Proof. intro H. exists [], (Err e), s. repeat split; try constructor. exact H. Qed.
Lemma stick_join s t s1 t2 s2 : stick s t s1 -> stick s1 t2 s2 -> stick s (t ++ t2) s2.
Proof. induction 1 as [|s a s0 tr s1 H _ IH]; intro K; [exact K|]. econstructor; [exact H|apply IH, K]. Qed.
Lemma runs_join {A B} (p : prog A) (g : A -> prog B) t1 a t2 f : runs p t1 (Returned a) -> runs (g a) t2 f -> runs (seq p g) (t1 ++ t2) f.
Proof.
  intros H K. remember (Returned a) as z. induction H; try discriminate; cbn [seq app].
  - injection Heqz as ->. exact K.
  - constructor; [assumption|apply IHruns, Heqz].
  - constructor. apply IHruns, Heqz.
  - constructor; [assumption|apply IHruns, Heqz].
  - constructor. apply IHruns, Heqz.
Qed.
Lemma runs_fails {A B} (p : prog A) (g : A -> prog B) t1 e : runs p t1 (Raised e) -> runs (seq p g) t1 (Raised e).
Proof.
  intros H. remember (@Raised A e) as z. induction H; try discriminate; cbn [seq]; try (constructor; [assumption|apply IHruns, Heqz]); try (constructor; apply IHruns, Heqz).
  injection Heqz as ->. constructor.
Qed.
Lemma win_seq {A B} (p : prog A) (g : A -> prog B) s Q :
  wins p s (fun r s' => match r with Ok a => wins (g a) s' Q | Err e => Q (Err e) s' end) -> wins (seq p g) s Q.
Proof.
  intros (tr & r0 & s' & R & S & F & K). destruct r0 as [a|e].
  - destruct K as (t2 & r & s2 & R2 & S2 & F2 & K). exists (tr ++ t2), r, s2. split; [eapply runs_join; eassumption|].
    split; [eapply stick_join; eassumption|]. split; [apply Forall_app; auto|exact K].
  - exists tr, (Err e), s'. split; [apply runs_fails, R|]. auto.
Qed.
Lemma runs_try {A} (p : prog A) h t a : runs p t (Returned a) -> runs (attempt p h) t (Returned a).
Proof.
  intros H. remember (Returned a) as z. induction H; try discriminate; cbn [attempt]; try (constructor; [assumption|apply IHruns, Heqz]); try (constructor; apply IHruns, Heqz).
Qed.
Lemma runs_caught {A} (p : prog A) h t e t2 f : runs p t (Raised e) -> runs (match h e with Some q => q | None => DRaise e end) t2 f -> runs (attempt p h) (t ++ t2) f.
Proof.
  intros H K. remember (@Raised A e) as z. induction H; try discriminate; cbn [attempt app]; try (constructor; [assumption|apply IHruns, Heqz]); try (constructor; apply IHruns, Heqz).
  injection Heqz as ->. destruct (h e); exact K.
Qed.
Lemma win_attempt {A} (p : prog A) h s Q :
  wins p s (fun r s' => match r with Err e => match h e with Some q => wins q s' Q | None => Q (Err e) s' end | Ok a => Q (Ok a) s' end) ->
  wins (attempt p h) s Q.
Proof.
  intros (tr & r0 & s' & R & S & F & K). destruct r0 as [a|e].
  - exists tr, (Ok a), s'. split; [apply runs_try, R|auto].
  - destruct (h e) as [q|] eqn:Eh.
    + destruct K as (t2 & r & s2 & R2 & S2 & F2 & K). exists (tr ++ t2), r, s2. split; [eapply runs_caught; [exact R|rewrite Eh; exact R2]|].
      split; [eapply stick_join; eassumption|]. split; [apply Forall_app; auto|exact K].
    + exists tr, (Err e), s'. split; [|auto]. rewrite <- (app_nil_r tr). eapply runs_caught; [exact R|]. rewrite Eh. constructor.
Qed.
Lemma win_weaken {A} (p : prog A) s (Q Q' : result A -> store -> Prop) : (forall r s', Q r s' -> Q' r s') -> wins p s Q -> wins p s Q'.
Proof. intros H (tr & r & s' & R & S & F & K). exists tr, r, s'. auto. Qed.
Lemma stop_here {A} (p : prog A) s (Q : store -> Prop) : Q s -> stops p s Q.
Proof. intro H. exists [], s. repeat split; try constructor. exact H. Qed.
Lemma stop_seq {A B} (p : prog A) (g : A -> prog B) s (Q : store -> Prop) :
  wins p s (fun r s' => match r with Ok a => stops (g a) s' Q | Err e => False end) -> stops (seq p g) s Q.
Proof.
  intros (tr & r0 & s' & R & S & F & K). destruct r0 as [a|e]; [|destruct K]. destruct K as (t2 & s2 & R2 & S2 & F2 & K).
  exists (tr ++ t2), s2. split; [eapply runs_join; eassumption|]. split; [eapply stick_join; eassumption|]. split; [apply Forall_app; auto|exact K].
Qed.
Lemma stop_first {A B} (p : prog A) (g : A -> prog B) s (Q : store -> Prop) : stops p s Q -> stops (seq p g) s Q.
Proof.
  intros (tr & s' & R & S & F & K). exists tr, s'. split; [|auto]. clear S F K. remember Interrupted as z. induction R; try discriminate; cbn [seq];
    try (constructor; [assumption|apply IHR, Heqz]); try (constructor; apply IHR, Heqz); constructor.
Qed.

(** ** messages *)
Lemma win_request sub cmd d x s m s1 (Q : result zpi -> store -> Prop) : (forall c, status_of m = Some (VInt c) -> In c x) ->
  stick_act s (ARequest sub cmd d x (Some (Ok m))) s1 -> replies sub cmd d m -> P (ARequest sub cmd d x (Some (Ok m))) -> Q (Ok m) s1 -> wins (request sub cmd d x) s Q.
Proof.
  intros Po S C HPa H. exists [ARequest sub cmd d x (Some (Ok m))], (Ok m), s1. split; [constructor; [exact Po|constructor]|].
  split; [econstructor; [exact S|constructor]|]. split; [|exact H]. constructor; [|constructor]. split; [exact C|]. split; [exact HPa|exact I].
Qed.
Lemma quiet_act sub cmd d x r : (forall i b, storage_of sub cmd d <> Writes i b) -> P (ARequest sub cmd d x r).
Proof. intro H. apply HP. intros v b K. exact (H _ _ K). Qed.
Lemma on_wire t sub id data m : byte_ok id -> bytes_ok data -> (1 <= length data <= 255)%nat ->
  from_unpi_frame (received (mk_frame t sub id data None None)) = Ok m -> deliverable m.
Proof.
  intros H1 H2 H3 H. exists (mk_frame t sub id data None None). split; [split; [exact H1|split; [exact H2|cbn [f_data]; lia]]|].
  split; [cbn [f_data]; destruct data; [cbn [length] in H3; lia|discriminate]|exact H].
Qed.
Lemma win_plain sub cmd d x s o m (Q : result zpi -> store -> Prop) : from_command sub cmd d = Ok o -> z_type o = SREQ -> byte_ok (z_id o) ->
  from_unpi_frame (received (mk_frame SRSP sub (z_id o) [0] None None)) = Ok m -> response_to o m -> status_of m = Some (VInt 0) -> In 0 x ->
  storage_of sub cmd d = NoStorage -> Q (Ok m) s -> wins (request sub cmd d x) s Q.
Proof.
  intros E T B F R St H0 K H. eapply win_request; [intros c Ec; rewrite St in Ec; injection Ec as <-; exact H0|cbn [stick_act]; rewrite K; reflexivity| |apply quiet_act; rewrite K; discriminate|exact H].
  split; [eapply on_wire; [exact B| | |exact F]; [repeat constructor; discriminate|cbn; lia]|]. exists o. auto.
Qed.
Lemma win_write sub cmd d x s i b o m (Q : result zpi -> store -> Prop) : from_command sub cmd d = Ok o -> z_type o = SREQ -> byte_ok (z_id o) ->
  from_unpi_frame (received (mk_frame SRSP sub (z_id o) [0] None None)) = Ok m -> response_to o m -> status_of m = Some (VInt 0) -> In 0 x ->
  storage_of sub cmd d = Writes i b -> P (ARequest sub cmd d x (Some (Ok m))) -> Q (Ok m) (put s i b) -> wins (request sub cmd d x) s Q.
Proof.
  intros E T B F R St H0 K HPa H. eapply win_request; [intros c Ec; rewrite St in Ec; injection Ec as <-; exact H0|cbn [stick_act]; rewrite K; reflexivity| |exact HPa|exact H].
  split; [eapply on_wire; [exact B| | |exact F]; [repeat constructor; discriminate|cbn; lia]|]. exists o. auto.
Qed.
Lemma win_create d s i b m (Q : result zpi -> store -> Prop) : 
  from_unpi_frame (received (mk_frame SRSP SYS 7 [0] None None)) = Ok m ->
  storage_of SYS "osalNvItemInit" d = Creates i b -> (forall s', Q (Ok m) s') -> wins (request SYS "osalNvItemInit" d [0; 9]) s Q.
Proof.
  intros F K H. assert (E : status_of m = Some (VInt 0) /\ z_type m = SRSP /\ z_sub m = SYS /\ z_cmd m = "osalNvItemInit").
  { vm_compute in F. injection F as <-. repeat split. }
  destruct E as (E1 & E2 & E3 & E4).
  eapply (win_request _ _ _ _ _ m (match s i with Some _ => s | None => put s i b end)); [intros c Ec; rewrite E1 in Ec; injection Ec as <-; left; reflexivity| | |apply quiet_act; rewrite K; discriminate|apply H].
  - cbn [stick_act]. rewrite K. destruct (s i); reflexivity.
  - split; [eapply on_wire; [|  | |exact F]; [split; [discriminate|reflexivity]|repeat constructor; discriminate|cbn; lia]|].
    eexists. split; [reflexivity|]. left. split; [reflexivity|]. split; [exact E2|]. split; [exact E3|exact E4].
Qed.
Lemma win_reset s (Q : result zpi -> store -> Prop) : (forall m, Q (Ok m) s) -> wins soft_reset s Q.
Proof.
  intro H. unfold soft_reset.
  eapply (win_request _ _ _ _ _ (mk_zpi AREQ SYS "resetInd" 128 [("reason", VInt 0); ("transportrev", VInt 2); ("productid", VInt 1); ("majorrel", VInt 2); ("minorrel", VInt 7); ("hwrev", VInt 1)]
    [("reason", UINT8); ("transportrev", UINT8); ("productid", UINT8); ("majorrel", UINT8); ("minorrel", UINT8); ("hwrev", UINT8)] None) s);
    [discriminate|intro v; left; reflexivity| |apply quiet_act; discriminate|apply H].
  split; [eapply (on_wire AREQ SYS 128 [0; 2; 1; 2; 7; 1]); [split; [discriminate|reflexivity]|repeat constructor; discriminate|cbn; lia|vm_compute; reflexivity]|].
  eexists. split; [reflexivity|]. right. split; [reflexivity|]. split; [left; split; reflexivity|]. repeat split.
Qed.

(** reading an item *)
Definition nv_said (st : Z) (b : list Z) : zpi :=
  mk_zpi SRSP SYS "osalNvRead" 8 [("status", VInt st); ("len", VInt (Z.of_nat (length b))); ("value", VBytes b)] [("status", UINT8); ("len", UINT8); ("value", BUFFER)] None.
Definition conf_said (i st : Z) (b : list Z) : zpi :=
  mk_zpi SRSP SAPI "readConfiguration" 4 [("status", VInt st); ("configid", VInt i); ("len", VInt (Z.of_nat (length b))); ("value", VBytes b)]
    [("status", UINT8); ("configid", UINT8); ("len", UINT8); ("value", BUFFER)] None.
Lemma wire_in sub t cs c ps pl data : definition sub = Ok cs -> In c cs -> (t = SRSP /\ c_response c = Some ps \/ t <> SRSP /\ c_request c = Some ps) ->
  payload_wire None ps pl data -> byte_ok (c_ID c) -> bytes_ok data -> (1 <= length data <= 255)%nat ->
  deliverable (mk_zpi t sub (c_name c) (c_ID c) pl ps None).
Proof.
  intros D C T PW B1 B2 L. eapply (on_wire t sub (c_ID c) data); try assumption. unfold received. cbn [f_type f_sub f_id f_data].
  rewrite <- (app_nil_r data) at 1. eapply from_unpi_ok; eassumption.
Qed.
Lemma byte_len (b : list Z) : (length b <= 240)%nat -> byte_ok (Z.of_nat (length b)).
Proof. unfold byte_ok. lia. Qed.
Ltac bt := first [assumption|apply byte_len; assumption|unfold byte_ok in *; lia].
Ltac u8 := apply vw_u8; [bt|discriminate].
Lemma nv_said_comes st b : byte_ok st -> bytes_ok b -> (length b <= 240)%nat -> deliverable (nv_said st b).
Proof.
  intros Hs Hb Hl. unfold nv_said.
  apply (wire_in SYS SRSP _ (mk_cmd "osalNvRead" 8 SREQ (Some [("id", UINT16); ("offset", UINT8)]) (Some [("status", UINT8); ("len", UINT8); ("value", BUFFER)]))
    [("status", UINT8); ("len", UINT8); ("value", BUFFER)] _ ([st] ++ [Z.of_nat (length b)] ++ b ++ []) eq_refl).
  - apply (fun H => proj1 (find_some (fun c => String.eqb (c_name c) "osalNvRead") _ H)). reflexivity.
  - left. split; reflexivity.
  - repeat apply pw_cons; try u8; [apply vw_buffer; exact Hb|constructor].
  - split; [discriminate|reflexivity].
  - cbn [app]. repeat constructor; try bt. rewrite app_nil_r. exact Hb.
  - cbn [app length]. rewrite app_nil_r. lia.
Qed.
Lemma conf_said_comes i st b : byte_ok i -> byte_ok st -> bytes_ok b -> (length b <= 240)%nat -> deliverable (conf_said i st b).
Proof.
  intros Hi' Hs Hb Hl. unfold conf_said.
  apply (wire_in SAPI SRSP _ (mk_cmd "readConfiguration" 4 SREQ (Some [("configid", UINT8)]) (Some [("status", UINT8); ("configid", UINT8); ("len", UINT8); ("value", BUFFER)]))
    [("status", UINT8); ("configid", UINT8); ("len", UINT8); ("value", BUFFER)] _ ([st] ++ [i] ++ [Z.of_nat (length b)] ++ b ++ []) eq_refl).
  - apply (fun H => proj1 (find_some (fun c => String.eqb (c_name c) "readConfiguration") _ H)). reflexivity.
  - left. split; reflexivity.
  - repeat apply pw_cons; try u8; [apply vw_buffer; exact Hb|constructor].
  - split; [discriminate|reflexivity].
  - cbn [app]. repeat constructor; try bt. rewrite app_nil_r. exact Hb.
  - cbn [app length]. rewrite app_nil_r. lia.
Qed.
Lemma stored_ok s i : tellable s -> bytes_ok (stored s i) /\ (length (stored s i) <= 240)%nat.
Proof. intro T. unfold stored. destruct (s i) as [b|] eqn:E; [exact (T i b E)|]. split; [constructor|cbn; lia]. Qed.
Lemma win_nv_read d i x s (Q : result zpi -> store -> Prop) : tellable s -> storage_of SYS "osalNvRead" d = Reads i -> In 0 x -> (In 2 x \/ s i <> None) ->
  (forall m, dict_get (z_payload m) "value" = Some (VBytes (stored s i)) -> Q (Ok m) s) -> wins (request SYS "osalNvRead" d x) s Q.
Proof.
  intros T K H0 H2 H. destruct (stored_ok s i T) as [B1 B2].
  apply (win_request _ _ _ _ _ (nv_said (match s i with Some _ => 0 | None => 2 end) (stored s i)) s); [| | |apply quiet_act; rewrite K; discriminate|apply H; reflexivity].
  - intros c Ec. unfold status_of in Ec. cbn [nv_said z_payload dict_get] in Ec. injection Ec as <-. destruct (s i); [exact H0|]. destruct H2 as [H2|H2]; [exact H2|contradiction].
  - cbn [stick_act]. rewrite K. split; [reflexivity|]. split; reflexivity.
  - split; [apply nv_said_comes; try assumption; destruct (s i); split; try discriminate; reflexivity|]. eexists. split; [reflexivity|]. left. repeat split.
Qed.
Lemma win_conf_read d i x s (Q : result zpi -> store -> Prop) : tellable s -> storage_of SAPI "readConfiguration" d = Reads i -> byte_ok i -> In 0 x -> s i <> None ->
  (forall m, dict_get (z_payload m) "value" = Some (VBytes (stored s i)) -> Q (Ok m) s) -> wins (request SAPI "readConfiguration" d x) s Q.
Proof.
  intros T K Bi H0 H2 H. destruct (stored_ok s i T) as [B1 B2].
  apply (win_request _ _ _ _ _ (conf_said i 0 (stored s i)) s); [| | |apply quiet_act; rewrite K; discriminate|apply H; reflexivity].
  - intros c Ec. unfold status_of in Ec. cbn [conf_said z_payload dict_get] in Ec. injection Ec as <-. exact H0.
  - cbn [stick_act]. rewrite K. split; [reflexivity|]. split; [reflexivity|]. destruct (s i); [reflexivity|contradiction].
  - split; [apply conf_said_comes; try assumption; split; try discriminate; reflexivity|]. eexists. split; [reflexivity|]. left. repeat split.
Qed.
Lemma win_field r n s v (Q : result value -> store -> Prop) : dict_get (z_payload r) n = Some v -> Q (Ok v) s -> wins (field r n) s Q.
Proof. intros H K. unfold field. rewrite H. apply win_ret, K. Qed.
Lemma win_compare item sub cmd i x s (Q : result unit -> store -> Prop) :
  (forall Q' : result zpi -> store -> Prop, (forall m, dict_get (z_payload m) "value" = Some (VBytes (stored s i)) -> Q' (Ok m) s) -> wins (request sub cmd item x) s Q') ->
  (value_eqb (VBytes (stored s i)) (item_value item) = true -> Q (Ok tt) s) -> Q (Err AssertionError) s -> wins (validate_item item sub cmd x) s Q.
Proof.
  intros W Q1 Q2. unfold validate_item. apply win_seq, W. intros m Em. apply win_seq. eapply win_field; [exact Em|].
  destruct (value_eqb _ _); [apply win_ret, Q1; reflexivity|apply win_raise, Q2].
Qed.

(** other answers and indications *)
Definition info_said : zpi :=
  mk_zpi SRSP UTIL "getDeviceInfo" 0 [("status", VInt 0); ("ieeeaddr", VEui ieee); ("shortaddr", VInt nwk); ("devicetype", VInt 7); ("devicestate", VInt state);
      ("numassocdevices", VInt 0); ("assocdeviceslist", VList [])]
    [("status", UINT8); ("ieeeaddr", IEEEADDR); ("shortaddr", UINT16); ("devicetype", UINT8); ("devicestate", UINT8); ("numassocdevices", UINT8); ("assocdeviceslist", LIST_UINT16)] None.
Lemma le2_ok z : 0 <= z < 65536 -> bytes_ok (le2 z).
Proof. intro H. unfold le2. repeat constructor; lia. Qed.
Lemma info_said_comes : deliverable info_said.
Proof.
  destruct Hi as (Hi1 & Hi2 & Hi3). unfold info_said.
  apply (wire_in UTIL SRSP _ (mk_cmd "getDeviceInfo" 0 SREQ (Some []) (Some [("status", UINT8); ("ieeeaddr", IEEEADDR); ("shortaddr", UINT16); ("devicetype", UINT8); ("devicestate", UINT8); ("numassocdevices", UINT8); ("assocdeviceslist", LIST_UINT16)]))
    [("status", UINT8); ("ieeeaddr", IEEEADDR); ("shortaddr", UINT16); ("devicetype", UINT8); ("devicestate", UINT8); ("numassocdevices", UINT8); ("assocdeviceslist", LIST_UINT16)] _
    ([0] ++ ieee ++ le2 nwk ++ [7] ++ [state] ++ [0] ++ concat (map le2 []) ++ []) eq_refl).
  - apply (fun H => proj1 (find_some (fun c => String.eqb (c_name c) "getDeviceInfo") _ H)). reflexivity.
  - left. split; reflexivity.
  - repeat apply pw_cons; try u8; [apply vw_ieee; assumption|apply vw_u16; assumption|apply vw_list16; [constructor|reflexivity]|constructor].
  - split; [discriminate|reflexivity].
  - unfold bytes_ok in *. rewrite !Forall_app; repeat (apply conj); try assumption; try (apply le2_ok; assumption); repeat constructor; try bt.
  - rewrite !app_length. cbn [length le2 concat map]. rewrite Hi1. lia.
Qed.
Lemma win_info s (Q : result zpi -> store -> Prop) : Q (Ok info_said) s -> wins (request UTIL "getDeviceInfo" [] [0]) s Q.
Proof.
  intro H. eapply win_request; [|reflexivity| |apply quiet_act; discriminate|exact H].
  - intros c Ec. unfold status_of in Ec. cbn [info_said z_payload dict_get] in Ec. injection Ec as <-. left. reflexivity.
  - split; [exact info_said_comes|]. eexists. split; [reflexivity|]. left. repeat split.
Qed.
Definition list_said : zpi :=
  mk_zpi AREQ ZDO "activeEpRsp" 133 [("srcaddr", VInt from); ("status", VInt 0); ("nwkaddr", VInt from); ("activeepcount", VInt (Z.of_nat (length eps))); ("activeeplist", VList eps)]
    [("srcaddr", UINT16); ("status", UINT8); ("nwkaddr", UINT16); ("activeepcount", UINT8); ("activeeplist", LIST_UINT8)] None.
Lemma list_said_comes : deliverable list_said.
Proof.
  destruct He as [He1 He2]. unfold list_said.
  apply (wire_in ZDO AREQ _ (mk_cmd "activeEpRsp" 133 AREQ (Some [("srcaddr", UINT16); ("status", UINT8); ("nwkaddr", UINT16); ("activeepcount", UINT8); ("activeeplist", LIST_UINT8)]) None)
    [("srcaddr", UINT16); ("status", UINT8); ("nwkaddr", UINT16); ("activeepcount", UINT8); ("activeeplist", LIST_UINT8)] _
    (le2 from ++ [0] ++ le2 from ++ [Z.of_nat (length eps)] ++ eps ++ []) eq_refl).
  - apply (fun H => proj1 (find_some (fun c => String.eqb (c_name c) "activeEpRsp") _ H)). reflexivity.
  - right. split; [discriminate|reflexivity].
  - repeat apply pw_cons; try u8; try (apply vw_u16; assumption); [apply vw_list8; [assumption|lia]|constructor].
  - split; [discriminate|reflexivity].
  - unfold bytes_ok in *. rewrite !Forall_app; repeat (apply conj); try assumption; try (apply le2_ok; assumption); repeat constructor; try bt.
  - rewrite !app_length. cbn [length le2]. lia.
Qed.
Lemma win_await m t i s (Q : result zpi -> store -> Prop) : waiter_match m i = Ok true -> deliverable i -> listed i -> Q (Ok i) s -> wins (await (m, t)) s Q.
Proof.
  intros M D L H. exists [AAwait m (Ok i)], (Ok i), s. split; [constructor; [exact M|constructor]|]. split; [econstructor; [reflexivity|constructor]|].
  split; [|exact H]. constructor; [|constructor]. split; [exact D|]. split; [apply HP; intros v b []|exact L].
Qed.
Lemma win_started t s (Q : result zpi -> store -> Prop) : (forall i, Q (Ok i) s) -> wins (await (mk_matcher AREQ ZDO "stateChangeInd" [("state", VInt 9)], t)) s Q.
Proof.
  intro H. eapply (win_await _ _ (mk_zpi AREQ ZDO "stateChangeInd" 192 [("state", VInt 9)] [("state", UINT8)] None)); [vm_compute; reflexivity| |discriminate|apply H].
  eapply (on_wire AREQ ZDO 192 [9]); [split; [discriminate|reflexivity]|repeat constructor; discriminate|cbn; lia|vm_compute; reflexivity].
Qed.
Lemma win_list t s (Q : result zpi -> store -> Prop) : Q (Ok list_said) s -> wins (await (mk_matcher AREQ ZDO "activeEpRsp" [], t)) s Q.
Proof. intro H. eapply (win_await _ _ list_said); [reflexivity|exact list_said_comes|intros _; split; reflexivity|exact H]. Qed.
Lemma win_listen m t s (Q : result (matcher * Z) -> store -> Prop) : Q (Ok (m, t)) s -> wins (listen m t) s Q.
Proof. intro H. exists [AListen m t], (Ok (m, t)), s. split; [repeat constructor|]. split; [econstructor; [reflexivity|constructor]|]. split; [|exact H]. constructor; [|constructor]. split; [exact I|]. split; [apply HP; intros v b []|exact I]. Qed.
Lemma win_spawn sub cmd d s (Q : result unit -> store -> Prop) : storage_of sub cmd d = NoStorage -> Q (Ok tt) s -> wins (spawn sub cmd d) s Q.
Proof. intros K H. exists [ASpawn sub cmd d], (Ok tt), s. split; [repeat constructor|]. split; [econstructor; [reflexivity|constructor]|]. split; [|exact H]. constructor; [|constructor]. split; [exact I|]. split; [apply HP; intros v b E; cbn [writes] in E; rewrite K in E; discriminate E|exact I]. Qed.

(** ** the program, part by part *)
Definition done {A} : result A -> store -> Prop := fun r s => match r with Ok _ => True | Err _ => False end.
Lemma done_seq {A B} (p : prog A) (g : A -> prog B) s : wins p s done -> (forall a s', wins (g a) s' done) -> wins (seq p g) s done.
Proof. intros H G. apply win_seq. eapply win_weaken; [|exact H]. intros [a|e] s'; [intros _; apply G|intros []]. Qed.
Lemma done_ret {A} (a : A) s : wins (DRet a) s done.
Proof. apply win_ret. exact I. Qed.
Ltac plainly := eapply win_plain; [reflexivity|reflexivity|split; [discriminate|reflexivity]|vm_compute; reflexivity|repeat split|reflexivity|cbn [In]; tauto|reflexivity|].
Ltac plain := plainly; exact I.
Ltac writes_ := eapply win_write; [reflexivity|reflexivity|split; [discriminate|reflexivity]|vm_compute; reflexivity|repeat split|reflexivity|cbn [In]; tauto|reflexivity|apply HP; intros v' b' K; destruct v'; discriminate K|].
Ltac wr := writes_; exact I.
Ltac rs := apply win_reset; intro; exact I.
Ltac also t := apply done_seq; [t|intros].

Lemma boot_done s : wins boot s done.
Proof.
  unfold boot. apply win_seq, win_info. apply win_seq. eapply win_field; [reflexivity|].
  destruct (value_eqb _ _); [apply done_ret|]. apply win_seq, win_listen. also plain.
  also ltac:(apply win_started; intros; exact I). apply done_ret.
Qed.
Lemma registers_one d s : wins (request AF "register" d [0]) s done.
Proof. plain. Qed.
Lemma loop_done es : forall s, wins (register_loop list_said es) s done.
Proof.
  induction es as [|e es IH]; intro s; [apply done_ret|]. cbn [register_loop]. apply win_seq.
  eapply win_field; [reflexivity|]. apply done_seq; [|intros; apply IH]. destruct (is_in _ _); [apply done_ret|]. also ltac:(apply registers_one). apply done_ret.
Qed.
Lemma register_done s : wins register_endpoints s done.
Proof.
  unfold register_endpoints. apply win_seq, win_listen. apply win_seq, win_spawn; [reflexivity|]. apply win_seq, win_list. apply loop_done.
Qed.
Definition group_said (g : Z) : zpi :=
  mk_zpi SRSP ZDO "extFindGroup" 74 [("status", VInt group_status); ("groupid", VInt g); ("namelen", VInt 0); ("groupname", VBytes [])]
    [("status", UINT8); ("groupid", UINT16); ("namelen", UINT8); ("groupname", BUFFER)] None.
Lemma group_said_comes g : 0 <= g < 65536 -> deliverable (group_said g).
Proof.
  intro G. unfold group_said.
  apply (wire_in ZDO SRSP _ (mk_cmd "extFindGroup" 74 SREQ (Some [("endpoint", UINT8); ("groupid", UINT16)]) (Some [("status", UINT8); ("groupid", UINT16); ("namelen", UINT8); ("groupname", BUFFER)]))
    [("status", UINT8); ("groupid", UINT16); ("namelen", UINT8); ("groupname", BUFFER)] _ ([group_status] ++ le2 g ++ [0] ++ [] ++ []) eq_refl).
  - apply (fun H => proj1 (find_some (fun c => String.eqb (c_name c) "extFindGroup") _ H)). reflexivity.
  - left. split; reflexivity.
  - repeat apply pw_cons; try u8; [apply vw_u16; assumption|exact (vw_buffer _ [] (Forall_nil _))|constructor].
  - split; [discriminate|reflexivity].
  - unfold bytes_ok in *. rewrite !Forall_app; repeat (apply conj); try (apply le2_ok; assumption); repeat constructor; try bt.
  - rewrite !app_length. cbn [length le2]. lia.
Qed.
Lemma group_done g s : 0 <= g < 65536 -> wins (add_to_group 242 g) s done.
Proof.
  intro G. unfold add_to_group. apply win_seq. apply (win_request _ _ _ _ _ (group_said g) s); [|reflexivity| |apply quiet_act; discriminate|].
  - intros c Ec. unfold status_of in Ec. cbn [group_said z_payload dict_get] in Ec. injection Ec as <-. cbn [In]. destruct Hg; auto.
  - split; [apply group_said_comes, G|]. eexists. split; [reflexivity|]. left. repeat split.
  - apply win_seq. eapply win_field; [reflexivity|]. destruct (value_eqb _ _); [|apply done_ret]. also plain. apply done_ret.
Qed.
Lemma initialise_done v o s : (forall a, P a) -> wins (initialise (version_of v) o) s done.
Proof.
  intro All. unfold initialise, nv_write. also rs. also wr. also rs. also wr. also wr. also wr. also wr. also wr. also wr.
  also idtac.
  - rewrite stack3_version. destruct v.
    + also wr. wr.
    + also wr. also plain. also plain. apply win_seq, win_listen. also plain. also idtac; [|plain].
      unfold await_started. apply win_attempt. apply win_started. intros. exact I.
    + also wr. also plain. also plain. apply win_seq, win_listen. also plain. also idtac; [|plain].
      unfold await_started. apply win_attempt. apply win_started. intros. exact I.
  - also ltac:(eapply win_create; [vm_compute; reflexivity|destruct v; reflexivity|intros; exact I]).
    also ltac:(eapply win_write; [reflexivity|reflexivity|split; [discriminate|reflexivity]|vm_compute; reflexivity|repeat split|reflexivity|cbn [In]; tauto|destruct v; reflexivity|apply All|exact I]). apply done_ret.
Qed.
Lemma marker_read v s (Q : result unit -> store -> Prop) : tellable s -> (marked v s -> Q (Ok tt) s) -> Q (Err AssertionError) s ->
  wins (validate_item (item_configured (version_of v)) SYS "osalNvRead" [0; 2]) s Q.
Proof.
  intros T Q1 Q2. apply (win_compare _ _ _ (marker v)); [|intro Ev; apply Q1|exact Q2].
  - intros Q' H. apply (win_nv_read _ (marker v)); [exact T|destruct v; reflexivity|left; reflexivity|left; right; left; reflexivity|exact H].
  - change (item_value (item_configured (version_of v))) with (VBytes set_mark) in Ev. cbn [value_eqb] in Ev. unfold marked, stored in *.
    destruct (s (marker v)) as [b|]; [|discriminate Ev]. f_equal. destruct (list_eq_dec Z.eq_dec b set_mark); [assumption|discriminate].
Qed.
Lemma same_bytes a b : VBytes a = VBytes b -> b = a.
Proof. intro E. injection E as ->. reflexivity. Qed.
Lemma same_value item i s (Q : Prop) : s i <> None -> (forall iv, item_value item = VBytes iv -> s i = Some iv -> Q) -> value_eqb (VBytes (stored s i)) (item_value item) = true -> Q.
Proof.
  intros N H E. unfold stored in E. destruct (s i) as [b|]; [|contradiction]. destruct (item_value item) as [?|b'|?|?|?]; try discriminate E.
  cbn [value_eqb] in E. destruct (list_eq_dec Z.eq_dec b b') as [->|]; [|discriminate E]. apply (H b'); reflexivity.
Qed.
Lemma not_stuck i b r s : ~ stuck ((i, b) :: r) s -> s i <> None /\ (s i = Some b -> ~ stuck r s).
Proof. cbn [stuck]. tauto. Qed.
Lemma win_validate item i s (Q : result unit -> store -> Prop) : tellable s -> storage_of SYS "osalNvRead" item = Reads i -> s i <> None ->
  (forall iv, item_value item = VBytes iv -> s i = Some iv -> Q (Ok tt) s) -> Q (Err AssertionError) s -> wins (validate_item item SYS "osalNvRead" [0]) s Q.
Proof.
  intros T K N Q1 Q2. apply (win_compare _ _ _ i); [|apply same_value; assumption|exact Q2]. intros Q' H. apply (win_nv_read _ i); auto. left. reflexivity.
Qed.
Lemma win_pan v o s (Q : result unit -> store -> Prop) : wf_options o -> tellable s -> ~ stuck [(131, le2 (o_pan o)); (45, o_ext o)] s ->
  Q (Ok tt) s -> Q (Err AssertionError) s -> wins (validate_pan (version_of v) o) s Q.
Proof.
  intros W T K Q1 Q2. apply not_stuck in K as [K1 K2]. unfold validate_pan. apply win_attempt.
  assert (G : wins (if stack3 (version_of v) then
         let! result := request SYS "osalNvRead" (item_pan (o_pan o)) [0] in
         let! v := field result "value" in
         if value_eqb v (VBytes [255; 255]) then DRet tt else DRaise AssertionError
       else DRet tt) s Q).
  { destruct (stack3 (version_of v)); [|apply win_ret; exact Q1].
    apply win_seq. apply (win_nv_read _ 131); [exact T|reflexivity|left; reflexivity|right; exact K1|]. intros m Em.
    apply win_seq. eapply win_field; [exact Em|]. destruct (value_eqb _ _); [apply win_ret, Q1|apply win_raise, Q2]. }
  apply win_seq. eapply (win_validate _ 131); [exact T|reflexivity|exact K1| |exact G].
  intros iv Ei Es. assert (K3 : ~ stuck [(45, o_ext o)] s).
  { apply K2. rewrite Es. f_equal. destruct W as (_ & _ & Wp & _). rewrite <- pan_bytes by exact Wp. exact (same_bytes _ _ Ei). }
  apply not_stuck in K3 as [K3 _].
  eapply (win_validate _ 45); [exact T|reflexivity|exact K3|intros; exact Q1|exact G].
Qed.
Lemma needs_done v o s : wf_options o -> tellable s -> ~ locked_out v o s -> wins (needs_init (version_of v) o) s (fun r s' => (exists b, r = Ok b) /\ s' = s).
Proof.
  intros W T Hc. unfold needs_init. apply win_attempt. apply win_seq.
  assert (AE : wins (A := bool) (DRet true) s (fun r s' => (exists b, r = Ok b) /\ s' = s)) by (apply win_ret; eauto).
  apply marker_read; [exact T| |exact AE]. intro M.
  assert (K : ~ stuck (compared o) s) by (intro K; apply Hc; split; assumption). clear Hc. unfold compared in K.
  apply not_stuck in K as [K1 K]. apply win_seq. eapply (win_validate _ 132); [exact T|reflexivity|exact K1| |exact AE].
  intros iv Ei Es. assert (K' : s 132 = Some (le4 (o_channels o))).
  { rewrite Es. f_equal. destruct W as (_ & _ & _ & _ & _ & Wc). rewrite <- channel_bytes by exact Wc. exact (same_bytes _ _ Ei). }
  apply K in K'. clear K Ei Es iv. apply not_stuck in K' as [K2 K].
  apply win_seq. eapply (win_validate _ 99); [exact T|reflexivity|exact K2| |exact AE].
  intros iv Ei Es. assert (K' : s 99 = Some (flag (o_distribute o))).
  { rewrite Es. f_equal. rewrite <- flag_eq. exact (same_bytes _ _ Ei). }
  apply K in K'. clear K Ei Es iv. apply not_stuck in K' as [K3 K].
  apply win_seq. assert (G : forall Q : result unit -> store -> Prop, (s 98 = Some (o_key o) -> Q (Ok tt) s) -> Q (Err AssertionError) s ->
    wins (if version_of v =? zStack3x0 then validate_item (item_key (o_key o)) SYS "osalNvRead" [0] else validate_item (item_key (o_key o)) SAPI "readConfiguration" [0]) s Q).
  { intros Q Q1 Q2. assert (Q3 : forall iv, item_value (item_key (o_key o)) = VBytes iv -> s 98 = Some iv -> Q (Ok tt) s).
    { intros iv Ei Es. apply Q1. rewrite Es. f_equal. exact (same_bytes _ _ Ei). }
    destruct (version_of v =? zStack3x0); [eapply (win_validate _ 98); [exact T|reflexivity|exact K3|exact Q3|exact Q2]|].
    apply (win_compare _ _ _ 98); [|apply same_value; assumption|exact Q2]. intros Q' H. apply (win_conf_read _ 98); [exact T|reflexivity|split; [discriminate|reflexivity]|left; reflexivity|exact K3|exact H]. }
  apply G; [|exact AE]. clear G. intro Es. apply K in Es. apply win_seq. apply win_pan; [exact W|exact T|exact Es| |exact AE]. apply win_ret. eauto.
Qed.
Lemma has_done v s : tellable s -> wins (has_configured (version_of v)) s (fun r s' => (exists c, r = Ok c) /\ s' = s).
Proof.
  intro T. unfold has_configured. apply win_attempt. apply win_seq. apply marker_read; [exact T|intros _|]; apply win_ret; eauto.
Qed.
Lemma start_done v o g s : (forall a, P a) -> wf_options o -> 0 <= g < 65536 -> tellable s -> ~ locked_out v o s -> wins (start_znp (version_of v) o g false) s done.
Proof.
  intros All W G T Hc. rewrite start_eq. apply win_seq. eapply win_weaken; [|apply has_done, T]. intros r s' [[c ->] ->].
  also idtac.
  - unfold configure. rewrite andb_false_l. apply win_seq. eapply win_weaken; [|apply needs_done; assumption]. intros r s' [[b ->] ->].
    destruct b; [|apply done_ret]. also ltac:(apply initialise_done, All). apply done_ret.
  - unfold rest. also ltac:(apply boot_done). also ltac:(apply register_done). also ltac:(apply group_done, G).
    also idtac; [|apply done_ret]. destruct a; try apply done_ret. also wr. apply done_ret.
Qed.
Definition version_said (v : firmware) : zpi :=
  mk_zpi SRSP SYS "version" 2 [("transportrev", VInt 2); ("product", VInt (version_of v)); ("majorrel", VInt 2); ("minorrel", VInt 7); ("maintrel", VInt 1); ("revision", VInt 0)]
    [("transportrev", UINT8); ("product", UINT8); ("majorrel", UINT8); ("minorrel", UINT8); ("maintrel", UINT8); ("revision", UINT32)] None.
Lemma app_done v auto c devs s : (forall a, P a) -> valid_config c -> tellable s -> (auto = true -> ~ locked_out v (network_options c) s) ->
  wins (app_startup auto c devs) s (fun r _ => exists rd, r = Ok rd /\ rd_product rd = version_of v /\ rd_ieee rd = ieee /\ rd_nwk rd = nwk).
Proof.
  intros All V T Hc. rewrite app_eq. apply win_seq. unfold ping. apply win_attempt.
  apply (win_request _ _ _ _ _ (mk_zpi SRSP SYS "ping" 1 [("capabilities", VInt 1881)] [("capabilities", UINT16)] None) s); [discriminate|reflexivity| |apply All|].
  { split; [eapply (on_wire SRSP SYS 1 [89; 7]); [split; [discriminate|reflexivity]|repeat constructor; discriminate|cbn; lia|vm_compute; reflexivity]|].
    eexists. split; [reflexivity|]. left. repeat split. }
  apply win_seq. unfold ask_version. apply (win_request _ _ _ _ _ (version_said v) s); [discriminate|reflexivity| |apply All|].
  { split; [eapply (on_wire SRSP SYS 2 [2; version_of v; 2; 7; 1; 0; 0; 0; 0]); [split; [discriminate|reflexivity]|destruct v; repeat constructor; discriminate|cbn; lia|destruct v; vm_compute; reflexivity]|].
    eexists. split; [reflexivity|]. left. repeat split. }
  apply win_seq. eapply win_field; [reflexivity|]. rewrite check_known. cbn [seq]. apply win_seq.
  assert (F : forall st s', wins (finish devs (version_of v) st) s' (fun r _ => exists rd, r = Ok rd /\ rd_product rd = version_of v /\ rd_ieee rd = ieee /\ rd_nwk rd = nwk)).
  { intros st s'. unfold finish, coordinator. apply win_seq, win_seq. apply win_info. apply win_seq. eapply win_field; [reflexivity|]. apply win_seq. eapply win_field; [reflexivity|].
    apply win_ret. apply win_ret. eexists. split; [reflexivity|]. auto. }
  unfold form. destruct auto; [|apply win_ret, F].
  apply win_seq. unfold form_network. apply win_seq. eapply win_weaken; [|exact (start_done v (network_options c) 2948 s All (proj1 (options_valid c V)) ltac:(lia) T (Hc eq_refl))].
  intros [r|e] s' Hd; [|destruct Hd]. apply win_seq. unfold switch_led. destruct (version_of v =? zStack3x0).
  - apply win_ret, win_ret, win_ret, F.
  - apply win_spawn; [reflexivity|]. apply win_ret, win_ret, F.
Qed.

(** ** interrupted once all compared items are stored *)
Lemma put_tellable s i b : tellable s -> bytes_ok b -> (length b <= 240)%nat -> tellable (put s i b).
Proof. intros T B L j c. unfold put. destruct (j =? i); [intro E; injection E as <-; auto|apply T]. Qed.
Lemma needs_true v o s : wf_options o -> tellable s -> ~ locked_out v o s -> ~ accepted v o s ->
  wins (needs_init (version_of v) o) s (fun r s' => r = Ok true /\ s' = s).
Proof.
  intros W T Hc N. destruct (needs_done v o s W T Hc) as (tr & r & s' & R & S & F & (b & ->) & ->). exists tr, (Ok b), s.
  split; [exact R|]. split; [exact S|]. split; [exact F|]. split; [|reflexivity].
  pose proof (proj2 (needs_init_reads v o s W) _ _ R S) as K. destruct b; [reflexivity|contradiction].
Qed.
Ltac stop_write := apply stop_seq; writes_.
Lemma stopped_initialise v o s : wf_options o -> marked v s -> tellable s ->
  stops (initialise (version_of v) o) s (fun s1 => accepted v o s1 /\ tellable s1 /\ ~ locked_out v o s1).
Proof.
  intros (Wk & Wkb & Wp & We & Web & Wc) M T. unfold initialise, nv_write.
  apply stop_seq, win_reset. intros _. stop_write. apply stop_seq, win_reset. intros _. do 6 stop_write.
  match goal with |- stops _ ?x _ => set (s8 := x) end.
  assert (E : forall j, s8 j = if j =? 45 then Some (o_ext o) else if j =? 131 then Some (le2 (o_pan o)) else if j =? 132 then Some (le4 (o_channels o)) else
    if j =? 143 then Some [1] else if j =? 99 then Some (flag (o_distribute o)) else if j =? 135 then Some [0] else if j =? 3 then Some [2] else s j).
  { intro j. unfold s8, put. rewrite <- pan_bytes, <- channel_bytes by assumption. rewrite <- flag_eq. reflexivity. }
  assert (T8 : tellable s8).
  { unfold s8. repeat apply put_tellable; try exact T; try exact Web; try (cbn [length]; lia); try (repeat constructor; lia);
      try (rewrite pan_bytes by assumption; apply le2_range; assumption); try (rewrite channel_bytes by assumption; apply le4_range; assumption).
    destruct (o_distribute o); repeat constructor; lia. }
  clearbody s8.
  assert (G : forall x, x = put s8 98 (o_key o) -> accepted v o x /\ tellable x /\ ~ locked_out v o x).
  { intros x ->. split; [|split].
    - unfold accepted, common_matches, network_matches, marked, put. rewrite !E. split; [|right; left; split; reflexivity].
      unfold marked in M. destruct v; cbn [marker Z.eqb Pos.eqb] in *; auto.
    - apply put_tellable; [exact T8|exact Wkb|lia].
    - intros [_ H]. unfold put in H. cbn [stuck compared] in H. rewrite ?E in H. cbn [Z.eqb Pos.eqb] in H. repeat (destruct H as [H|[_ H]]; [discriminate H|]). destruct H. }
  rewrite stack3_version. apply stop_first. destruct v.
  - stop_write. apply stop_here, G. reflexivity.
  - stop_write. apply stop_here, G. reflexivity.
  - stop_write. apply stop_here, G. reflexivity.
Qed.
Lemma stopped_start v o g s : wf_options o -> marked v s -> tellable s -> ~ locked_out v o s -> ~ accepted v o s ->
  stops (start_znp (version_of v) o g false) s (fun s1 => accepted v o s1 /\ tellable s1 /\ ~ locked_out v o s1).
Proof.
  intros W M T C N. rewrite start_eq. apply stop_seq. eapply win_weaken; [|apply has_done, T]. intros r s' [[c ->] ->].
  apply stop_first. unfold configure. rewrite andb_false_l. apply stop_seq. eapply win_weaken; [|apply needs_true; auto]. intros r s' [-> ->].
  apply stop_first. apply stopped_initialise; assumption.
Qed.
End Link.
