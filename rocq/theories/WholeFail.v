(** * WholeFail: why a start-up fails *)
From Coq Require Import ZifyBool ZifyNat.
From Verif Require Import Base Types Uart Buffalo CmdTable Zpi Api App Machine Life World SpecWire SpecCodec SpecApi SpecMachine SpecWorld Nv StartZnp AppStart SpecStart Host SpecHost Whole SpecWhole
  SpecAppStart SpecWholeFail CodecProofs CodecProofs2 ApiProofs MachineBase MachineInv5 MachineProofs4 StartProofs HostProofs AppStartProofs WorldBase WorldInv WorldProofs WholeInv WholeHost WholeProofs WholeProofs2 WholeParts WholeProofs3 WholeProofs4 WholeProofs5.

Lemma some_eq {A} (a b : A) : Some a = Some b -> b = a.
Proof. congruence. Qed.
(** ** what decoded messages contain *)
Definition kind (t : ptype) (v : value) : Prop :=
  match t with UINT8 | UINT16 => exists z, v = VInt z | IEEEADDR => exists a, v = VEui a | _ => True end.
Lemma read_kind n t len l v r : read_parameter n t len l = Ok (v, r) -> kind t v.
Proof.
  destruct t; cbn [kind]; auto; unfold read_parameter, read_int, read_ieee_addr, bind.
  - destruct (read 1 l) as [[]|]; [|discriminate]. destruct (endswith n "addrmode").
    + unfold bind. destruct (address_mode_of _); [|discriminate]. intro H. injection H as <- _. eauto.
    + intro H. injection H as <- _. eauto.
  - destruct (read 2 l) as [[]|]; [|discriminate]. intro H. injection H as <- _. eauto.
  - destruct (read 8 l) as [[]|]; [|discriminate]. intro H. injection H as <- _. eauto.
Qed.
Lemma read_has n t ps : forall len res l pl, (forall t', In (n, t') ps -> t' = t) -> read_params ps len res l = Ok pl ->
  In (n, t) ps \/ (exists v, dict_get res n = Some v /\ kind t v) -> exists v, dict_get pl n = Some v /\ kind t v.
Proof.
  induction ps as [|[m t0] ps IH]; intros len res l pl Hu Hr H.
  - cbn [read_params] in Hr. injection Hr as <-. destruct H as [[]|H]; exact H.
  - cbn [read_params] in Hr. unfold bind in Hr. destruct (read_parameter m t0 _ l) as [[v rem]|e] eqn:Ep; [|discriminate].
    eapply IH; [intros t' K; apply Hu; right; exact K|exact Hr|].
    destruct (String.eqb_spec n m) as [->|N].
    + right. exists v. rewrite dict_set_get, String.eqb_refl. split; [reflexivity|]. rewrite <- (Hu t0 (or_introl eq_refl)). eapply read_kind, Ep.
    + destruct H as [[E|H]|H]; [congruence|left; exact H|]. right. rewrite dict_set_get. destruct (String.eqb_spec n m); [congruence|exact H].
Qed.
Definition same_type (a b : ptype) : bool :=
  match a, b with UINT8, UINT8 | UINT16, UINT16 | IEEEADDR, IEEEADDR | BUFFER, BUFFER | LIST_UINT8, LIST_UINT8 => true | _, _ => false end.
Lemma same_type_eq a b : same_type a b = true -> a = b.
Proof. destruct a, b; intro H; try reflexivity; discriminate H. Qed.
(** row [cmd] of [sub] has exactly one parameter [n], of type [t] *)
Definition has_param (n : string) (t : ptype) (o : option (list param)) : bool :=
  match o with Some ps => existsb (fun p : param => String.eqb (fst p) n) ps && forallb (fun p : param => negb (String.eqb (fst p) n) || same_type (snd p) t) ps | None => true end.
Definition row_has (ct : command_type) (sub : subsystem) (name n : string) (t : ptype) (s : subsystem) (c : cmd) : bool :=
  negb (sub_eqb s sub && String.eqb (c_name c) name) || has_param n t (if ct_eqb ct SRSP then c_response c else c_request c).
Lemma decoded_has f m n t : from_unpi_frame f = Ok m -> forallb (fun '(s, c) => row_has (z_type m) (z_sub m) (z_cmd m) n t s c) table = true ->
  exists v, dict_get (z_payload m) n = Some v /\ kind t v.
Proof.
  intros H T. destruct (decoded_def f m H) as (cs & c & Hd & Hc & Hn & Hs & Hr).
  assert (K : row_has (z_type m) (z_sub m) (z_cmd m) n t (z_sub m) c = true) by (apply (table_sweep (row_has (z_type m) (z_sub m) (z_cmd m) n t)) with (cs := cs); assumption).
  unfold row_has in K. rewrite Hn, String.eqb_refl in K. assert (E : sub_eqb (z_sub m) (z_sub m) = true) by (unfold sub_eqb; apply Z.eqb_refl). rewrite E in K. cbn [andb negb orb] in K.
  unfold select_params in Hs.
  assert (P : has_param n t (Some (z_params m)) = true).
  { destruct (ct_eqb (z_type m) SRSP); unfold Zpi.key in Hs; [destruct (c_response c) as [ps|]|destruct (c_request c) as [ps|]]; try discriminate Hs; injection Hs as <-; exact K. }
  cbn [has_param] in P. apply andb_true_iff in P as [P1 P2]. rewrite forallb_forall in P2.
  apply existsb_exists in P1 as ([n' t'] & I1 & E1). cbn [fst] in E1. apply String.eqb_eq in E1. subst n'.
  assert (U : forall t', In (n, t') (z_params m) -> t' = t).
  { intros t0 I0. specialize (P2 _ I0). cbn [fst snd] in P2. rewrite String.eqb_refl in P2. apply same_type_eq, P2. }
  unfold read_parameters in Hr. eapply read_has; [exact U|exact Hr|left]. rewrite <- (U t' I1). exact I1.
Qed.

(** ** what a start-up relies on *)
Definition good (y : act) : Prop :=
  match y with
  | ARequest sub cmd _ _ (Some (Ok m)) => cmd <> "resetReq" -> cmd <> "systemReset" -> exists f, from_unpi_frame f = Ok m /\ z_type m = SRSP /\ z_sub m = sub /\ z_cmd m = cmd
  | AAwait w (Ok m) => exists f, from_unpi_frame f = Ok m
  | _ => True
  end.
Definition blame (tr : list act) (e : exn) : Prop := exists pre y, tr = pre ++ [y] /\ failed y e.
Lemma blame_app t1 t2 e : blame t2 e -> blame (t1 ++ t2) e.
Proof. intros (p & y & -> & F). exists (t1 ++ p), y. split; [apply app_assoc|exact F]. Qed.
Lemma blame_cons y t e : blame t e -> blame (y :: t) e.
Proof. apply (blame_app [y]). Qed.
Lemma blame_last y e : failed y e -> blame [y] e.
Proof. intro F. exists [], y. split; [reflexivity|exact F]. Qed.
(** [p] returns only what [P] says, and raises only what is to blame on its last act, or what [E] says *)
Definition fair {A} (p : prog A) (P : A -> Prop) (E : exn -> Prop) : Prop :=
  forall tr f, goes p tr f -> Forall good tr -> match f with Returned a => P a | Raised e => blame tr e \/ E e | Interrupted => True end.
Definition none (e : exn) : Prop := False.
Definition assertion (e : exn) : Prop := e = AssertionError.

Lemma goes_app {A B} (m : prog A) (f : A -> prog B) tr fn : goes (StartZnp.seq m f) tr fn ->
  (exists t1 t2 a, tr = t1 ++ t2 /\ goes m t1 (Returned a) /\ goes (f a) t2 fn) \/
  (exists e, goes m tr (Raised e) /\ fn = Raised e) \/ goes m tr Interrupted /\ fn = Interrupted.
Proof.
  revert tr fn. induction m as [a|e|sub cmd d x k IH|w t k IH|w k IH|sub cmd d k IH]; intros tr fn H; cbn [StartZnp.seq] in H.
  - left. exists [], tr, a. split; [reflexivity|]. split; [constructor|exact H].
  - inversion H; subst; [right; right; split; [constructor|reflexivity]|]. right; left. exists e. split; [constructor|reflexivity].
  - inversion H; subst; [right; right; split; [constructor|reflexivity]..|].
    match goal with K : goes (StartZnp.seq (k ?r) f) _ _ |- _ => apply IH in K as [(t1 & t2 & a & -> & G1 & G2)|[(e & G & ->)|[G ->]]] end.
    + left. eexists (_ :: t1), t2, a. split; [reflexivity|]. split; [constructor; assumption|exact G2].
    + right; left. exists e. split; [constructor; assumption|reflexivity].
    + right; right. split; [constructor; assumption|reflexivity].
  - inversion H; subst; [right; right; split; [constructor|reflexivity]|].
    match goal with K : goes (StartZnp.seq (k ?r) f) _ _ |- _ => apply IH in K as [(t1 & t2 & a & -> & G1 & G2)|[(e & G & ->)|[G ->]]] end.
    + left. eexists (_ :: t1), t2, a. split; [reflexivity|]. split; [constructor; assumption|exact G2].
    + right; left. exists e. split; [constructor; assumption|reflexivity].
    + right; right. split; [constructor; assumption|reflexivity].
  - inversion H; subst; [right; right; split; [constructor|reflexivity]|].
    match goal with K : goes (StartZnp.seq (k ?r) f) _ _ |- _ => apply IH in K as [(t1 & t2 & a & -> & G1 & G2)|[(e & G & ->)|[G ->]]] end.
    + left. eexists (_ :: t1), t2, a. split; [reflexivity|]. split; [constructor; assumption|exact G2].
    + right; left. exists e. split; [constructor; assumption|reflexivity].
    + right; right. split; [constructor; assumption|reflexivity].
  - inversion H; subst; [right; right; split; [constructor|reflexivity]|].
    match goal with K : goes (StartZnp.seq k f) _ _ |- _ => apply IH in K as [(t1 & t2 & a & -> & G1 & G2)|[(e & G & ->)|[G ->]]] end.
    + left. eexists (_ :: t1), t2, a. split; [reflexivity|]. split; [constructor; assumption|exact G2].
    + right; left. exists e. split; [constructor; assumption|reflexivity].
    + right; right. split; [constructor; assumption|reflexivity].
Qed.
Lemma goes_attempt {A} (m : prog A) h tr fn : goes (attempt m h) tr fn ->
  (exists t1 t2 e q, tr = t1 ++ t2 /\ goes m t1 (Raised e) /\ h e = Some q /\ goes q t2 fn) \/
  (exists e, goes m tr (Raised e) /\ h e = None /\ fn = Raised e) \/ (exists a, goes m tr (Returned a) /\ fn = Returned a) \/ fn = Interrupted.
Proof.
  revert tr fn. induction m as [a|e|sub cmd d x k IH|w t k IH|w k IH|sub cmd d k IH]; intros tr fn H; cbn [attempt] in H.
  - inversion H; subst; [do 3 right; reflexivity|]. do 2 right; left. exists a. split; [constructor|reflexivity].
  - destruct (h e) as [q|] eqn:Eh.
    + left. exists [], tr, e, q. split; [reflexivity|]. split; [constructor|]. split; [exact Eh|exact H].
    + inversion H; subst; [do 3 right; reflexivity|]. right; left. exists e. split; [constructor|]. split; [exact Eh|reflexivity].
  - inversion H; subst; [do 3 right; reflexivity|do 3 right; reflexivity|].
    match goal with K : goes (attempt (k ?r) h) _ _ |- _ => apply IH in K as [(t1 & t2 & e & q & -> & G1 & E & G2)|[(e & G & E & ->)|[(a & G & ->)| ->]]] end.
    + left. eexists (_ :: t1), t2, e, q. split; [reflexivity|]. split; [constructor; assumption|]. split; [exact E|exact G2].
    + right; left. exists e. split; [constructor; assumption|]. split; [exact E|reflexivity].
    + right; right; left. exists a. split; [constructor; assumption|reflexivity].
    + do 3 right; reflexivity.
  - inversion H; subst; [do 3 right; reflexivity|].
    match goal with K : goes (attempt (k ?r) h) _ _ |- _ => apply IH in K as [(t1 & t2 & e & q & -> & G1 & E & G2)|[(e & G & E & ->)|[(a & G & ->)| ->]]] end.
    + left. eexists (_ :: t1), t2, e, q. split; [reflexivity|]. split; [constructor; assumption|]. split; [exact E|exact G2].
    + right; left. exists e. split; [constructor; assumption|]. split; [exact E|reflexivity].
    + right; right; left. exists a. split; [constructor; assumption|reflexivity].
    + do 3 right; reflexivity.
  - inversion H; subst; [do 3 right; reflexivity|].
    match goal with K : goes (attempt (k ?r) h) _ _ |- _ => apply IH in K as [(t1 & t2 & e & q & -> & G1 & E & G2)|[(e & G & E & ->)|[(a & G & ->)| ->]]] end.
    + left. eexists (_ :: t1), t2, e, q. split; [reflexivity|]. split; [constructor; assumption|]. split; [exact E|exact G2].
    + right; left. exists e. split; [constructor; assumption|]. split; [exact E|reflexivity].
    + right; right; left. exists a. split; [constructor; assumption|reflexivity].
    + do 3 right; reflexivity.
  - inversion H; subst; [do 3 right; reflexivity|].
    match goal with K : goes (attempt k h) _ _ |- _ => apply IH in K as [(t1 & t2 & e & q & -> & G1 & E & G2)|[(e & G & E & ->)|[(a & G & ->)| ->]]] end.
    + left. eexists (_ :: t1), t2, e, q. split; [reflexivity|]. split; [constructor; assumption|]. split; [exact E|exact G2].
    + right; left. exists e. split; [constructor; assumption|]. split; [exact E|reflexivity].
    + right; right; left. exists a. split; [constructor; assumption|reflexivity].
    + do 3 right; reflexivity.
Qed.
Lemma fair_ret {A} (a : A) (P : A -> Prop) E : P a -> fair (DRet a) P E.
Proof. intros H tr f G _. inversion G; subst; auto. Qed.
Lemma fair_raise {A} e (P : A -> Prop) (E : exn -> Prop) : E e -> fair (DRaise e) P E.
Proof. intros H tr f G _. inversion G; subst; auto. Qed.
Lemma fair_seq {A B} (m : prog A) (f : A -> prog B) P Q E : fair m P E -> (forall a, P a -> fair (f a) Q E) -> fair (StartZnp.seq m f) Q E.
Proof.
  intros H1 H2 tr fn G F. destruct (goes_app _ _ _ _ G) as [(t1 & t2 & a & -> & G1 & G2)|[(e & G1 & ->)|[_ ->]]]; [| |exact I].
  - apply Forall_app in F as [F1 F2]. specialize (H2 a (H1 _ _ G1 F1) _ _ G2 F2). destruct fn; auto. destruct H2 as [H2|H2]; [left; apply blame_app, H2|right; exact H2].
  - exact (H1 _ _ G1 F).
Qed.
Lemma fair_attempt {A} (m : prog A) h P (E E' : exn -> Prop) : fair m P E -> (forall e q, h e = Some q -> fair q P E') -> (forall e, h e = None -> E e -> E' e) ->
  fair (attempt m h) P E'.
Proof.
  intros H1 H2 H3 tr fn G F. destruct (goes_attempt _ _ _ _ G) as [(t1 & t2 & e & q & -> & G1 & Eh & G2)|[(e & G1 & Eh & ->)|[(a & G1 & ->)| ->]]]; [| | |exact I].
  - apply Forall_app in F as [F1 F2]. specialize (H2 e q Eh _ _ G2 F2). destruct fn; auto. destruct H2 as [H2|H2]; [left; apply blame_app, H2|right; exact H2].
  - destruct (H1 _ _ G1 F) as [B|B]; [left; exact B|right; apply (H3 e Eh B)].
  - exact (H1 _ _ G1 F).
Qed.
Lemma fair_weaken {A} (p : prog A) (P Q : A -> Prop) (E E' : exn -> Prop) : fair p P E -> (forall a, P a -> Q a) -> (forall e, E e -> E' e) -> fair p Q E'.
Proof. intros H H1 H2 tr f G F. specialize (H tr f G F). destruct f; auto. destruct H; auto. Qed.
(** a request other than ping *)
Definition response (sub : subsystem) (cmd : string) (m : zpi) : Prop :=
  exists f, from_unpi_frame f = Ok m /\ z_type m = SRSP /\ z_sub m = sub /\ z_cmd m = cmd.
Lemma fair_request sub cmd d x E : String.eqb cmd "ping" = false -> String.eqb cmd "resetReq" = false -> String.eqb cmd "systemReset" = false -> fair (request sub cmd d x) (response sub cmd) E.
Proof.
  intros N N' N2 tr f G F. unfold request in G. inversion G; subst; try exact I. inversion F; subst.
  destruct r as [m|e]; cbn [of_result] in *.
  - match goal with K : goes (DRet m) _ _ |- _ => inversion K; subst; [exact I|] end. match goal with K : good _ |- _ => apply K end; apply String.eqb_neq; assumption.
  - match goal with K : goes (DRaise e) _ _ |- _ => inversion K; subst; [exact I|] end. left. apply blame_last. cbn [failed]. destruct e; try reflexivity. rewrite N. destruct (sub_eqb sub SYS); reflexivity.
Qed.
Lemma fair_reset E : fair soft_reset (fun _ => True) E.
Proof.
  intros tr f G F. unfold soft_reset, request in G. inversion G; subst; try exact I.
  destruct r as [m|e]; cbn [of_result] in *.
  - match goal with K : goes (DRet m) _ _ |- _ => inversion K; subst; exact I end.
  - match goal with K : goes (DRaise e) _ _ |- _ => inversion K; subst; [exact I|] end. left. apply blame_last. cbn [failed]. destruct e; reflexivity.
Qed.
Lemma fair_field m n t E : (exists v, dict_get (z_payload m) n = Some v /\ kind t v) -> fair (field m n) (fun v => dict_get (z_payload m) n = Some v /\ kind t v) E.
Proof. intros (v & H & K). unfold field. rewrite H. apply fair_ret. auto. Qed.
Lemma response_has sub cmd m n t : response sub cmd m -> forallb (fun '(s, c) => row_has SRSP sub cmd n t s c) table = true ->
  exists v, dict_get (z_payload m) n = Some v /\ kind t v.
Proof. intros (f & H & <- & <- & <-) T. exact (decoded_has f m n t H T). Qed.
Ltac has := eapply response_has; [eassumption|vm_compute; reflexivity].
Ltac ask P := eapply fair_seq; [apply fair_request; reflexivity|]; intros ? P.
Lemma fair_validate i sub cmd x : sub = SYS /\ cmd = "osalNvRead" \/ sub = SAPI /\ cmd = "readConfiguration" -> fair (validate_item i sub cmd x) (fun _ => True) assertion.
Proof.
  intro H. unfold validate_item. destruct H as [[-> ->]|[-> ->]]; ask P;
    (eapply fair_seq; [apply (fair_field _ "value" BUFFER); has|]; intros v _; destruct (value_eqb _ _); [apply fair_ret; exact I|apply fair_raise; reflexivity]).
Qed.
Ltac val := apply fair_validate; tauto.
Ltac step_with H := eapply fair_seq; [apply H|]; intros ? _.
Lemma fair_pan v o : fair (validate_pan v o) (fun _ => True) assertion.
Proof.
  unfold validate_pan. apply fair_attempt with (E := assertion).
  - eapply fair_seq; [val|]. intros _ _. val.
  - intros e q. destruct e; try discriminate. intro H. apply some_eq in H. subst q. destruct (stack3 v); [|apply fair_ret; exact I]. ask P.
    eapply fair_seq; [apply (fair_field _ "value" BUFFER); has|]. intros w _. destruct (value_eqb _ _); [apply fair_ret; exact I|apply fair_raise; reflexivity].
  - intros e _ H. exact H.
Qed.
Lemma fair_needs v o : fair (needs_init v o) (fun _ => True) none.
Proof.
  unfold needs_init. apply fair_attempt with (E := assertion).
  - do 3 (eapply fair_seq; [val|]; intros _ _). eapply fair_seq with (P := fun _ => True); [destruct (v =? zStack3x0); val|]. intros _ _.
    eapply fair_seq; [apply fair_pan|]. intros _ _. apply fair_ret. exact I.
  - intros e q. destruct e; try discriminate. intro H. injection H as <-. apply fair_ret. exact I.
  - intros e H ->. discriminate H.
Qed.
Lemma fair_has v : fair (has_configured v) (fun _ => True) none.
Proof.
  unfold has_configured. apply fair_attempt with (E := assertion).
  - eapply fair_seq; [val|]. intros _ _. apply fair_ret. exact I.
  - intros e q. destruct e; try discriminate; intro H; injection H as <-; apply fair_ret; exact I.
  - intros e H ->. discriminate H.
Qed.
Lemma fair_listen m t (P : matcher * Z -> Prop) E : P (m, t) -> fair (listen m t) P E.
Proof.
  intros H tr f G _. unfold listen in G. inversion G; subst; [exact I|]. match goal with K : goes (DRet _) _ _ |- _ => inversion K; subst; auto end.
Qed.
Lemma fair_await w E : fair (await w) (fun m => exists f, from_unpi_frame f = Ok m) E.
Proof.
  intros tr f G F. unfold await in G. inversion G; subst; [exact I|]. inversion F; subst. destruct r as [m'|e]; cbn [of_result] in *.
  - match goal with K : goes (DRet _) _ _ |- _ => inversion K; subst; [exact I|] end. assumption.
  - match goal with K : goes (DRaise _) _ _ |- _ => inversion K; subst; [exact I|] end. left. apply blame_last. left. reflexivity.
Qed.
Lemma fair_started m t E : m_cmd m = "stateChangeInd" -> fair (await_started (m, t)) (fun _ => True) E.
Proof.
  intros C tr f G F. unfold await_started, await in G. cbn [attempt] in G. inversion G; subst; [exact I|]. destruct r as [m'|e]; cbn [of_result attempt] in *.
  - match goal with K : goes (DRet _) _ _ |- _ => inversion K; subst; exact I end.
  - destruct f as [?|e0|]; auto. left.
    assert (N : tr0 = [] /\ (e0 = e \/ e0 = GenericException /\ e <> CancelledError)).
    { destruct e; (match goal with K : goes (DRaise _) _ _ |- _ => inversion K; subst end); (split; [reflexivity|]); first [left; reflexivity|right; split; [reflexivity|discriminate]]. }
    destruct N as [-> N]. apply blame_last. cbn [failed]. destruct N as [->|[-> N]]; auto.
Qed.
Lemma fair_boot : fair StartZnp.boot (fun _ => True) none.
Proof.
  unfold StartZnp.boot. ask P. eapply fair_seq; [apply (fair_field _ "devicestate" UINT8); has|]. intros v _. destruct (value_eqb _ _); [apply fair_ret; exact I|].
  eapply fair_seq; [apply fair_listen with (P := fun _ => True); exact I|]. intros w _. ask Q. eapply fair_seq; [apply fair_await|]. intros ? _. apply fair_ret. exact I.
Qed.
Lemma fair_loop y es : (exists v, dict_get (z_payload y) "activeeplist" = Some v) -> fair (register_loop y es) (fun _ => True) none.
Proof.
  intros (v & H). induction es as [|e es IH]; cbn [register_loop]; [apply fair_ret; exact I|].
  eapply fair_seq; [apply (fair_field _ "activeeplist" LIST_UINT8); exists v; split; [exact H|exact I]|]. intros l _.
  eapply fair_seq with (P := fun _ => True); [|intros _ _; exact IH]. destruct (is_in _ l); [apply fair_ret; exact I|]. ask Q. apply fair_ret. exact I.
Qed.
Lemma loop_missing y : dict_get (z_payload y) "activeeplist" = None -> register_loop y endpoints = DRaise KeyError.
Proof. intro H. unfold endpoints. cbn [register_loop]. unfold field. rewrite H. reflexivity. Qed.
Lemma match_fields m r : waiter_match m r = Ok true -> z_type r = m_type m /\ z_sub r = m_sub m /\ z_cmd r = m_cmd m.
Proof.
  unfold waiter_match. destruct (ct_eqb_spec (m_type m) (z_type r)); [|discriminate]. destruct (sub_eqb_spec (m_sub m) (z_sub r)); [|discriminate].
  destruct (String.eqb_spec (m_cmd m) (z_cmd r)); [|discriminate]. auto.
Qed.
Lemma fair_register : fair register_endpoints (fun _ => True) none.
Proof.
  unfold register_endpoints. intros tr f G F. apply goes_app in G as [(t1 & t2 & w & -> & G1 & G2)|[(e & G1 & ->)|[_ ->]]]; [| |exact I].
  2: { exfalso. unfold listen in G1. inversion G1; subst. match goal with K : goes (DRet _) _ _ |- _ => inversion K end. }
  assert (w = (mk_matcher AREQ ZDO "activeEpRsp" [], Timeouts_default)) as ->.
  { unfold listen in G1. inversion G1; subst. match goal with K : goes (DRet _) _ _ |- _ => inversion K; subst; reflexivity end. }
  apply Forall_app in F as [_ F]. unfold StartZnp.spawn, await in G2. cbn [StartZnp.seq] in G2. inversion G2; subst; [exact I|]. inversion F; subst.
  match goal with K : goes (DAwait _ _) _ _ |- _ => inversion K; subst; [exact I|] end.
  match goal with K : Forall good (_ :: _) |- _ => inversion K; subst end.
  match goal with K : goes _ ?t f, FF : Forall good ?t |- context [AAwait _ r :: ?t] => rename K into G3; rename FF into F3 end.
  destruct r as [y|e].
  - change (goes (register_loop y endpoints) tr0 f) in G3. destruct (dict_get (z_payload y) "activeeplist") as [v|] eqn:Ey.
    + pose proof (fair_loop y endpoints (ex_intro _ v Ey) _ _ G3 F3) as B.
      destruct f; auto. destruct B as [B|B]; [left|destruct B]. apply blame_app, blame_cons, blame_cons, B.
    + rewrite (loop_missing y Ey) in G3. inversion G3; subst; [exact I|].
      left. apply blame_app, blame_cons, blame_last. split; [reflexivity|]. split; [reflexivity|]. intro M. apply match_fields in M as (M1 & M2 & M3). cbn [m_type m_sub m_cmd] in *.
      match goal with K : good (AAwait _ (Ok y)) |- _ => destruct K as [g Kg] end.
      destruct (decoded_has g y "activeeplist" LIST_UINT8 Kg) as (v & Hv & _); [rewrite M1, M2, M3; vm_compute; reflexivity|congruence].
  - change (goes (@DRaise unit e) tr0 f) in G3. inversion G3; subst; [exact I|]. left. apply blame_app, blame_cons, blame_last. left. reflexivity.
Qed.

Lemma fair_write i : fair (nv_write i) (fun _ => True) none.
Proof. eapply fair_weaken with (E := none); [apply fair_request; reflexivity|auto|auto]. Qed.
Lemma fair_initialise v o : fair (initialise v o) (fun _ => True) none.
Proof.
  unfold initialise. eapply fair_seq; [apply fair_reset|]. intros _ _. eapply fair_seq; [apply fair_write|]. intros _ _. eapply fair_seq; [apply fair_reset|]. intros _ _.
  do 6 (eapply fair_seq; [apply fair_write|]; intros _ _).
  eapply fair_seq with (P := fun _ => True).
  - destruct (stack3 v).
    + eapply fair_seq; [apply fair_write|]. intros _ _. ask P1. ask P2. eapply fair_seq; [apply fair_listen with (P := fun w => m_cmd (fst w) = "stateChangeInd"); reflexivity|].
      intros [w t] Hw. ask P3. eapply fair_seq; [apply fair_started, Hw|]. intros _ _. eapply fair_weaken with (E := none); [apply fair_request; reflexivity|auto|auto].
    + ask P1. apply fair_write.
  - intros _ _. ask P1. eapply fair_seq; [apply fair_write|]. intros _ _. apply fair_ret. exact I.
Qed.
Lemma fair_group e g : fair (add_to_group e g) (fun _ => True) none.
Proof.
  unfold add_to_group. ask P. eapply fair_seq; [apply (fair_field _ "status" UINT8); has|]. intros v _. destruct (value_eqb _ _); [|apply fair_ret; exact I].
  ask Q. apply fair_ret. exact I.
Qed.
Lemma fair_start v o g : fair (start_znp v o g false) (fun _ => True) none.
Proof.
  unfold start_znp. eapply fair_seq; [apply fair_has|]. intros cf _. eapply fair_seq with (P := fun _ => True).
  - unfold configure. cbn [andb]. eapply fair_seq; [apply fair_needs|]. intros n _. destruct n; [|apply fair_ret; exact I].
    eapply fair_seq; [apply fair_initialise|]. intros _ _. apply fair_ret. exact I.
  - intros r _. eapply fair_seq; [apply fair_boot|]. intros _ _. eapply fair_seq; [apply fair_register|]. intros _ _. eapply fair_seq; [apply fair_group|]. intros _ _.
    eapply fair_seq with (P := fun _ => True); [|intros _ _; apply fair_ret; exact I]. destruct r; try (apply fair_ret; exact I).
    eapply fair_seq; [apply fair_write|]. intros _ _. apply fair_ret. exact I.
Qed.
(** ** the parts *)
Lemma fair_ping : fair part_ping (fun _ => True) none.
Proof.
  unfold part_ping, ping, request. cbn [attempt StartZnp.seq]. intros tr f G F. inversion G; subst; try exact I.
  destruct r as [m|e]; cbn [of_result attempt StartZnp.seq] in *.
  - match goal with K : goes (DRet _) _ _ |- _ => inversion K; subst; exact I end.
  - assert (N : f = Interrupted \/ tr0 = [] /\ f = Raised (match e with CommandError _ => GenericException | _ => e end)).
    { destruct e; cbn [StartZnp.seq] in *; (match goal with K : goes (DRaise _) _ _ |- _ => inversion K; subst end); auto. }
    destruct N as [->|[-> ->]]; [exact I|]. left. apply blame_last. destruct e; reflexivity.
Qed.
Lemma fair_version : fair part_version (fun _ => True) none.
Proof.
  unfold part_version, ask_version. ask P. eapply fair_seq; [apply (fair_field _ "product" UINT8); has|]. intros v (_ & z & ->). apply fair_ret. exact I.
Qed.
Lemma fair_form v c : fair (part_form v c) (fun _ => True) none.
Proof. unfold part_form. eapply fair_seq; [apply fair_start|]. intros r _. apply fair_ret. exact I. Qed.
Lemma fair_device : fair part_device (fun _ => True) none.
Proof.
  unfold part_device. ask P. eapply fair_seq; [apply (fair_field _ "ieeeaddr" IEEEADDR); has|]. intros i (_ & b & ->).
  eapply fair_seq; [apply (fair_field _ "shortaddr" UINT16); has|]. intros n (_ & z & ->). apply fair_ret. exact I.
Qed.
Lemma fair_part c auto w ds p : so_far c auto w ds p -> fair p (fun _ => True) none.
Proof.
  intro H. destruct (far_cases _ _ _ _ _ H) as [->|[->|[(z & ->)| ->]]]; [apply fair_ping|apply fair_version|apply fair_form|apply fair_device].
Qed.

(** ** the attempt *)
Lemma command_names sub cmd d o : from_command sub cmd d = Ok o -> z_sub o = sub /\ z_cmd o = cmd.
Proof.
  unfold from_command, next_cmd, bind. destruct (definition sub) as [cs|]; [|discriminate]. destruct (find _ cs) as [c|] eqn:E; [|discriminate].
  destruct (select_params _ c); [|discriminate]. intro H. injection H as <-. apply find_some in E as [_ E]. apply String.eqb_eq in E. auto.
Qed.
Lemma evidence_good s t y : Received s -> evidence t y (s_log s) -> good y.
Proof.
  intros R H. destruct y as [sub cmd d x [[m|e]|]| |w [m|e]|]; cbn [evidence good] in *; auto.
  intros N1 N2. destruct H as (o & at_ & bs & lb & Fo & _ & (la & lc & E & _) & Hm & K).
  destruct (command_names _ _ _ _ Fo) as [Es Ec]. destruct K as [[_ (K1 & K2 & K3)]|[_ [[[_ K]|[_ K]] _]]]; [|congruence..].
  destruct (R m) as [f Hf]; [|exists f; split; [exact Hf|]; split; [exact K1|]; split; congruence].
  rewrite E. apply in_or_app. right. right. apply in_or_app. left. exact Hm.
Qed.
Lemma leg_good w p a l pl ws : Leg w p a l pl ws -> Forall good (map snd l).
Proof.
  intros (s & A & G). apply Forall_forall. intros y Hy. apply in_map_iff in Hy as ([t z] & <- & Hi). cbn [snd].
  eapply evidence_good; [apply (V_received s), (G_api _ _ G)|apply (G_done _ _ G t z)]. unfold doings. cbn [h_trace]. apply in_or_app. left. exact Hi.
Qed.
Lemma leg_raised w p0 a l e ws : Leg w p0 a l (Ready (DRaise e)) ws -> goes p0 (map snd l) (Raised e).
Proof. intros (s & A & G). pose proof (G_path _ _ G) as P. cbn in P. rewrite <- (app_nil_r (map snd l)). apply P. constructor. Qed.
Lemma unknown_product z : Whole.known_product z = false -> ~ SpecAppStart.known_product z.
Proof. intros H [v ->]. destruct v; discriminate H. Qed.
Lemma failed_why c x t auto ds e at_ : xreachable c x -> In (XOver t auto ds (Err e) at_) (x_log x) ->
  exists ds' a u y, ds = ds' ++ [(a, u, y)] /\ failed y e.
Proof.
  intros R H. apply xreach_inv in R. destruct (I_over c x R t auto ds (Err e) at_ H) as [O _]. remember (Err e) as r0 eqn:Er.
  destruct O as [ds p a l ws e' F L|a1 ds1 a2 ds2 z D1 D2 U|ds a ds' i n F D W]; try discriminate Er; injection Er as <-.
  - destruct (fair_part _ _ _ _ _ F _ _ (leg_raised _ _ _ _ _ _ L) (leg_good _ _ _ _ _ _ L)) as [(pre & y & E & B)|[]].
    apply map_eq_app in E as (l1 & l2 & -> & _ & E). destruct l2 as [|[u y'] [|]]; try discriminate E. cbn [map snd] in E. injection E as ->.
    exists (ds ++ deeds_of a l1), a, u, y. split; [|exact B]. unfold deeds_of. rewrite map_app, app_assoc. reflexivity.
  - destruct (done_version _ _ _ _ D2) as (u2 & m2 & -> & Ez). exists ds1, a2, u2. eexists. split; [reflexivity|]. cbn [failed].
    split; [reflexivity|]. split; [reflexivity|]. split; [reflexivity|]. exists z. split; [exact Ez|apply unknown_product, U].
Qed.
Lemma fulfilled_not y e : fulfilled y -> ~ failed y e.
Proof.
  destruct y as [sub cmd d x [[m|e']|]| |w [m|e']|]; cbn [fulfilled failed]; auto.
  - intros H (_ & -> & -> & p & Hp & N). destruct (H eq_refl eq_refl) as [v Hv]. apply N. exists v. congruence.
  - intros (z & E & M) (_ & _ & N). apply N. congruence.
  - intros (z & E & _). discriminate E.
Qed.
Lemma fulfilled_well c x t auto ds r at_ : xreachable c x -> In (XOver t auto ds r at_) (x_log x) -> Forall fulfilled (map snd ds) -> r = Ok tt.
Proof.
  intros R H F. destruct r as [[]|e]; [reflexivity|]. exfalso. destruct (failed_why _ _ _ _ _ _ _ R H) as (ds' & a & u & y & -> & B).
  rewrite map_app in F. apply Forall_app in F as [_ F]. cbn [map snd] in F. inversion F as [|? ? K _]. exact (fulfilled_not y e K B).
Qed.
