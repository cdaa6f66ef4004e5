(** * FormProofs: forming the network by itself *)
From Coq Require Import ZifyBool ZifyNat.
From Verif Require Import Base Types Uart Buffalo CmdTable Zpi Api App SpecWire SpecCodec SpecMachine Nv StartZnp SpecStart StartExec
  AppStart Form SpecAppStart StartProofs StartProofs2 StartProofs3 StartProofs4 StartProofs5 StartProofs6 StartProofs7 StartProofs8 StartProofs9 StartSend CodecProofs CodecProofs2 ApiProofs AppProofs
  AppStartProofs Host SpecHost SpecEnds HostEnds.

(** ** putting executions together *)
Lemma seq_returned {A B} (p : prog A) (g : A -> prog B) t1 t2 a f : runs p t1 (Returned a) -> runs (g a) t2 f -> runs (seq p g) (t1 ++ t2) f.
Proof.
  intro H. remember (Returned a) as x eqn:E. revert E. induction H; intros E K; try discriminate E; cbn [seq app].
  - injection E as ->. exact K.
  - apply runs_request; [assumption|]. auto.
  - apply runs_listen. auto.
  - apply runs_await; [assumption|]. auto.
  - apply runs_spawn. auto.
Qed.
Lemma seq_raised {A B} (p : prog A) (g : A -> prog B) t e : runs p t (Raised e) -> runs (seq p g) t (Raised e).
Proof.
  intro H. remember (Raised e) as x eqn:E. revert E. induction H; intro E; try discriminate E; cbn [seq].
  - injection E as ->. constructor.
  - apply runs_request; [assumption|]. auto.
  - apply runs_listen. auto.
  - apply runs_await; [assumption|]. auto.
  - apply runs_spawn. auto.
Qed.
Lemma seq_interrupted {A B} (p : prog A) (g : A -> prog B) t : runs p t Interrupted -> runs (seq p g) t Interrupted.
Proof.
  intro H. remember Interrupted as x eqn:E. revert E. induction H; intro E; try discriminate E; cbn [seq].
  - constructor.
  - constructor.
  - apply runs_request; [assumption|]. auto.
  - apply runs_listen. auto.
  - apply runs_await; [assumption|]. auto.
  - apply runs_spawn. auto.
Qed.

(** ** the beginning of a start-up *)
Definition heads (m n : zpi) (v : firmware) : Prop :=
  answer_possible [0] (Ok m) /\ answer_possible [0] (Ok n) /\ dict_get (z_payload n) "product" = Some (VInt (version_of v)).
Definition pre m n : list act := [ping_act (Some (Ok m)); version_act (Some (Ok n))].
Definition after (auto : bool) (c : nwk_config) (devs : devices) (p : Z) : prog ready := let! status := form auto p c in finish devs p status.
Lemma head_join auto c devs m n v t f : heads m n v -> runs (after auto c devs (version_of v)) t f -> runs (app_startup auto c devs) (pre m n ++ t) f.
Proof.
  intros (H1 & H2 & H3) R. rewrite app_eq. unfold ping, request, ask_version, request. cbn [attempt seq pre app]. apply runs_request; [exact H1|].
  cbn [of_result attempt seq]. apply runs_request; [exact H2|]. cbn [of_result seq]. unfold field. rewrite H3. cbn [seq]. rewrite check_known. cbn [seq]. exact R.
Qed.
Lemma head_split auto c devs tr rd : runs (app_startup auto c devs) tr (Returned rd) ->
  exists m n v t, tr = pre m n ++ t /\ heads m n v /\ runs (after auto c devs (version_of v)) t (Returned rd).
Proof.
  rewrite app_eq. intro H. apply runs_seq_ret in H as (t1 & t2 & m & -> & H1 & H2).
  apply ping_inv in H1 as [[-> H]|[[-> H]|(r & -> & P & [H|H])]]; try discriminate H. destruct r as [m'|]; [|discriminate H]. injection H as ->.
  apply runs_seq_ret in H2 as (t1 & t3 & n & -> & H1 & H2).
  apply request_inv in H1 as [[-> H]|[[-> H]|(r & -> & Q & [H|H])]]; try discriminate H. destruct r as [n'|]; [|discriminate H]. injection H as ->.
  apply runs_seq_ret in H2 as (t1 & t2 & p & -> & H1 & H2). apply runs_field in H1 as [-> [H|H]]; [discriminate H|].
  destruct (dict_get (z_payload n') "product") as [p'|] eqn:E; [|discriminate H]. injection H as <-.
  apply runs_seq_ret in H2 as (t1 & t3 & z & -> & H1 & H2). destruct p as [z'| | | |]; cbn [check_product] in H1; try (apply runs_raise_inv in H1 as [_ [H|H]]; discriminate H).
  destruct (known_dec z') as [[v ->]|[_ K]]; [|rewrite K in H1; apply runs_raise_inv in H1 as [_ [H|H]]; discriminate H].
  rewrite (check_known v) in H1 || idtac.
  assert (z = version_of v /\ t1 = []) as [-> ->].
  { destruct v; cbn in H1; apply runs_ret_inv in H1 as [-> [H|H]]; try discriminate H; injection H as ->; auto. }
  exists m', n', v, t3. split; [reflexivity|]. split; [split; [exact P|split; [exact Q|exact E]]|]. exact H2.
Qed.
(** ** the end *)
Lemma finish_other devs p st st' t rd : runs (finish devs p st) t (Returned rd) ->
  runs (finish devs p st') t (Returned (mk_ready (rd_product rd) (rd_limit rd) (rd_ieee rd) (rd_nwk rd) (rd_devices rd) st')).
Proof.
  intro H. pose proof H as H0. apply finish_inv in H as [_ K]. destruct (K rd eq_refl) as (m & -> & E1 & E2 & E3 & E4 & E5 & _).
  assert (P : answer_possible [0] (Ok m)) by (unfold finish, coordinator, request in H0; cbn [seq] in H0; inversion H0; assumption).
  unfold finish, coordinator, request. cbn [seq]. apply runs_request; [exact P|]. cbn [of_result seq]. unfold field. rewrite E1. cbn [seq]. rewrite E2. cbn [seq].
  rewrite E3, E4, E5. constructor.
Qed.

(** ** forming by itself and forming in a start-up *)
Definition formed (rd : ready) (r : option start_result) : ready := mk_ready (rd_product rd) (rd_limit rd) (rd_ieee rd) (rd_nwk rd) (rd_devices rd) r.
Lemma form_later c devs tr rd t2 g : runs (app_startup false c devs) tr (Returned rd) -> runs (form_network (rd_product rd) c) t2 g ->
  exists before info, tr = before ++ [info] /\
    match g with
    | Returned r => runs (app_startup true c devs) (before ++ t2 ++ [info]) (Returned (formed rd (Some r)))
    | Raised e => runs (app_startup true c devs) (before ++ t2) (Raised e)
    | Interrupted => runs (app_startup true c devs) (before ++ t2) Interrupted
    end.
Proof.
  intros H R. apply head_split in H as (m & n & v & t & -> & Hd & H). unfold after, form in H. cbn [seq] in H.
  pose proof (finish_inv _ _ _ _ _ H) as [_ K]. destruct (K rd eq_refl) as (i & -> & _ & _ & _ & Ep & _ & _). rewrite Ep in R.
  exists (pre m n), (info_act (Some (Ok i))). split; [reflexivity|]. destruct g as [r|e|].
  - apply head_join with (v := v); [exact Hd|]. unfold after. eapply seq_returned; [|apply finish_other with (st := None); exact H].
    unfold form. rewrite <- (app_nil_r t2). eapply seq_returned; [exact R|constructor].
  - apply head_join with (v := v); [exact Hd|]. unfold after, form. apply seq_raised, seq_raised, R.
  - apply head_join with (v := v); [exact Hd|]. unfold after, form. apply seq_interrupted, seq_interrupted, R.
Qed.
Lemma form_apart c devs tr rd : runs (app_startup true c devs) tr (Returned rd) ->
  exists before t2 info r, tr = before ++ t2 ++ [info] /\ rd_status rd = Some r /\
    runs (app_startup false c devs) (before ++ [info]) (Returned (formed rd None)) /\ runs (form_network (rd_product rd) c) t2 (Returned r).
Proof.
  intro H. apply head_split in H as (m & n & v & t & -> & Hd & H). unfold after in H. apply runs_seq_ret in H as (t1 & t3 & st & -> & H1 & H2).
  unfold form in H1. apply runs_seq_ret in H1 as (t4 & t5 & r & -> & H1 & H3). apply runs_ret_inv in H3 as [-> [H|H]]; [discriminate H|]. injection H as ->.
  pose proof (finish_inv _ _ _ _ _ H2) as [_ K]. destruct (K rd eq_refl) as (i & -> & _ & _ & _ & Ep & _ & Es). rewrite app_nil_r.
  exists (pre m n), t4, (info_act (Some (Ok i))), r. split; [reflexivity|]. split; [exact Es|]. split; [|rewrite Ep; exact H1].
  apply head_join with (v := v); [exact Hd|]. unfold after, form. cbn [seq]. apply finish_other with (st := Some r). exact H2.
Qed.

(** ** what it does to the stick *)
Lemma form_call_inv v c tr f : runs (form_network (version_of v) c) tr f ->
  exists t1 t2 g, tr = t1 ++ t2 /\ runs (start_znp (version_of v) (network_options c) 2948 false) t1 g /\
    match g with
    | Returned r => t2 = led_acts (version_of v) /\ f = Returned r \/ (t2 = [] \/ t2 = led_acts (version_of v)) /\ f = Interrupted
    | Raised e => t2 = [] /\ f = Raised e
    | Interrupted => t2 = [] /\ f = Interrupted
    end.
Proof.
  unfold form_network. intro H. apply runs_seq in H as [(t1 & t2 & b & -> & H1 & H2)|[[H ->]|(e & H & ->)]].
  - exists t1, t2, (Returned b). split; [reflexivity|]. split; [exact H1|]. apply switch_inv in H2. exact H2.
  - exists tr, [], Interrupted. rewrite app_nil_r. auto.
  - exists tr, [], (Raised e). rewrite app_nil_r. auto.
Qed.
Lemma form_alone v c tr r s s' : valid_config c -> runs (form_network (version_of v) c) tr (Returned r) -> stick s tr s' ->
  accepted v (network_options c) s /\ Forall harmless tr /\ s' = s /\ r = Resumed \/
  ~ accepted v (network_options c) s /\ initialised v (network_options c) tr /\ config_matches v (network_options c) s' /\ r <> Resumed.
Proof.
  intros V H S. destruct (options_valid c V) as [W _]. apply form_call_inv in H as (t1 & t2 & g & -> & R & G). destruct g as [r'|e|]; [|destruct G; discriminate..].
  destruct G as [[-> E]|[_ E]]; [|discriminate E]. injection E as <-.
  apply stick_app in S as (s1 & S & S1). apply (harmless_stick _ _ _ (proj2 (led_acts_free _))) in S1 as ->.
  destruct (accepted_dec v (network_options c) s) as [Y|N]; [left|right].
  - destruct (accepted_left_alone _ _ _ _ _ _ _ _ W Y R S) as (A & B & C). split; [exact Y|]. split; [|split; [exact B|apply C; reflexivity]].
    apply Forall_app. split; [exact A|apply led_acts_free].
  - destruct (differs_initialised _ _ _ _ _ _ _ _ W N R S) as (A & (pr & a & post & -> & B1 & B2 & B3) & C). split; [exact N|]. split; [|auto].
    exists pr, a, (post ++ led_acts (version_of v)). split; [cbn [app]; rewrite <- !app_assoc; reflexivity|]. split; [exact B1|]. split; [exact B2|]. exact B3.
Qed.
(** whichever way it ends, an accepted stick is left alone *)
Lemma form_left_alone v c tr f s s' : valid_config c -> runs (form_network (version_of v) c) tr f -> stick s tr s' -> accepted v (network_options c) s ->
  Forall harmless tr /\ s' = s.
Proof.
  intros V H S Ha. destruct (options_valid c V) as [W _]. assert (F : Forall harmless tr); [|split; [exact F|eapply harmless_stick; eassumption]].
  apply form_call_inv in H as (t1 & t2 & g & -> & R & G). apply stick_app in S as (s1 & S & _). apply Forall_app. split.
  - eapply accepted_left_alone; eassumption.
  - destruct g; [destruct G as [[-> _]|[[->| ->] _]]|destruct G as [-> _]..]; try constructor; apply led_acts_free.
Qed.
Lemma form_sendable v c : valid_config c -> only act_sendable (form_network (version_of v) c).
Proof.
  intros V tr f H. destruct (options_valid c V) as [W _].
  assert (P4 : forall p, Forall act_sendable (led_acts p)).
  { intro p. unfold led_acts. destruct (p =? 1); constructor; [|constructor]. cbn [act_sendable]. unfold led_payload. sends; fits. }
  apply form_call_inv in H as (t3 & t4 & g & -> & R & G).
  apply Forall_app. split; [exact (start_sendable v _ 2948 false W ltac:(lia) _ _ R)|].
  destruct g; [destruct G as [[-> _]|[[->| ->] _]]|destruct G as [-> _]..]; try constructor; apply P4.
Qed.
Lemma fits_form p c : fits [] 50 (form_network p c).
Proof. unfold form_network. fit 49%nat; [apply fits_start|]. fit 1%nat; [|fit1]. unfold switch_led. apply fits_if; fit1. Qed.
