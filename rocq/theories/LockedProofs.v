(** * LockedProofs: stored states from which no start succeeds *)
From Coq Require Import ZifyBool ZifyNat.
From Verif Require Import Base Types Buffalo Zpi Api App Machine SpecMachine SpecCodec Nv StartZnp SpecStart Host SpecHost AppStart SpecAppStart
  StartProofs StartProofs2 StartProofs3 StartProofs4 StartProofs6 StartProofs8 HostProofs AppStartProofs SpecLinkStart.

Definition fails {A} (R : Prop) (f : fin A) : Prop :=
  match f with Returned _ => R | Raised e => e <> AssertionError | Interrupted => True end.
Lemma hoare_lost item sub cmd i s : storage_of sub cmd item = Reads i -> s i = None -> hoare (validate_item item sub cmd [0]) s (fails False).
Proof.
  intros K N. split; [eapply validate_harmless, K|]. intros tr f Hr Hs. unfold validate_item, request in Hr. cbn [seq] in Hr.
  inversion Hr; subst; [exact I|exact I|]. clear Hr. inversion Hs; subst. cbn [stick_act] in *. rewrite K, N in *.
  destruct r as [m|e]; cbn [of_result seq answer_possible] in *.
  - exfalso. match goal with H : _ /\ _ /\ _ |- _ => destruct H as (_ & _ & E) end. match goal with H : forall c, _ -> In c [0] |- _ => apply H in E end.
    destruct E as [E|[]]. discriminate E.
  - match goal with R : runs _ _ _ |- _ => apply runs_raise_inv in R as [-> [->| ->]] end; [exact I|assumption].
Qed.
Lemma hoare_step item sub cmd i iv s (R : Prop) : storage_of sub cmd item = Reads i -> item_value item = VBytes iv -> iv <> [] ->
  s i = None \/ s i = Some iv /\ R -> hoare (validate_item item sub cmd [0]) s (fails R).
Proof.
  intros K V Ne [N|[E HR]]; [eapply hoare_impl; [apply (hoare_lost _ _ _ i); assumption|]; intros [a|e|]; cbn [fails]; tauto|].
  eapply hoare_impl; [apply (hoare_validate item sub cmd [0] i iv s K V Ne)|]. intros [a|e|]; cbn [fails]; [auto| |auto]. intros H F. apply H in F. contradiction.
Qed.
Lemma fails_seq {A} item sub cmd i iv s r (rest : prog A) : storage_of sub cmd item = Reads i -> item_value item = VBytes iv -> iv <> [] ->
  stuck ((i, iv) :: r) s -> only harmless rest -> (stuck r s -> hoare rest s (fails False)) -> hoare (validate_item item sub cmd [0];; rest) s (fails False).
Proof.
  intros K V Ne H O G. apply hoare_seq; [eapply validate_harmless, K|intro; exact O|].
  eapply hoare_impl; [apply (hoare_step item sub cmd i iv s (stuck r s) K V Ne H)|]. intros [a|e|]; cbn [fails]; auto.
Qed.
Lemma pan_fails v o s : wf_options o -> stuck [(131, le2 (o_pan o)); (45, o_ext o)] s -> hoare (validate_pan (version_of v) o) s (fails False).
Proof.
  intros (_ & _ & Wp & We & _) H. unfold validate_pan. apply hoare_attempt.
  - apply only_seq; [|intros _]; eapply validate_harmless; reflexivity.
  - intros e q E. destruct (is_assertion e); [|discriminate E].
    match type of E with Some ?x = Some ?y => assert (Eq : y = x) by congruence; subst y end.
    destruct (stack3 (version_of v)); [|apply only_ret]. harmless_.
  - eapply hoare_impl.
    + eapply (fails_seq _ _ _ 131 (le2 (o_pan o))); [reflexivity| |discriminate|exact H|eapply validate_harmless; reflexivity|].
      * rewrite <- pan_bytes by exact Wp. reflexivity.
      * intro G. eapply hoare_impl; [eapply (hoare_step _ _ _ 45 (o_ext o) s False); [reflexivity|reflexivity| |exact G]|].
        -- intro E. rewrite E in We. discriminate We.
        -- intros f F. exact F.
    + intros [a|e|]; cbn [fails]; auto. intro F. destruct e; cbn [is_assertion]; auto; contradiction.
Qed.
Lemma needs_fails v o s : wf_options o -> locked_out v o s -> hoare (needs_init (version_of v) o) s (fails False).
Proof.
  intros W [M H]. destruct (key_nonempty o W) as [Hne _]. pose proof (needs_init_harmless (version_of v) o) as O. pose proof (pan_fails v o s W) as HP. pose proof W as (_ & _ & _ & _ & _ & Wc).
  assert (OP : only harmless (validate_pan (version_of v) o;; DRet false)) by (apply only_seq; [apply validate_pan_harmless|intros _; apply only_ret]).
  unfold needs_init. apply hoare_attempt.
  { do 3 (apply only_seq; [eapply validate_harmless; reflexivity|intros _]).
    apply only_seq; [destruct (version_of v =? zStack3x0); eapply validate_harmless; reflexivity|intros _]. exact OP. }
  { intros e q E. destruct (is_assertion e); [injection E as <-; apply only_ret|discriminate E]. }
  apply (hoare_impl _ _ (fails False)); [|intros [a|e|]; cbn [fails]; auto; intro F; destruct e; cbn [is_assertion]; auto; contradiction].
  apply hoare_seq; [eapply validate_harmless; reflexivity| |].
  { intros _. do 2 (apply only_seq; [eapply validate_harmless; reflexivity|intros _]).
    apply only_seq; [destruct (version_of v =? zStack3x0); eapply validate_harmless; reflexivity|intros _]. exact OP. }
  eapply hoare_impl; [apply (hoare_validate _ _ _ _ (marker v) set_mark s); [destruct v; reflexivity|destruct v; reflexivity|discriminate]|].
  intros [a|e|]; cbn [fails]; [intros _| |auto]; [|intros F E; apply F in E; contradiction].
  eapply (fails_seq _ _ _ 132 (le4 (o_channels o))); [reflexivity|rewrite <- channel_bytes by exact Wc; reflexivity|discriminate|exact H| |].
  { apply only_seq; [eapply validate_harmless; reflexivity|intros _]. apply only_seq; [destruct (version_of v =? zStack3x0); eapply validate_harmless; reflexivity|intros _]. exact OP. }
  clear H. intro H. eapply (fails_seq _ _ _ 99 (flag (o_distribute o))); [reflexivity|rewrite <- flag_eq; reflexivity|destruct (o_distribute o); discriminate|exact H| |].
  { apply only_seq; [destruct (version_of v =? zStack3x0); eapply validate_harmless; reflexivity|intros _]. exact OP. }
  clear H. intro H.
  assert (G : stuck [(131, le2 (o_pan o)); (45, o_ext o)] s -> hoare (validate_pan (version_of v) o;; DRet false) s (fails False)).
  { intro G. apply hoare_seq; [apply validate_pan_harmless|intros _; apply only_ret|]. eapply hoare_impl; [apply HP, G|]. intros [u|e|]; cbn [fails]; auto; try contradiction. }
  destruct (version_of v =? zStack3x0); eapply (fails_seq _ _ _ 98 (o_key o)); try reflexivity; try exact Hne; try exact H; try exact OP; exact G.
Qed.
Lemma locked_start v o g b s tr f s' : wf_options o -> locked_out v o s -> runs (start_znp (version_of v) o g b) tr f -> stick s tr s' ->
  (forall r, f <> Returned r) /\ Forall harmless tr /\ s' = s.
Proof.
  intros W L R S. assert (K : (forall r, f <> Returned r) /\ Forall harmless tr); [|split; [apply K|split; [apply K|eapply harmless_stick; [apply K|exact S]]]].
  rewrite start_eq in R. destruct (runs_seq _ _ _ _ R) as [(t1 & t2 & c & -> & R1 & R2)|[[R1 ->]|(e & R1 & ->)]];
    [|split; [discriminate|eapply has_configured_harmless, R1]..].
  pose proof (has_configured_harmless _ _ _ R1) as H1. apply stick_app in S as (s1 & S1 & S2). apply (harmless_stick _ _ _ H1) in S1 as ->.
  assert (C : forall tr f s', runs (configure (version_of v) o b c) tr f -> stick s tr s' -> (forall r, f <> Returned r) /\ Forall harmless tr).
  { clear - W L. intros tr f s' R S. unfold configure in R. destruct (b && negb c); [apply runs_raise_inv in R as [-> [->| ->]]; split; try discriminate; constructor|].
    destruct (needs_fails v o s W L) as [O H].
    destruct (runs_seq _ _ _ _ R) as [(t1 & t2 & a & -> & R1 & R2)|[[R1 ->]|(e & R1 & ->)]]; [exfalso|split; [discriminate|eapply O, R1]..].
    apply stick_app in S as (s1 & S1 & S2). assert (s1 = s) as -> by (eapply harmless_stick; [eapply O, R1|exact S1]). apply (H _ _ R1 S1). }
  destruct (runs_seq _ _ _ _ R2) as [(t3 & t4 & r & -> & R3 & R4)|[[R3 ->]|(e & R3 & ->)]].
  - exfalso. apply stick_app in S2 as (s2 & S2 & S3). destruct (C _ _ _ R3 S2) as [N _]. exact (N r eq_refl).
  - destruct (C _ _ _ R3 S2) as [_ K]. split; [discriminate|apply Forall_app; auto].
  - destruct (C _ _ _ R3 S2) as [_ K]. split; [discriminate|apply Forall_app; auto].
Qed.
Lemma locked_app v c devs s tr f s' : valid_config c -> locked_out v (network_options c) s -> runs (app_startup true c devs) tr f -> stick s tr s' ->
  (forall p, reports tr p -> p = version_of v) -> (forall r, f <> Returned r) /\ Forall harmless tr /\ s' = s.
Proof.
  intros V L H S Hv. assert (K : (forall r, f <> Returned r) /\ Forall harmless tr); [|split; [apply K|split; [apply K|eapply harmless_stick; [apply K|exact S]]]].
  destruct (options_valid c V) as [W _]. apply app_course in H. inversion H; subst;
    try (split; [intros r; repeat (match goal with K : _ \/ _ |- _ => destruct K as [->| ->] end); discriminate|repeat constructor]; fail).
  { split; [|repeat constructor]. intros r ->. match goal with K : _ = Interrupted \/ _ |- _ => destruct K as [K|K]; [discriminate K|] end. destruct (dict_get (z_payload n) "product") as [[]|]; discriminate. }
  assert (v0 = v) as ->.
  { assert (K : version_of v0 = version_of v) by (apply Hv; exists [], [0], n; split; [right; left; reflexivity|assumption]). destruct v0, v; try discriminate K; reflexivity. }
  apply stick_prefix in S; [|exact I]. apply stick_prefix in S; [|exact I].
  apply body_inv in H1 as (t1 & t2 & -> & g & H1 & H2).
  apply form_inv in H1 as (t3 & t4 & g' & -> & R & G). apply stick_app in S as (s1 & S & _). apply stick_app in S as (s2 & S & _).
  destruct (locked_start _ _ _ _ _ _ _ _ W L R S) as (N & K & _). destruct g' as [r|e|]; [exfalso; apply (N r eq_refl)|..];
    destruct G as [-> ->]; destruct H2 as [-> ->]; (split; [discriminate|]); rewrite !app_nil_r; repeat (constructor; [exact I|]); exact K.
Qed.
Lemma locked_link cap v o g b s0 es s s' : 0 <= cap -> reachable cap s0 -> wf_options o -> locked_out v o s ->
  let h := hrun es (hosted (start_znp (version_of v) o g b) s0) in
  stick s (acts h) s' -> (forall r, ending h <> Returned r) /\ s' = s.
Proof.
  intros Hc Hr W L h S. pose proof (host_runs cap _ _ (host_inv cap (start_znp (version_of v) o g b) s0 es Hc Hr)) as R. destruct (locked_start _ _ _ _ _ _ _ _ W L R S) as (A & _ & B). auto.
Qed.
Lemma locked_app_link cap v c devs s0 es s s' : 0 <= cap -> reachable cap s0 -> valid_config c -> locked_out v (network_options c) s ->
  let h := hrun es (hosted (app_startup true c devs) s0) in
  stick s (acts h) s' -> (forall p, reports (acts h) p -> p = version_of v) -> (forall r, ending h <> Returned r) /\ s' = s.
Proof.
  intros Hc Hr V L h S Hv. pose proof (host_runs cap _ _ (host_inv cap (app_startup true c devs) s0 es Hc Hr)) as R. destruct (locked_app _ _ _ _ _ _ _ V L R S Hv) as (A & _ & B). auto.
Qed.
