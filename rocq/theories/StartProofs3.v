(** * StartProofs3: when a start initialises, and what it leaves behind *)
From Coq Require Import ZifyBool ZifyNat.
From Verif Require Import Base Types Buffalo Zpi Api SpecCodec SpecMachine Nv StartZnp SpecStart StartProofs StartProofs2.

Lemma key_nonempty o : wf_options o -> o_key o <> [] /\ o_ext o <> [].
Proof. intros (H1 & _ & _ & H2 & _). split; intro E; rewrite E in *; discriminate. Qed.
Lemma is_assertion_true e : is_assertion e = true <-> e = AssertionError.
Proof. destruct e; cbn; split; congruence. Qed.

(** ** hasConfigured *)
Lemma has_configured_reads v s : hoare (has_configured (version_of v)) s
  (fun f => f = Returned true -> marked v s).
Proof.
  unfold has_configured. apply hoare_attempt.
  - apply only_seq; [eapply validate_harmless; reflexivity|intro; apply only_ret].
  - intros e q E. destruct e; try discriminate E; injection E as <-; apply only_ret.
  - apply hoare_seq; [eapply validate_harmless; reflexivity|intro; apply only_ret|].
    eapply hoare_impl; [eapply (hoare_validate _ _ _ _ (marker v) set_mark); [|reflexivity|discriminate]|].
    + cbn. rewrite configured_marker. reflexivity.
    + intros [a|e|]; [|destruct e; intros _; try (apply hoare_ret; discriminate); try discriminate|discriminate].
      intro H. apply hoare_ret; [discriminate|]. intros _. exact H.
Qed.

(** ** needsToBeInitialised *)
Definition network_ok (v : firmware) (o : options) (s : store) : Prop :=
  v = Stack12 \/ network_matches o s \/ s 131 = Some [255; 255].
Lemma validate_pan_reads v o s : wf_options o -> hoare (validate_pan (version_of v) o) s
  (fun f => match f with Returned _ => network_ok v o s | Raised e => e = AssertionError -> ~ network_ok v o s | Interrupted => True end).
Proof.
  intro Hwf. destruct (key_nonempty o Hwf) as [_ Hne]. destruct Hwf as (_ & _ & Hp & _). unfold validate_pan. apply hoare_attempt.
  - apply only_seq; [|intro]; eapply validate_harmless; reflexivity.
  - intros e q E. destruct (is_assertion e); [|discriminate E].
    match type of E with Some ?x = Some ?y => assert (Eq : y = x) by congruence; subst y end.
    destruct (stack3 _); [|apply only_ret]. harmless_.
  - assert (Hfix : forall e, ~ network_matches o s ->
      hoare (if stack3 (version_of v) then
         let! result := request SYS "osalNvRead" (item_pan (o_pan o)) [0] in
         let! v := field result "value" in
         if value_eqb v (VBytes [255; 255]) then DRet tt else DRaise e
       else DRet tt) s (fun f => match f with Returned _ => network_ok v o s | Raised e => e = AssertionError -> ~ network_ok v o s | Interrupted => True end)).
    { intros e Hn. rewrite stack3_version. destruct (match v with Stack12 => false | _ => true end) eqn:Ev.
      - assert (Hv : v <> Stack12) by (intros ->; discriminate Ev). split; [harmless_|]. intros tr f Hr Hs.
        apply seq_assoc_field in Hr. pose proof (hoare_read SYS "osalNvRead" (item_pan (o_pan o)) [0] 131 s eq_refl) as [Ho Hh].
        destruct (runs_seq _ _ _ _ Hr) as [(t1 & t2 & a & -> & H1 & H2)|[[H1 ->]|(e' & H1 & ->)]].
        + destruct (hoare_split _ t1 t2 s _ Ho H1 Hs) as [S1 S2]. pose proof (Hh _ _ H1 S1) as Ha. cbn beta iota in Ha. subst a.
          cbn [value_eqb] in H2. destruct (list_eq_dec Z.eq_dec (stored s 131) [255; 255]) as [E|E].
          * apply runs_ret_inv in H2 as [_ [->| ->]]; [exact I|]. right; right. apply stored_some; [discriminate|exact E].
          * apply runs_raise_inv in H2 as [_ [->| ->]]; [exact I|]. intros _ [C|[C|C]]; [contradiction|contradiction|].
            apply E. apply stored_some; [discriminate|exact C].
        + exact I.
        + pose proof (Hh _ _ H1 Hs) as Ha. cbn beta iota in Ha. intro E. contradiction.
      - assert (Hv : v = Stack12) by (destruct v; [reflexivity|discriminate|discriminate]).
        apply hoare_ret; [exact I|left; exact Hv]. }
    apply hoare_seq; [eapply validate_harmless; reflexivity|intro; eapply validate_harmless; reflexivity|].
    eapply hoare_impl; [eapply (hoare_validate _ _ _ _ 131 (le2 (o_pan o))); [reflexivity| |discriminate]|].
    + cbn [item_value item_pan dict_get]. rewrite <- pan_bytes by exact Hp. reflexivity.
    + intros [a|e|]; [|destruct (is_assertion e) eqn:Ee|exact (fun _ => I)].
      * intro Hpan. eapply hoare_impl; [eapply (hoare_validate _ _ _ _ 45 (o_ext o)); [reflexivity|reflexivity|exact Hne]|].
        intros [b|e|]; [|destruct (is_assertion e) eqn:Ee|exact (fun _ => I)].
        -- intro Hext. right; left. split; assumption.
        -- intro Hext. apply is_assertion_true in Ee as ->. apply Hfix. intros [_ C]. apply Hext; [reflexivity|exact C].
        -- intros _ ->. discriminate Ee.
      * intro Hpan. apply is_assertion_true in Ee as ->. apply Hfix. intros [C _]. apply Hpan; [reflexivity|exact C].
      * intros _ ->. discriminate Ee.
Qed.

Lemma needs_init_reads v o s : wf_options o -> hoare (needs_init (version_of v) o) s
  (fun f => match f with Returned true => ~ accepted v o s | Returned false => accepted v o s | _ => True end).
Proof.
  intro Hwf. destruct (key_nonempty o Hwf) as [Hne _]. pose proof (validate_pan_reads v o s Hwf) as Hpan.
  destruct Hwf as (_ & _ & _ & _ & _ & Hc). unfold needs_init. apply hoare_attempt.
  { do 3 (apply only_seq; [eapply validate_harmless; reflexivity|intros _]).
    apply only_seq; [destruct (version_of v =? zStack3x0); eapply validate_harmless; reflexivity|intros _].
    apply only_seq; [apply validate_pan_harmless|intros _; apply only_ret]. }
  { intros e q E. destruct (is_assertion e); [injection E as <-; apply only_ret|discriminate E]. }
  set (Q := fun f : fin bool => match f with
    | Raised e => match (if is_assertion e then Some (DRet true) else None) with
                  | Some q => hoare q s (fun f => match f with Returned true => ~ accepted v o s | Returned false => accepted v o s | _ => True end)
                  | None => True end
    | Returned true => ~ accepted v o s | Returned false => accepted v o s | _ => True end).
  assert (HQ : forall f, Q f -> match f with
    | Raised e => match (if is_assertion e then Some (DRet true) else None) with
                  | Some q => hoare q s (fun f => match f with Returned true => ~ accepted v o s | Returned false => accepted v o s | _ => True end)
                  | None => match f with Returned true => ~ accepted v o s | Returned false => accepted v o s | _ => True end end
    | _ => match f with Returned true => ~ accepted v o s | Returned false => accepted v o s | _ => True end end).
  { intros [b|e|]; unfold Q; [tauto| |tauto]. destruct (is_assertion e); tauto. }
  eapply hoare_impl; [|exact HQ]. clear HQ.
  assert (Hfail : forall e, (e = AssertionError -> ~ accepted v o s) -> Q (Raised e)).
  { intros e He. unfold Q. destruct (is_assertion e) eqn:Ee; [|exact I]. apply is_assertion_true in Ee.
    apply hoare_ret; [exact I|apply He, Ee]. }
  assert (Hint : Q Interrupted) by exact I.
  assert (Hend : hoare (validate_pan (version_of v) o;; DRet false) s
     (fun f => match f with Returned b => b = false /\ network_ok v o s | Raised e => e = AssertionError -> ~ network_ok v o s | Interrupted => True end)).
  { apply hoare_seq; [apply validate_pan_harmless|intros; apply only_ret|]. eapply hoare_impl; [exact Hpan|].
    intros [u|e|] H; [apply hoare_ret; [exact I|split; [reflexivity|exact H]]|exact H|exact I]. }
  assert (Hv : forall A item sub cmd x i iv (rest : prog A) (Q' : fin A -> Prop), storage_of sub cmd item = Reads i -> item_value item = VBytes iv -> iv <> [] ->
    only harmless rest -> Q' Interrupted -> (forall e, (e = AssertionError -> s i <> Some iv) -> Q' (Raised e)) ->
    (s i = Some iv -> hoare rest s Q') -> hoare (validate_item item sub cmd x;; rest) s Q').
  { intros A item sub cmd x i iv rest Q' H1 H2 H3 H4 H5 H6 H7. apply hoare_seq; [eapply validate_harmless, H1|intro; exact H4|].
    eapply hoare_impl; [eapply hoare_validate; eassumption|]. intros [u|e|]; [exact H7|apply H6|intro; exact H5]. }
  eapply (Hv _ _ _ _ _ (marker v) set_mark); [cbn; rewrite configured_marker; reflexivity|reflexivity|discriminate| |exact Hint| |].
  { do 2 (apply only_seq; [eapply validate_harmless; reflexivity|intros _]).
    apply only_seq; [destruct (version_of v =? zStack3x0); eapply validate_harmless; reflexivity|intros _].
    apply only_seq; [apply validate_pan_harmless|intros _; apply only_ret]. }
  { intros e He. apply Hfail. intros E [[C _] _]. exact (He E C). }
  intro H1. eapply (Hv _ _ _ _ _ 132 (le4 (o_channels o))); [reflexivity| |discriminate| |exact Hint| |].
  { cbn [item_value item_channels dict_get]. rewrite <- channel_bytes by exact Hc. reflexivity. }
  { apply only_seq; [eapply validate_harmless; reflexivity|intros _].
    apply only_seq; [destruct (version_of v =? zStack3x0); eapply validate_harmless; reflexivity|intros _].
    apply only_seq; [apply validate_pan_harmless|intros _; apply only_ret]. }
  { intros e He. apply Hfail. intros E [(_ & C & _) _]. exact (He E C). }
  intro H2. eapply (Hv _ _ _ _ _ 99 (flag (o_distribute o))); [reflexivity| |destruct (o_distribute o); discriminate| |exact Hint| |].
  { cbn [item_value item_distribute dict_get]. rewrite <- flag_eq. reflexivity. }
  { apply only_seq; [destruct (version_of v =? zStack3x0); eapply validate_harmless; reflexivity|intros _].
    apply only_seq; [apply validate_pan_harmless|intros _; apply only_ret]. }
  { intros e He. apply Hfail. intros E [(_ & _ & C & _) _]. exact (He E C). }
  intro H3.
  assert (Hlast : s 98 = Some (o_key o) -> hoare (validate_pan (version_of v) o;; DRet false) s Q).
  { intro H4. eapply hoare_impl; [exact Hend|]. intros [b|e|]; [|intro H; apply Hfail; intros E [_ C]; exact (H E C)|intros; exact I].
    intros [-> H]. unfold Q. split; [repeat split; assumption|exact H]. }
  destruct (version_of v =? zStack3x0).
  all: eapply (Hv _ _ _ _ _ 98 (o_key o)); [reflexivity|reflexivity|exact Hne| |exact Hint| |exact Hlast].
  all: first [apply only_seq; [apply validate_pan_harmless|intros _; apply only_ret]
             |intros e He; apply Hfail; intros E [(_ & _ & _ & C) _]; exact (He E C)].
Qed.
