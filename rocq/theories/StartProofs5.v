(** * StartProofs5: well-formed items; what the stick stores *)
From Coq Require Import ZifyBool ZifyNat.
From Verif Require Import Base Types Buffalo Zpi Api SpecCodec SpecMachine Nv StartZnp SpecStart StartProofs StartProofs2 StartProofs3 StartProofs4.

(** ** Items are well formed *)
Lemma wf_item v o sub cmd d i b : (storage_of sub cmd d = Writes i b \/ storage_of sub cmd d = Reads i) ->
  In (i, b) (settings v o ++ [(marker v, set_mark)]) -> dict_get d "value" = Some (VBytes b) ->
  dict_get d "len" = Some (VInt (Z.of_nat (length b))) -> Forall (fun z => 0 <= z < 256) b -> dict_get d "offset" = Some (VInt 0) ->
  item_well_formed v o sub cmd d.
Proof. intros [H|H] H1 H2 H3 H4 H5 _; rewrite H; [|exists b]; repeat split; assumption. Qed.

Definition uses_item (v : firmware) (o : options) (d : payload) : Prop :=
  item_well_formed v o SYS "osalNvWrite" d /\ item_well_formed v o SYS "osalNvRead" d.
Ltac item_ b := split; (eapply (wf_item _ _ _ _ _ _ b);
  [first [left; reflexivity|right; reflexivity]| |reflexivity|reflexivity| |reflexivity]).
Ltac in_settings := unfold settings; cbn [app In]; tauto.
Ltac bytes_ := repeat constructor; lia.

Lemma items_fine v o : wf_options o ->
  uses_item v o (item_startup 2) /\ uses_item v o (item_logical 0) /\ uses_item v o (item_distribute (o_distribute o)) /\
  uses_item v o item_direct_cb /\ uses_item v o (item_channels (o_channels o)) /\ uses_item v o (item_pan (o_pan o)) /\
  uses_item v o (item_ext (o_ext o)) /\ uses_item v o (item_configured (version_of v)) /\ uses_item v o (item_key (o_key o)) /\
  item_well_formed v o SAPI "readConfiguration" (item_key (o_key o)) /\ item_well_formed v o SAPI "writeConfiguration" (item_key (o_key o)) /\
  item_well_formed v o SYS "osalNvItemInit" (item_configured_init (version_of v)).
Proof.
  intros (Hk & Hkb & Hp & He & Heb & Hc).
  assert (Ep : item_pan (o_pan o) = [("id", VInt PANID); ("len", VInt 2); ("offset", VInt 0); ("value", VBytes (le2 (o_pan o)))])
    by (rewrite <- pan_bytes by exact Hp; reflexivity).
  assert (Ec : item_channels (o_channels o) = [("id", VInt CHANLIST); ("len", VInt 4); ("offset", VInt 0); ("value", VBytes (le4 (o_channels o)))])
    by (rewrite <- channel_bytes by exact Hc; reflexivity).
  assert (Ed : item_distribute (o_distribute o) = [("id", VInt PRECFGKEYS_ENABLE); ("len", VInt 1); ("offset", VInt 0); ("value", VBytes (flag (o_distribute o)))])
    by (rewrite <- flag_eq; reflexivity).
  assert (Ekey : dict_get (item_key (o_key o)) "len" = Some (VInt (Z.of_nat (length (o_key o))))) by (rewrite Hk; reflexivity).
  assert (Eext : dict_get (item_ext (o_ext o)) "len" = Some (VInt (Z.of_nat (length (o_ext o))))) by (rewrite He; reflexivity).
  rewrite Ep, Ec, Ed.
  split; [item_ [2]; first [in_settings|bytes_]|].
  split; [item_ [0]; first [in_settings|bytes_]|].
  split. { destruct (o_distribute o) eqn:E; cbn [flag]; [item_ [1]|item_ [0]]; first [unfold settings; rewrite E; cbn [app In flag]; tauto|bytes_]. }
  split; [item_ [1]; first [in_settings|bytes_]|].
  split; [item_ (le4 (o_channels o)); first [in_settings|apply le4_range, Hc]|].
  split; [item_ (le2 (o_pan o)); first [in_settings|apply le2_range, Hp]|].
  split. { split; eapply (wf_item _ _ _ _ _ _ (o_ext o)); [left; reflexivity|in_settings|reflexivity|exact Eext|exact Heb|reflexivity
                                                        |right; reflexivity|in_settings|reflexivity|exact Eext|exact Heb|reflexivity]. }
  split. { destruct v; item_ set_mark; first [in_settings|bytes_]. }
  split. { split; eapply (wf_item _ _ _ _ _ _ (o_key o)); [left; reflexivity|in_settings|reflexivity|exact Ekey|exact Hkb|reflexivity
                                                        |right; reflexivity|in_settings|reflexivity|exact Ekey|exact Hkb|reflexivity]. }
  split. { eapply (wf_item _ _ _ _ _ _ (o_key o)); [right; reflexivity|in_settings|reflexivity|exact Ekey|exact Hkb|reflexivity]. }
  split. { eapply (wf_item _ _ _ _ _ _ (o_key o)); [left; reflexivity|in_settings|reflexivity|exact Ekey|exact Hkb|reflexivity]. }
  destruct v; intros _; cbn; (split; [reflexivity|]); (split; [discriminate|]); split; (split; [reflexivity|]); (split; [reflexivity|]); bytes_.
Qed.
Lemma tc_key_fine o : uses_item Stack12 o item_tc_link_key.
Proof. item_ alliance_key; first [in_settings|repeat constructor; lia]. Qed.

Lemma only_plain v o sub cmd d x : storage_command sub cmd = false -> only (act_well_formed v o) (request sub cmd d x).
Proof. intro H. apply only_request. intros r C. rewrite H in C. discriminate C. Qed.
Lemma only_item v o sub cmd d x : item_well_formed v o sub cmd d -> only (act_well_formed v o) (request sub cmd d x).
Proof. intro H. apply only_request. intros r. exact H. Qed.
Lemma only_validate v o item sub cmd x : item_well_formed v o sub cmd item -> only (act_well_formed v o) (validate_item item sub cmd x).
Proof. intro H. unfold validate_item. apply only_seq; [apply only_item, H|intro]. apply only_seq; [apply only_field|intro]. destruct (value_eqb _ _); [apply only_ret|apply only_raise]. Qed.

Ltac fine := first
  [ apply only_ret | apply only_raise | apply only_field | apply only_listen; exact I | apply only_await; intro; exact I
  | apply only_spawn; intro; discriminate | apply only_plain; reflexivity ].
Ltac next t := apply only_seq; [t|intro].

Lemma start_well_formed v o g b : wf_options o -> only (act_well_formed v o) (start_znp (version_of v) o g b).
Proof.
  intro Hwf. destruct (items_fine v o Hwf) as (H1 & H2 & H3 & H4 & H5 & H6 & H7 & H8 & H9 & H10 & H11 & H12).
  rewrite start_eq.
  next idtac.
  { unfold has_configured. apply only_attempt.
    - next ltac:(apply only_validate, H8). fine.
    - intros e q E. destruct e; try discriminate E; injection E as <-; fine. }
  next idtac.
  { unfold configure. destruct (b && negb a); [fine|]. next idtac.
    - unfold needs_init. apply only_attempt.
      + next ltac:(apply only_validate, H8). next ltac:(apply only_validate, H5). next ltac:(apply only_validate, H3).
        next ltac:(destruct (version_of v =? zStack3x0); apply only_validate; [apply H9|apply H10]). next idtac; [|fine].
        unfold validate_pan. apply only_attempt.
        * next ltac:(apply only_validate, H6). apply only_validate, H7.
        * intros e q E. destruct (is_assertion e); [|discriminate E].
          match type of E with Some ?x = Some ?y => assert (Eq : y = x) by congruence; subst y end.
          destruct (stack3 (version_of v)); [|fine]. next ltac:(apply only_item, H6). next fine. destruct (value_eqb _ _); fine.
      + intros e q E. destruct (is_assertion e); [injection E as <-; fine|discriminate E].
    - destruct a0; [|fine]. next idtac; [|fine]. unfold initialise, nv_write, soft_reset.
      next fine. next ltac:(apply only_item, H1). next fine. next ltac:(apply only_item, H2). next ltac:(apply only_item, H3).
      next ltac:(apply only_item, H4). next ltac:(apply only_item, H5). next ltac:(apply only_item, H6). next ltac:(apply only_item, H7).
      next idtac.
      + rewrite stack3_version. destruct v.
        * next ltac:(apply only_item, H11). apply only_item, tc_key_fine.
        * next ltac:(apply only_item, H9). next fine. next fine. next fine. next fine. next idtac; [|fine].
          unfold await_started. apply only_attempt; [fine|]. intros e q E. destruct e; try discriminate E; injection E as <-; fine.
        * next ltac:(apply only_item, H9). next fine. next fine. next fine. next fine. next idtac; [|fine].
          unfold await_started. apply only_attempt; [fine|]. intros e q E. destruct e; try discriminate E; injection E as <-; fine.
      + next ltac:(apply only_item, H12). next ltac:(apply only_item, H8). fine. }
  unfold rest.
  next idtac. { unfold boot. next fine. next fine. destruct (value_eqb _ _); [fine|]. next fine. next fine. next fine. fine. }
  next idtac. { unfold register_endpoints. next fine. next fine. next fine. apply register_loop_only. intros e r _ C. discriminate C. }
  next idtac. { unfold add_to_group. next fine. next fine. destruct (value_eqb _ _); [|fine]. next fine. fine. }
  next idtac; [|fine]. destruct a0; try fine. next ltac:(apply only_item, H5). fine.
Qed.

(** ** What is stored *)
Lemma reading_store v o t1 c n s s' : wf_options o -> reading v o t1 c n -> stick s t1 s' ->
  s' = s /\ (if n then ~ accepted v o s else accepted v o s) /\ (c = true -> marked v s).
Proof.
  intros Hwf (ta & tb & -> & H1 & H2) Hs.
  assert (E : s' = s).
  { eapply harmless_stick; [|exact Hs]. apply Forall_app. split; [eapply has_configured_harmless, H1|eapply needs_init_harmless, H2]. }
  subst s'. split; [reflexivity|].
  destruct (hoare_split _ ta tb s _ (has_configured_harmless _) H1 Hs) as [S1 S2].
  split; [|intros ->; apply (proj2 (has_configured_reads v s) _ _ H1 S1); reflexivity].
  pose proof (proj2 (needs_init_reads v o s Hwf) _ _ H2 S2) as H. destruct n; exact H.
Qed.

Lemma done_stick q a s s' : done q a -> stick_act s a s' ->
  match op_storage q with
  | Writes i b => s' = put s i b
  | Creates i b => match s i with Some _ => s' = s | None => s' = put s i b end
  | ResetsStick => True
  | _ => s' = s
  end.
Proof.
  destruct q, a as [? ? ? ? [[?|?]|]| |? [?|?]|]; cbn [done op_storage]; try contradiction; cbn [stick_act]; try tauto.
  intros (-> & -> & -> & _). destruct (storage_of _ _ _); tauto.
Qed.
(** stores that a complete sequence of operations can lead to *)
Fixpoint leads (l : list op) (s s' : store) : Prop :=
  match l with
  | [] => s' = s
  | q :: r => exists s1, leads r s1 s' /\
      match op_storage q with
      | Writes i b => s1 = put s i b
      | Creates i b => match s i with Some _ => s1 = s | None => s1 = put s i b end
      | ResetsStick => True
      | _ => s1 = s
      end
  end.
Lemma done_leads l tr s s' : Forall2 done l tr -> stick s tr s' -> leads l s s'.
Proof.
  intro H. revert s. induction H as [|q a l tr Hd H IH]; intros s Hs; inversion Hs; subst; [reflexivity|].
  cbn [leads]. exists s1. split; [apply IH; assumption|eapply done_stick; eassumption].
Qed.
Lemma leads_app l1 l2 s s' : leads (l1 ++ l2) s s' -> exists s1, leads l1 s s1 /\ leads l2 s1 s'.
Proof.
  revert s. induction l1 as [|q l1 IH]; intros s H; [exists s; split; [reflexivity|exact H]|].
  destruct H as (s1 & H1 & H2). destruct (IH _ H1) as (s2 & H3 & H4). exists s2. split; [exists s1; split; assumption|exact H4].
Qed.
(** once written and not written again, an item keeps its bytes *)
Definition keeps (i : Z) (q : op) : bool :=
  match op_storage q with Writes j _ | Creates j _ => negb (j =? i) | ResetsStick => false | _ => true end.
Lemma leads_keeps i l s s' : forallb (keeps i) l = true -> leads l s s' -> s' i = s i.
Proof.
  revert s. induction l as [|q l IH]; intros s H L; [cbn in L; subst; reflexivity|].
  cbn [forallb] in H. apply andb_prop in H as [Hq H]. destruct L as (s1 & L1 & L2). rewrite (IH s1 H L1).
  unfold keeps in Hq. destruct (op_storage q) as [j|j b|j b| |]; try (subst; reflexivity); try discriminate.
  - subst s1. unfold put. apply negb_true_iff in Hq. rewrite Z.eqb_sym, Hq. reflexivity.
  - destruct (s j); subst s1; [reflexivity|]. unfold put. apply negb_true_iff in Hq. rewrite Z.eqb_sym, Hq. reflexivity.
Qed.
Lemma leads_writes l1 q l2 i b s s' : op_storage q = Writes i b -> forallb (keeps i) l2 = true -> leads (l1 ++ q :: l2) s s' -> s' i = Some b.
Proof.
  intros Hq Hk H. apply leads_app in H as (s1 & _ & (s2 & H2 & H3)). rewrite (leads_keeps i l2 s2 s' Hk H2). rewrite Hq in H3. subst s2.
  unfold put. rewrite Z.eqb_refl. reflexivity.
Qed.
Lemma init_store v o tr s s' : wf_options o -> follows (init_ops (version_of v) o) tr (Returned tt) -> stick s tr s' -> config_matches v o s'.
Proof.
  intros (_ & _ & Hp & _ & _ & Hc) H Hs. apply follows_complete in H. pose proof (done_leads _ _ _ _ H Hs) as L. clear H Hs.
  unfold config_matches, common_matches, network_matches, marked. rewrite <- pan_bytes, <- channel_bytes, <- flag_eq by assumption.
  unfold init_ops in L. rewrite stack3_version in L. cbn [app] in L.
  assert (W : forall n i b, (match nth_error (init_ops (version_of v) o) n with Some q => op_storage q = Writes i b | None => False end) ->
    forallb (keeps i) (skipn (S n) (init_ops (version_of v) o)) = true -> s' i = Some b).
  { intros n i b H1 H2. destruct (nth_error _ n) as [q|] eqn:E; [|contradiction].
    apply (leads_writes (firstn n (init_ops (version_of v) o)) q (skipn (S n) (init_ops (version_of v) o)) i b s s' H1 H2).
    replace (firstn n _ ++ q :: skipn (S n) _) with (init_ops (version_of v) o).
    { unfold init_ops. rewrite stack3_version. exact L. }
    apply nth_error_split in E as (l1 & l2 & E1 & E2). rewrite E1. rewrite <- E2. rewrite firstn_app, firstn_all, Nat.sub_diag.
    cbn [firstn]. rewrite app_nil_r. f_equal. f_equal. rewrite skipn_app, skipn_all2 by lia. replace (S (length l1) - length l1)%nat with 1%nat by lia. reflexivity. }
  clear L. destruct v; repeat split.
  - apply (W 12%nat); reflexivity.
  - apply (W 6%nat); reflexivity.
  - apply (W 4%nat); reflexivity.
  - apply (W 9%nat); reflexivity.
  - apply (W 7%nat); reflexivity.
  - apply (W 8%nat); reflexivity.
  - apply (W 17%nat); reflexivity.
  - apply (W 6%nat); reflexivity.
  - apply (W 4%nat); reflexivity.
  - apply (W 9%nat); reflexivity.
  - apply (W 7%nat); reflexivity.
  - apply (W 8%nat); reflexivity.
  - apply (W 17%nat); reflexivity.
  - apply (W 6%nat); reflexivity.
  - apply (W 4%nat); reflexivity.
  - apply (W 9%nat); reflexivity.
  - apply (W 7%nat); reflexivity.
  - apply (W 8%nat); reflexivity.
Qed.
