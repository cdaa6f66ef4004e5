(** * StartProofs6: results of a start; endpoints, group, coordinator state *)
From Coq Require Import ZifyBool ZifyNat.
From Verif Require Import Base Types Buffalo Zpi Api SpecCodec SpecMachine Nv StartZnp SpecStart StartProofs StartProofs2 StartProofs3 StartProofs4 StartProofs5.

Lemma rest_resumed_harmless o g t f : runs (rest o g Resumed) t f -> Forall harmless t.
Proof. intro H. eapply Forall_impl; [|apply (rest_only _ _ _ _ _ H)]. intros a [K|[K _]]; [exact K|discriminate K]. Qed.

(** a stick that needs nothing is left alone *)
Lemma accepted_left_alone v o g b s tr f s' : wf_options o -> accepted v o s ->
  runs (start_znp (version_of v) o g b) tr f -> stick s tr s' ->
  Forall harmless tr /\ s' = s /\ forall r, f = Returned r -> r = Resumed.
Proof.
  intros Hwf Ha H Hs. apply start_course in H as (t1 & t2 & t3 & -> & HC).
  assert (K : Forall harmless (t1 ++ t2 ++ t3) /\ forall r, f = Returned r -> r = Resumed).
  { inversion HC; subst.
    - rewrite !app_nil_r. split; [assumption|]. intros r E. exfalso. eapply H0, E.
    - split; [apply Forall_app; split; [assumption|eapply rest_resumed_harmless; eassumption]|]. intros r ->. eapply rest_result; eassumption.
    - exfalso. apply stick_app in Hs as (s1 & S1 & _). destruct (reading_store _ _ _ _ _ _ _ Hwf H0 S1) as (_ & N & _). contradiction.
    - exfalso. apply stick_app in Hs as (s1 & S1 & _). destruct (reading_store _ _ _ _ _ _ _ Hwf H0 S1) as (_ & N & _). contradiction. }
  destruct K as [K1 K2]. split; [exact K1|]. split; [eapply harmless_stick; eassumption|exact K2].
Qed.

Lemma rewrite_store v o g r t f s s' : wf_options o -> config_matches v o s -> runs (rest o g r) t f -> stick s t s' -> config_matches v o s'.
Proof.
  intros Hwf Hm H Hs. apply rest_only in H. revert s Hm Hs. induction H as [|a t Ha H IH]; intros s Hm Hs; inversion Hs; subst; [exact Hm|].
  apply (IH s1); [|assumption]. destruct Ha as [Ha|[_ (x & ->)]].
  - rewrite (harmless_act s a s1 Ha) by assumption. exact Hm.
  - destruct Hwf as (_ & _ & _ & _ & _ & Hc). cbn [stick_act] in *. rewrite channels_storage in * by exact Hc.
    assert (K : s1 = s \/ s1 = put s 132 (le4 (o_channels o))) by (destruct x as [[?|?]|]; tauto).
    destruct K as [->| ->]; [exact Hm|]. destruct Hm as ((M1 & M2 & M3 & M4) & M5 & M6).
    unfold config_matches, common_matches, network_matches, marked, put. 
    assert (E : marker v =? 132 = false) by (destruct v; reflexivity). rewrite E. repeat split; assumption.
Qed.

(** one that differs is initialised *)
Lemma differs_initialised v o g b s tr r s' : wf_options o -> ~ accepted v o s ->
  runs (start_znp (version_of v) o g b) tr (Returned r) -> stick s tr s' ->
  r <> Resumed /\ initialised v o tr /\ config_matches v o s'.
Proof.
  intros Hwf Hn H Hs. apply start_course in H as (t1 & t2 & t3 & -> & HC). inversion HC; subst.
  - exfalso. eapply H0. reflexivity.
  - exfalso. apply stick_app in Hs as (s1 & S1 & _). destruct (reading_store _ _ _ _ _ _ _ Hwf H0 S1) as (_ & A & _). contradiction.
  - exfalso. eapply H2. reflexivity.
  - apply stick_app in Hs as (s1 & S1 & Hs). apply stick_app in Hs as (s2 & S2 & S3).
    apply rest_result in H3 as E. split; [rewrite E; destruct c, v; discriminate|].
    split; [apply initialised_app, complete_initialised; assumption|].
    eapply rewrite_store; [exact Hwf| |exact H3|exact S3]. eapply init_store; eassumption.
Qed.

Lemma config_accepted v o s : config_matches v o s -> accepted v o s.
Proof. intros [H1 H2]. split; [exact H1|]. right; left. exact H2. Qed.
Lemma accepted_dec v o s : accepted v o s \/ ~ accepted v o s.
Proof.
  assert (D : forall i b, s i = Some b \/ s i <> Some b).
  { intros i b. destruct (s i) as [c|]; [|right; discriminate]. destruct (list_eq_dec Z.eq_dec c b) as [->|N]; [left; reflexivity|right; congruence]. }
  unfold accepted, common_matches, network_matches, marked.
  pose proof (D (marker v) set_mark). pose proof (D 132 (le4 (o_channels o))). pose proof (D 99 (flag (o_distribute o))).
  pose proof (D 98 (o_key o)). pose proof (D 131 (le2 (o_pan o))). pose proof (D 45 (o_ext o)). pose proof (D 131 [255; 255]).
  assert (v = Stack12 \/ v <> Stack12) by (destruct v; [left; reflexivity|right; discriminate|right; discriminate]). tauto.
Qed.

(** after a completed start the stick is accepted *)
Lemma accepted_afterwards v o g b s tr r s' : wf_options o ->
  runs (start_znp (version_of v) o g b) tr (Returned r) -> stick s tr s' -> accepted v o s'.
Proof.
  intros Hwf H Hs. destruct (accepted_dec v o s) as [A|A].
  - destruct (accepted_left_alone _ _ _ _ _ _ _ _ Hwf A H Hs) as (_ & -> & _). exact A.
  - apply config_accepted. eapply differs_initialised; eassumption.
Qed.

(** ** The marker over an interrupted run *)
Lemma mark_not_set v o tr s s' : stick s tr s' -> Forall (act_well_formed v o) tr -> (forall a bs, In a tr -> ~ writes a (marker v) bs) ->
  ~ marked v s -> ~ marked v s'.
Proof.
  intro H. induction H as [|s a s1 tr s2 Ha H IH]; intros Hw Hn Hm; [exact Hm|].
  inversion Hw; subst. apply IH; [assumption|intros x bs Hx; apply Hn; right; exact Hx|].
  assert (Hna : forall bs, ~ writes a (marker v) bs) by (intro bs; apply Hn; left; reflexivity).
  unfold marked in *. destruct a as [sub cmd d x r|m t|m r|sub cmd d]; cbn [stick_act] in Ha; try (subst s1; exact Hm).
  cbn [act_well_formed writes] in *. unfold item_well_formed in H2.
  destruct (storage_of sub cmd d) as [i|i bs|i bs| |] eqn:E.
  - destruct Ha as [-> _]. exact Hm.
  - assert (K : s1 = s \/ s1 = put s i bs) by (destruct r as [[?|?]|]; tauto). destruct K as [->| ->]; [exact Hm|].
    unfold put. destruct (marker v =? i) eqn:Ei; [|exact Hm]. exfalso. apply (Hna bs). f_equal. lia.
  - destruct (storage_command sub cmd) eqn:Es.
    + destruct (H2 eq_refl) as (-> & Hb & _). destruct (s (marker v)) as [c|] eqn:Ec; [rewrite Ha, Ec; exact Hm|].
      assert (K : s1 = s \/ s1 = put s (marker v) bs) by (destruct r as [[?|?]|]; tauto). destruct K as [->| ->]; [rewrite Ec; discriminate|].
      unfold put. rewrite Z.eqb_refl. congruence.
    + exfalso. revert E Es. unfold storage_of, storage_command. destruct sub; try discriminate.
      * cbn [existsb]. destruct (String.eqb cmd "osalNvRead"); [discriminate|]. destruct (String.eqb cmd "osalNvWrite"); [discriminate|].
        destruct (String.eqb cmd "osalNvItemInit"); [discriminate|]. destruct (String.eqb cmd "resetReq"); discriminate.
      * destruct (String.eqb cmd "readConfiguration"); [destruct (int_of _ _); discriminate|].
        destruct (String.eqb cmd "writeConfiguration"); [destruct (int_of d "configid"), (bytes_of d "value")|]; discriminate.
  - destruct (Ha v) as [->| ->]; [exact Hm|discriminate].
  - subst s1. exact Hm.
Qed.

(** ** Truthful result *)
Lemma result_truthful v o g b tr r : wf_options o -> runs (start_znp (version_of v) o g b) tr (Returned r) ->
  match r with
  | Resumed => Forall harmless tr
  | Reset => initialised v o tr
  | Restored => initialised v o tr /\ v = Stack12 /\
      exists d x a tl, tr = ARequest SYS "osalNvRead" d x (Some a) :: tl /\ int_of d "id" = Some (marker v) /\
        ((exists c, a = Err (CommandError c)) \/ exists m v, a = Ok m /\ dict_get (z_payload m) "value" = Some v /\ v <> VBytes set_mark)
  end.
Proof.
  intros Hwf H. apply start_course in H as (t1 & t2 & t3 & -> & HC). inversion HC; subst.
  - exfalso. eapply H0. reflexivity.
  - apply rest_result in H1 as E. subst r. apply Forall_app. split; [assumption|]. eapply rest_resumed_harmless; eassumption.
  - exfalso. eapply H2. reflexivity.
  - apply rest_result in H3 as E. pose proof (initialised_app v o t1 t2 t3 (complete_initialised v o t2 Hwf H1)) as Hi.
    destruct c; [subst r; exact Hi|]. destruct v; [|subst r; exact Hi|subst r; exact Hi]. subst r. split; [exact Hi|]. split; [reflexivity|].
    destruct H0 as (ta & tb & -> & Ha & _). clear - Ha. unfold has_configured in Ha.
    apply runs_attempt in Ha as [(a & E & Ha)|[[E _]|(u1 & u2 & e & -> & Ha & Hh)]]; [|discriminate E|].
    { injection E as <-. apply runs_seq_ret in Ha as (? & ? & ? & _ & _ & Ha). apply runs_ret_inv in Ha as [_ [E|E]]; discriminate. }
    assert (He : e = AssertionError \/ exists c, e = CommandError c).
    { destruct e; try (destruct Hh as [_ Hh]; discriminate Hh); [left; reflexivity|right; eexists; reflexivity]. }
    clear Hh. apply runs_seq in Ha as [(x1 & x2 & u & -> & _ & Ha)|[[_ E]|(e' & Ha & E)]]; [|discriminate E|].
    { apply runs_ret_inv in Ha as [_ [E|E]]; discriminate. }
    injection E as <-. unfold validate_item, request in Ha. cbn [seq] in Ha. inversion Ha; subst.
    exists (item_configured (version_of Stack12)), [0; 2], r, ((tr ++ u2) ++ tb ++ t2 ++ t3).
    split; [cbn [app]; rewrite <- !app_assoc; reflexivity|]. split; [reflexivity|].
    destruct r as [m|e']; cbn [of_result seq] in *.
    + right. match goal with R : runs _ tr _ |- _ => apply runs_seq in R as [(y1 & y2 & w & -> & R1 & R2)|[[_ E]|(e' & R1 & E)]] end; [|discriminate E|].
      * apply runs_field in R1 as [_ [E|R1]]; [discriminate E|]. exists m, w. split; [reflexivity|].
        destruct (dict_get (z_payload m) "value") as [w'|]; [injection R1 as <-|discriminate R1]. split; [reflexivity|].
        intros ->. apply runs_ret_inv in R2 as [_ [E|E]]; discriminate E.
      * injection E as <-. apply runs_field in R1 as [_ [E|R1]]; [discriminate E|]. destruct (dict_get _ _); [discriminate R1|]. injection R1 as ->.
        destruct He as [He|(c & He)]; discriminate He.
    + left. match goal with R : runs _ tr _ |- _ => apply runs_raise_inv in R as [_ [E|E]] end; [discriminate E|]. injection E as <-.
      destruct He as [->|(c & ->)]; [|exists c; reflexivity]. exfalso. match goal with K : answer_possible _ _ |- _ => apply K; reflexivity end.
Qed.
