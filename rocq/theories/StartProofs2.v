(** * StartProofs2: reading parts, shape of a start, the marker *)
From Coq Require Import ZifyBool ZifyNat.
From Verif Require Import Base Types Buffalo Zpi Api SpecCodec SpecMachine Nv StartZnp SpecStart StartProofs.
Ltac Zify.zify_post_hook ::= Z.div_mod_to_equations.

(** ** Bytes of the items *)
Lemma land255 z : Z.land z 255 = z mod 256.
Proof. apply (Z.land_ones z 8). lia. Qed.
Lemma pan_bytes z : 0 <= z < 65536 -> [Z.land z 255; Z.land (Z.shiftr z 8) 255] = le2 z.
Proof.
  intro H. unfold le2. rewrite !land255, !Z.shiftr_div_pow2 by lia. change (2 ^ 8) with 256.
  f_equal. f_equal. apply Z.mod_small. lia.
Qed.
Lemma channel_bytes z : 0 <= z < 4294967296 ->
  [Z.land z 255; Z.land (Z.shiftr z 8) 255; Z.land (Z.shiftr z 16) 255; Z.land (Z.shiftr z 24) 255] = le4 z.
Proof.
  intro H. unfold le4. rewrite !land255, !Z.shiftr_div_pow2 by lia.
  change (2 ^ 8) with 256. change (2 ^ 16) with 65536. change (2 ^ 24) with 16777216.
  do 3 f_equal. f_equal. apply Z.mod_small. lia.
Qed.
Lemma le2_range z : 0 <= z < 65536 -> Forall (fun b => 0 <= b < 256) (le2 z).
Proof. intro H. repeat constructor; lia. Qed.
Lemma le4_range z : 0 <= z < 4294967296 -> Forall (fun b => 0 <= b < 256) (le4 z).
Proof. intro H. repeat constructor; lia. Qed.
Lemma flag_eq (b : bool) : [if b then 1 else 0] = flag b.
Proof. destruct b; reflexivity. Qed.
Lemma configured_marker v : configured_id (version_of v) = marker v.
Proof. destruct v; reflexivity. Qed.
Lemma stack3_version v : stack3 (version_of v) = match v with Stack12 => false | _ => true end.
Proof. destruct v; reflexivity. Qed.

(** ** Parts that do not touch the configuration *)
Ltac harmless_ := onl; try exact I.
Lemma validate_harmless item sub cmd x i : storage_of sub cmd item = Reads i -> only harmless (validate_item item sub cmd x).
Proof. intro H. unfold validate_item. onl. cbn [harmless]. rewrite H. exact I. Qed.
Lemma has_configured_harmless v : only harmless (has_configured v).
Proof.
  unfold has_configured. apply only_attempt.
  - apply only_seq; [|intro; apply only_ret]. eapply validate_harmless. reflexivity.
  - intros e q E. destruct e; try discriminate E; injection E as <-; apply only_ret.
Qed.
Lemma validate_pan_harmless v o : only harmless (validate_pan v o).
Proof.
  unfold validate_pan. apply only_attempt.
  - apply only_seq; [|intros _]; eapply validate_harmless; reflexivity.
  - intros e q E. destruct (is_assertion e); [|discriminate E].
    match type of E with Some ?x = Some ?y => assert (Eq : y = x) by congruence; subst y end.
    destruct (stack3 v); [|apply only_ret]. harmless_.
Qed.
Lemma needs_init_harmless v o : only harmless (needs_init v o).
Proof.
  unfold needs_init. apply only_attempt.
  - do 3 (apply only_seq; [eapply validate_harmless; reflexivity|intros _]).
    apply only_seq; [destruct (v =? zStack3x0); eapply validate_harmless; reflexivity|intros _].
    apply only_seq; [apply validate_pan_harmless|intros _; apply only_ret].
  - intros e q E. destruct (is_assertion e); [injection E as <-; apply only_ret|discriminate E].
Qed.
Lemma boot_harmless : only harmless boot.
Proof. unfold boot. harmless_. Qed.
Lemma register_loop_only (P : act -> Prop) active es : (forall e r, In e es -> P (ARequest AF "register" (ep_vars e) [0] r)) -> only P (register_loop active es).
Proof.
  induction es as [|e es IH]; intro H; cbn [register_loop]; [apply only_ret|].
  onl; try (apply H; left; reflexivity). all: apply IH; intros e' r He; apply H; right; exact He.
Qed.
Lemma register_harmless : only harmless register_endpoints.
Proof. unfold register_endpoints. onl; try exact I. Qed.
Lemma group_harmless ep g : only harmless (add_to_group ep g).
Proof. unfold add_to_group. harmless_. Qed.

(** ** The stick's items *)
Lemma stick_app s t1 t2 s' : stick s (t1 ++ t2) s' -> exists s1, stick s t1 s1 /\ stick s1 t2 s'.
Proof.
  revert s. induction t1 as [|a t1 IH]; intros s H; [exists s; split; [constructor|exact H]|].
  cbn [app] in H. inversion H; subst. destruct (IH _ H5) as (s2 & H1 & H2). exists s2. split; [econstructor; eassumption|exact H2].
Qed.
Lemma harmless_act s a s' : harmless a -> stick_act s a s' -> s' = s.
Proof.
  destruct a as [sub cmd d x r|m t|m r|sub cmd d]; cbn [harmless stick_act]; try tauto.
  destruct (storage_of sub cmd d); tauto.
Qed.
Lemma harmless_stick s tr s' : Forall harmless tr -> stick s tr s' -> s' = s.
Proof.
  intros H K. induction K; [reflexivity|]. inversion H; subst. assert (s1 = s) by (eapply harmless_act; eassumption). subst s1. auto.
Qed.

(** ** Decisions against the stick's items *)
Definition hoare {A} (p : prog A) (s : store) (Q : fin A -> Prop) : Prop :=
  only harmless p /\ forall tr f, runs p tr f -> stick s tr s -> Q f.
Lemma hoare_split {A} (p : prog A) t1 t2 s (f : fin A) : only harmless p -> runs p t1 f -> stick s (t1 ++ t2) s -> stick s t1 s /\ stick s t2 s.
Proof.
  intros Hp Hr Hs. apply stick_app in Hs as (s1 & H1 & H2).
  assert (s1 = s) by (eapply harmless_stick; [eapply Hp, Hr|exact H1]). subst s1. split; assumption.
Qed.
Lemma hoare_seq {A B} (p : prog A) (g : A -> prog B) s Q : only harmless p -> (forall a, only harmless (g a)) ->
  hoare p s (fun f => match f with Returned a => hoare (g a) s Q | Raised e => Q (Raised e) | Interrupted => Q Interrupted end) -> hoare (seq p g) s Q.
Proof.
  intros Hp Hg [_ H]. split; [apply only_seq; assumption|]. intros tr f Hr Hs.
  destruct (runs_seq _ _ _ _ Hr) as [(t1 & t2 & a & -> & H1 & H2)|[[H1 ->]|(e & H1 & ->)]].
  - destruct (hoare_split p t1 t2 s _ Hp H1 Hs) as [S1 S2]. apply (proj2 (H _ _ H1 S1) _ _ H2 S2).
  - apply (H _ _ H1 Hs).
  - apply (H _ _ H1 Hs).
Qed.
Lemma hoare_attempt {A} (p : prog A) h s (Q : fin A -> Prop) : only harmless p -> (forall e q, h e = Some q -> only harmless q) ->
  hoare p s (fun f => match f with
    | Raised e => match h e with Some q => hoare q s Q | None => Q f end
    | _ => Q f end) -> hoare (attempt p h) s Q.
Proof.
  intros Hp Hh [_ H]. split; [apply only_attempt; assumption|]. intros tr f Hr Hs.
  destruct (runs_attempt _ _ _ _ Hr) as [(a & -> & H1)|[[-> H1]|(t1 & t2 & e & -> & H1 & H2)]].
  - apply (H _ _ H1 Hs).
  - apply (H _ _ H1 Hs).
  - destruct (hoare_split p t1 t2 s _ Hp H1 Hs) as [S1 S2]. specialize (H _ _ H1 S1). cbn beta iota in H.
    destruct (h e) as [q|] eqn:E; [apply (proj2 H _ _ H2 S2)|]. destruct H2 as [-> ->]. exact H.
Qed.
Lemma hoare_impl {A} (p : prog A) s (Q Q' : fin A -> Prop) : hoare p s Q -> (forall f, Q f -> Q' f) -> hoare p s Q'.
Proof. intros [H1 H2] H. split; [exact H1|]. intros tr f Hr Hs. eapply H, H2; eassumption. Qed.
Lemma hoare_ret {A} (a : A) s (Q : fin A -> Prop) : Q Interrupted -> Q (Returned a) -> hoare (DRet a) s Q.
Proof. intros H1 H2. split; [apply only_ret|]. intros tr f Hr _. apply runs_ret_inv in Hr as [_ [->| ->]]; assumption. Qed.
Lemma hoare_raise {A} e s (Q : fin A -> Prop) : Q Interrupted -> Q (Raised e) -> hoare (DRaise e) s Q.
Proof. intros H1 H2. split; [apply only_raise|]. intros tr f Hr _. apply runs_raise_inv in Hr as [_ [->| ->]]; assumption. Qed.

(** reading one item *)
Lemma hoare_read sub cmd d x i s : storage_of sub cmd d = Reads i ->
  hoare (let! result := request sub cmd d x in field result "value") s
    (fun f => match f with Returned v => v = VBytes (stored s i) | Raised e => e <> AssertionError | Interrupted => True end).
Proof.
  intro Hst. assert (Ho : only harmless (request sub cmd d x)) by (apply only_request; intro; cbn [harmless]; rewrite Hst; exact I).
  split; [apply only_seq; [exact Ho|intro; apply only_field]|].
  intros tr f Hr Hs. unfold request in Hr. cbn [seq] in Hr. inversion Hr; subst; [exact I|exact I|]. clear Hr.
  inversion Hs; subst. cbn [stick_act] in *. rewrite Hst in *.
  destruct r as [m|e]; cbn [of_result seq answer_possible] in *.
  - match goal with R : runs _ _ _ |- _ => apply runs_field in R as [-> [->|R]] end; [exact I|].
    match goal with K : _ /\ _ |- _ => destruct K as (_ & Hv & _) end. rewrite Hv in *. subst f. reflexivity.
  - match goal with R : runs _ _ _ |- _ => apply runs_raise_inv in R as [-> [->| ->]] end; [exact I|assumption].
Qed.
Lemma seq_assoc_field {B} sub cmd d x n (g : value -> prog B) tr f :
  runs (let! result := request sub cmd d x in let! v := field result n in g v) tr f ->
  runs (seq (let! result := request sub cmd d x in field result n) g) tr f.
Proof.
  unfold request. cbn [seq]. intro H. inversion H; subst; try constructor; try assumption.
  destruct r; cbn [of_result seq] in *; assumption.
Qed.
Lemma stored_some s i b : b <> [] -> (stored s i = b <-> s i = Some b).
Proof. intro H. unfold stored. destruct (s i); split; intro E; try congruence. Qed.

Lemma hoare_validate item sub cmd x i iv s : storage_of sub cmd item = Reads i -> item_value item = VBytes iv -> iv <> [] ->
  hoare (validate_item item sub cmd x) s
    (fun f => match f with Returned _ => s i = Some iv | Raised e => e = AssertionError -> s i <> Some iv | Interrupted => True end).
Proof.
  intros Hst Hiv Hne. split; [eapply validate_harmless, Hst|]. intros tr f Hr Hs. unfold validate_item in Hr.
  apply seq_assoc_field in Hr.
  pose proof (hoare_read sub cmd item x i s Hst) as [Ho Hh].
  destruct (runs_seq _ _ _ _ Hr) as [(t1 & t2 & a & -> & H1 & H2)|[[H1 ->]|(e & H1 & ->)]].
  - destruct (hoare_split _ t1 t2 s _ Ho H1 Hs) as [S1 S2]. pose proof (Hh _ _ H1 S1) as Ha. cbn in Ha. subst a.
    rewrite Hiv in H2. cbn [value_eqb] in H2. destruct (list_eq_dec Z.eq_dec (stored s i) iv) as [E|E].
    + apply runs_ret_inv in H2 as [_ [->| ->]]; [exact I|]. apply stored_some; assumption.
    + apply runs_raise_inv in H2 as [_ [->| ->]]; [exact I|]. intros _ C. apply E. apply stored_some; assumption.
  - exact I.
  - pose proof (Hh _ _ H1 Hs) as Ha. cbn in Ha. intro E. contradiction.
Qed.
