(** * ConfigProofs: proofs about the device section *)
From Coq Require Import Permutation.
From Verif Require Import Base Life SpecLife Config SpecConfig LifeProofs.

Lemma lookup_some d : NoDup (map fst d) -> forall k v, lookup k d = Some v <-> In (k, v) d.
Proof.
  induction d as [|(k', v') r IH]; intros N k v; cbn [lookup In]; [split; [discriminate|contradiction]|].
  cbn [map fst] in N. inversion_clear N as [|? ? NI N']. destruct (String.eqb_spec k' k) as [->|D].
  - split; [intro E; left; congruence|intros [E|E]; [congruence|]]. exfalso. apply NI. apply (in_map fst) in E. exact E.
  - rewrite (IH N'). split; [auto|intros [E|E]; [congruence|exact E]].
Qed.
Lemma lookup_says d k : NoDup (map fst d) -> says d k (lookup k d).
Proof.
  intro N. destruct (lookup k d) as [v|] eqn:L; cbn [says]; [apply lookup_some; assumption|].
  intros x E. apply (lookup_some d N) in E. congruence.
Qed.
Lemma says_lookup d k v : NoDup (map fst d) -> says d k v -> lookup k d = v.
Proof.
  intros N S. destruct v as [v|]; cbn [says] in S; [apply lookup_some; assumption|].
  destruct (lookup k d) as [v|] eqn:L; [|reflexivity]. apply (lookup_some d N) in L. destruct (S _ L).
Qed.
Lemma known_keys d : forallb (fun kv : string * cval => known_key (fst kv)) d = true <->
  (forall k v, In (k, v) d -> In k ["path"; "baudrate"; "flow_control"]%string).
Proof.
  rewrite forallb_forall. split.
  - intros H k v I. specialize (H _ I). cbn [fst] in H. unfold known_key in H. rewrite !orb_true_iff, !String.eqb_eq in H. cbn [In]. intuition.
  - intros H (k, v) I. specialize (H _ _ I). cbn [fst In] in *. unfold known_key. rewrite !orb_true_iff, !String.eqb_eq. intuition.
Qed.
Lemma check_path_iff ex v p : check_path ex v = Some p <-> v = CStr p /\ (p = "auto"%string \/ p <> ""%string /\ ex p = true).
Proof.
  destruct v; cbn [check_path]; try (split; [discriminate|intros (E & _); discriminate E]).
  destruct (String.eqb_spec s ""), (ex s) eqn:X, (String.eqb_spec s "auto"); cbn [negb andb];
    (split; [intro E; try discriminate; injection E as <-; tauto|intros (E & H); injection E as ->; try reflexivity; exfalso; destruct H as [H|(H & H')]; congruence]).
Qed.
Lemma check_baudrate_iff v b : check_baudrate v = Some b <-> v = CInt b \/ v = CBool true /\ b = 1 \/ v = CBool false /\ b = 0.
Proof.
  destruct v as [s|z|[|]| |]; cbn [check_baudrate];
    (split; [intro E; first [discriminate|injection E as <-; intuition]|intros [E|[(E & ->)|(E & ->)]]; first [discriminate|congruence]]).
Qed.
Lemma check_flow_iff v f : check_flow v = Some f <->
  v = CNone /\ f = None \/ v = CStr "hardware" /\ f = Some "hardware"%string \/ v = CStr "software" /\ f = Some "software"%string.
Proof.
  destruct v as [s| | | |]; cbn [check_flow];
    try (split; [first [discriminate|intro E; injection E as <-; auto]|intros [(E & ->)|[(E & ->)|(E & ->)]]; first [discriminate|reflexivity]]).
  destruct (String.eqb_spec s "hardware") as [->|H]; cbn [orb].
  { split; [intro E; injection E as <-; auto|intros [(E & ->)|[(E & ->)|(E & ->)]]; first [discriminate|reflexivity]]. }
  destruct (String.eqb_spec s "software") as [->|S].
  { split; [intro E; injection E as <-; auto|intros [(E & ->)|[(E & ->)|(E & ->)]]; first [discriminate|reflexivity]]. }
  split; [discriminate|intros [(E & ->)|[(E & ->)|(E & ->)]]; congruence].
Qed.

Lemma schema_iff ex d c : NoDup (map fst d) ->
  (schema_device ex d = Some c <-> asks_for ex d (dc_path c) (dc_baudrate c) (dc_flow c)).
Proof.
  intro N. unfold schema_device. pose proof (known_keys d) as K. split.
  - destruct (forallb _ d); [|discriminate]. destruct (lookup "path" d) as [v|] eqn:LP; [|discriminate].
    destruct (check_path ex v) as [p|] eqn:P; [|discriminate].
    destruct (check_baudrate _) as [b|] eqn:B; [|discriminate]. destruct (check_flow _) as [f|] eqn:F; [|discriminate].
    intro E. injection E as <-. cbn [dc_path dc_baudrate dc_flow].
    apply check_path_iff in P. destruct P as (-> & P). apply check_baudrate_iff in B. apply check_flow_iff in F.
    econstructor; [rewrite <- LP; apply lookup_says, N|exact P|apply lookup_says, N| |apply lookup_says, N| |apply K; reflexivity].
    + destruct (lookup "baudrate" d) as [x|]; [right|left].
      * destruct B as [->|[(-> & ->)|(-> & ->)]]; auto.
      * split; [reflexivity|]. destruct B as [B|[(B & _)|(B & _)]]; [injection B as <-; reflexivity|discriminate|discriminate].
    + destruct (lookup "flow_control" d) as [x|].
      * destruct F as [(-> & ->)|[(-> & ->)|(-> & ->)]]; auto.
      * destruct F as [(_ & ->)|[(F & _)|(F & _)]]; [auto|discriminate|discriminate].
  - intro A. destruct c as [p b f]. cbn [dc_path dc_baudrate dc_flow] in A.
    destruct A as [b f pb pf SP P SB B SF F KK]. rewrite (proj2 K KK).
    apply (says_lookup _ _ _ N) in SP, SB, SF. rewrite SP, SB, SF.
    rewrite (proj2 (check_path_iff ex (CStr p) p)) by auto.
    assert (check_baudrate (match pb with Some x => x | None => CInt BAUDRATE_DEFAULT end) = Some b) as ->.
    { apply check_baudrate_iff. destruct B as [(-> & ->)|[->|[(-> & ->)|(-> & ->)]]]; auto. }
    assert (check_flow (match pf with Some x => x | None => CNone end) = Some f) as ->; [|reflexivity].
    apply check_flow_iff. destruct F as [([->| ->] & ->)|[(-> & ->)|(-> & ->)]]; auto.
Qed.

Lemma says_det d k v w : NoDup (map fst d) -> says d k v -> says d k w -> v = w.
Proof. intros N A B. rewrite <- (says_lookup _ _ _ N A). apply says_lookup; assumption. Qed.
Lemma says_perm d d' k v : Permutation d d' -> says d k v -> says d' k v.
Proof.
  intros P S. destruct v as [v|]; cbn [says] in *; [apply (Permutation_in _ P), S|].
  intros x I. apply (S x), (Permutation_in _ (Permutation_sym P)), I.
Qed.
Lemma asks_perm ex d d' p b f : Permutation d d' -> asks_for ex d p b f -> asks_for ex d' p b f.
Proof.
  intros P A. destruct A as [b f pb pf SP PP SB B SF F KK].
  econstructor; [apply (says_perm _ _ _ _ P SP)|exact PP|apply (says_perm _ _ _ _ P SB)|exact B|apply (says_perm _ _ _ _ P SF)|exact F|].
  intros k v I. apply (KK k v), (Permutation_in _ (Permutation_sym P)), I.
Qed.
Lemma schema_order ex d d' : NoDup (map fst d) -> Permutation d d' -> schema_device ex d = schema_device ex d'.
Proof.
  intros N P. assert (N' : NoDup (map fst d')) by (apply (Permutation_NoDup (Permutation_map fst P)), N).
  destruct (schema_device ex d) as [c|] eqn:E.
  - symmetry. apply schema_iff; [exact N'|]. apply (asks_perm _ d); [exact P|]. apply schema_iff; assumption.
  - destruct (schema_device ex d') as [c|] eqn:E'; [|reflexivity]. exfalso.
    apply schema_iff in E'; [|exact N']. apply (asks_perm _ _ d) in E'; [|apply Permutation_sym, P].
    apply schema_iff in E'; [congruence|exact N].
Qed.
Lemma asks_det ex d p b f p' b' f' : NoDup (map fst d) -> asks_for ex d p b f -> asks_for ex d p' b' f' -> p = p' /\ b = b' /\ f = f'.
Proof.
  intros N A B.
  apply (proj2 (schema_iff ex d (mk_device_config p b f) N)) in A.
  apply (proj2 (schema_iff ex d (mk_device_config p' b' f') N)) in B.
  rewrite A in B. injection B as -> -> ->. auto.
Qed.

(** the port is opened as the section asks *)
Lemma asks_flow ex d p b f : asks_for ex d p b f -> f = None \/ f = Some "hardware"%string \/ f = Some "software"%string.
Proof. intros [b' f' pb pf _ _ _ _ _ F _]. destruct F as [(_ & ->)|[(_ & ->)|(_ & ->)]]; auto. Qed.
Lemma opened ex d c attached a : NoDup (map fst d) -> schema_device ex d = Some c -> connect_args c attached = Ok a ->
  exists p b f, asks_for ex d p b f /\ sa_baudrate a = b /\
    sa_rtscts a = match f with Some g => String.eqb g "hardware" | None => false end /\
    sa_xonxoff a = match f with Some g => String.eqb g "software" | None => false end /\
    (p = "auto"%string -> exists x, only_adapter x attached /\ sa_url a = p_device x) /\
    (p <> "auto"%string -> sa_url a = p /\ ex p = true).
Proof.
  intros N E C. apply schema_iff in E; [|exact N]. exists (dc_path c), (dc_baudrate c), (dc_flow c). split; [exact E|].
  assert (F : fst (flow_flags (dc_flow c)) = match dc_flow c with Some g => String.eqb g "software" | None => false end /\
              snd (flow_flags (dc_flow c)) = match dc_flow c with Some g => String.eqb g "hardware" | None => false end).
  { destruct (asks_flow _ _ _ _ _ E) as [->|[->| ->]]; split; reflexivity. }
  destruct F as (F1 & F2). destruct (String.eqb_spec (dc_path c) "auto") as [P|P].
  - apply connect_auto in C; [|exact P]. destruct C as (x & O & U & B & X & R). rewrite F1 in X. rewrite F2 in R.
    repeat (split; [assumption|]). split; [exists x; auto|contradiction].
  - rewrite connect_explicit in C by exact P. injection C as <-. cbn [sa_baudrate sa_rtscts sa_xonxoff sa_url].
    split; [reflexivity|]. split; [exact F2|]. split; [exact F1|]. split; [contradiction|]. intros _. split; [reflexivity|].
    destruct E as [b' f' pb pf _ [E|(_ & E)] _ _ _ _ _]; [contradiction|exact E].
Qed.
(** and not at all only if the adapter is missing or not the only one *)
Lemma not_opened ex d c attached e : NoDup (map fst d) -> schema_device ex d = Some c -> connect_args c attached = Err e ->
  In ("path"%string, CStr "auto") d /\ e = SerialException /\ forall x, ~ only_adapter x attached.
Proof.
  intros N E C. apply schema_iff in E; [|exact N]. apply connect_fails in C. destruct C as (X & P & C).
  destruct E as [b' f' pb pf SP _ _ _ _ _ _]. cbn [says] in SP. rewrite P in SP. auto.
Qed.

(** probing *)
Lemma probe_raises ex d attached w : NoDup (map fst d) ->
  (probe_device ex d attached w = None <-> forall p b f, ~ asks_for ex d p b f).
Proof.
  intro N. unfold probe_device. destruct (schema_device ex d) as [c|] eqn:E.
  - split; [discriminate|intro A]. apply schema_iff in E; [|exact N]. destruct (A _ _ _ E).
  - split; [|reflexivity]. intros _ p b f A. apply (proj2 (schema_iff ex d (mk_device_config p b f) N)) in A. congruence.
Qed.
Lemma probe_chosen ex d attached w p b f : NoDup (map fst d) -> asks_for ex d p b f ->
  (p <> "auto"%string \/ exists x, only_adapter x attached) -> probe_device ex d attached w = Some (probe w).
Proof.
  intros N A H. apply (proj2 (schema_iff ex d (mk_device_config p b f) N)) in A. unfold probe_device. rewrite A.
  destruct (connect_args _ attached) as [a|e] eqn:C; [reflexivity|]. exfalso.
  apply connect_fails in C. destruct C as (_ & P & C). destruct H as [H|(x & H)]; [exact (H P)|exact (C x H)].
Qed.
Lemma probe_no_adapter ex d attached w b f : NoDup (map fst d) -> asks_for ex d "auto" b f -> (forall x, ~ only_adapter x attached) ->
  probe_device ex d attached w = Some (Ok false, false).
Proof.
  intros N A H. apply (proj2 (schema_iff ex d (mk_device_config "auto" b f) N)) in A. unfold probe_device. rewrite A.
  destruct (connect_args _ attached) as [a|e] eqn:C.
  - apply connect_auto in C; [|reflexivity]. destruct C as (x & O & _). destruct (H x O).
  - apply connect_fails in C. destruct C as (-> & _). reflexivity.
Qed.
