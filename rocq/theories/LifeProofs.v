(** * LifeProofs: choosing and probing ports *)
From Verif Require Import Base Types Life SpecLife.
From Coq Require Import ZifyBool ZifyNat.

(** ** strings *)
Lemma prefix_app t s : String.prefix t s = true <-> exists b, s = (t ++ b)%string.
Proof.
  revert s. induction t as [|c t IH]; intro s.
  - split; intro H; [exists s; reflexivity|destruct s; reflexivity].
  - destruct s as [|d s]; [split; [discriminate|intros (b & H); discriminate H]|].
    cbn [String.append String.prefix]. destruct (Ascii.ascii_dec c d) as [->|N].
    + rewrite IH. split; intros (b & E); exists b; congruence.
    + split; [discriminate|]. intros (b & E). congruence.
Qed.
Lemma contains_spec s t : contains s t = true <-> exists a b, s = (a ++ t ++ b)%string.
Proof.
  induction s as [|c s IH]; cbn [contains]; unfold startswith; rewrite orb_true_iff, prefix_app.
  - split.
    + intros [(b & E)|H]; [exists EmptyString, b; exact E|discriminate H].
    + intros (a & b & E). left. destruct a; [exists b; exact E|discriminate E].
  - rewrite IH. split.
    + intros [(b & E)|(a & b & E)]; [exists EmptyString, b; exact E|exists (String c a), b; cbn [String.append]; congruence].
    + intros (a & b & E). destruct a as [|d a]; [left; exists b; exact E|]. right. exists a, b. cbn [String.append] in E. congruence.
Qed.
Definition is_upper (c : Ascii.ascii) : bool := Nat.leb 65 (Ascii.nat_of_ascii c) && Nat.leb (Ascii.nat_of_ascii c) 90.
Lemma lower_letter c d : is_upper d = false -> (lower_ascii c = d <-> same_letter c d).
Proof.
  intro U. unfold lower_ascii, same_letter. fold (is_upper c). destruct (is_upper c) eqn:Uc.
  - unfold is_upper in Uc. assert (B : (65 <= Ascii.nat_of_ascii c <= 90)%nat) by lia. split.
    + intros <-. right. split; [exact B|]. rewrite Ascii.nat_ascii_embedding; lia.
    + intros [->|(_ & E)]; [unfold is_upper in U; lia|].
      rewrite <- E. apply Ascii.ascii_nat_embedding.
  - split; [left; assumption|]. intros [E|(B & _)]; [exact E|unfold is_upper in Uc; lia].
Qed.
Fixpoint no_upper (t : string) : bool :=
  match t with EmptyString => true | String c r => negb (is_upper c) && no_upper r end.
Lemma lower_text m t : no_upper t = true -> (lower m = t <-> same_text m t).
Proof.
  revert t. induction m as [|c m IH]; intros [|d t] U; cbn [lower same_text]; try (split; (discriminate || tauto || reflexivity)).
  cbn [no_upper] in U. apply andb_prop in U. destruct U as (U1 & U2). apply negb_true_iff in U1.
  rewrite <- (lower_letter c d U1), <- (IH t U2). split; [intro E; inversion E; auto|intros (-> & ->); reflexivity].
Qed.
Lemma lower_app a b : lower (a ++ b) = (lower a ++ lower b)%string.
Proof. induction a as [|c a IH]; cbn [lower String.append]; congruence. Qed.
Lemma lower_split s x y : lower s = (x ++ y)%string -> exists a b, s = (a ++ b)%string /\ lower a = x /\ lower b = y.
Proof.
  revert s. induction x as [|c x IH]; intros s E.
  - exists EmptyString, s. auto.
  - destruct s as [|d s]; [discriminate E|]. cbn [lower String.append] in E. inversion E as [[E1 E2]].
    destruct (IH s E2) as (a & b & -> & <- & <-). exists (String d a), b. auto.
Qed.
Lemma search_spec s t : no_upper t = true -> (contains (lower s) t = true <-> mentions s t).
Proof.
  intro U. rewrite contains_spec. unfold mentions. split.
  - intros (a & b & E). apply lower_split in E. destruct E as (a' & r & -> & <- & E).
    apply lower_split in E. destruct E as (m & b' & -> & E & <-). exists a', m, b'. split; [reflexivity|]. apply lower_text; assumption.
  - intros (a & m & b & -> & E). apply lower_text in E; [|exact U]. exists (lower a), (lower b). rewrite !lower_app. congruence.
Qed.
Lemma usb_search_spec s : usb_search s = true <-> mentions s "0451:" \/ mentions s "1a86:7523".
Proof.
  unfold usb_search. rewrite orb_true_iff, !search_spec by reflexivity. reflexivity.
Qed.
Lemma port_matches_spec p : port_matches p = true <-> is_adapter p.
Proof.
  unfold port_matches, is_adapter. rewrite !orb_true_iff, !usb_search_spec. cbn [In]. split.
  - intros [[H|H]|H]; eexists; (split; [|exact H]); auto.
  - intros (s & [<-|[<-|[<-|[]]]] & H); auto.
Qed.

(** ** detection *)
Lemma filter_single {A} (p : A -> bool) l d :
  filter p l = [d] <-> exists l1 l2, l = l1 ++ d :: l2 /\ p d = true /\ forall x, In x l1 \/ In x l2 -> p x = false.
Proof.
  split.
  - revert d. induction l as [|a l IH]; intros d E; cbn [filter] in E; [discriminate E|].
    destruct (p a) eqn:Pa.
    + inversion E as [[E1 E2]]. subst a. exists [], l. split; [reflexivity|]. split; [exact Pa|].
      intros x [[]|Hx]. destruct (p x) eqn:Px; [|reflexivity].
      assert (In x (filter p l)) by (apply filter_In; auto). rewrite E2 in H. destruct H.
    + destruct (IH d E) as (l1 & l2 & -> & Pd & O). exists (a :: l1), l2. split; [reflexivity|]. split; [exact Pd|].
      intros x [[<-|Hx]|Hx]; auto.
  - intros (l1 & l2 & -> & Pd & O). rewrite filter_app. cbn [filter]. rewrite Pd.
    assert (Z1 : filter p l1 = []) by (clear - O; induction l1 as [|a l IH]; [reflexivity|]; cbn [filter]; rewrite (O a) by (left; left; reflexivity); apply IH; intros x [H|H]; apply O; [left; right; exact H|right; exact H]).
    assert (Z2 : filter p l2 = []) by (clear - O; induction l2 as [|a l IH]; [reflexivity|]; cbn [filter]; rewrite (O a) by (right; left; reflexivity); apply IH; intros x [H|H]; apply O; [left; exact H|right; right; exact H]).
    rewrite Z1, Z2. reflexivity.
Qed.
Lemma matches_false p : port_matches p = false <-> ~ is_adapter p.
Proof. rewrite <- port_matches_spec. destruct (port_matches p); split; congruence. Qed.
Lemma detect_iff attached d : detect_port attached = Ok d <-> only_adapter d attached.
Proof.
  unfold only_adapter, detect_port.
  assert (E : forall d, ports_grep attached = [d] <-> exists l1 l2, attached = l1 ++ d :: l2 /\ is_adapter d /\ forall x, In x l1 \/ In x l2 -> ~ is_adapter x).
  { intro c. unfold ports_grep. rewrite filter_single. split; intros (l1 & l2 & H1 & H2 & H3); exists l1, l2;
      (split; [exact H1|]); (split; [apply port_matches_spec; exact H2|]); intros x Hx; apply matches_false, H3, Hx. }
  rewrite <- E. destruct (ports_grep attached) as [|a [|b r]]; split; intro H; try discriminate H; congruence.
Qed.
Lemma detect_raises attached : (forall d, ~ only_adapter d attached) -> detect_port attached = Err SerialException.
Proof.
  intro N. destruct (detect_port attached) as [d|e] eqn:E; [destruct (N d); apply detect_iff; exact E|].
  unfold detect_port in E. destruct (ports_grep attached) as [|a [|b r]]; congruence.
Qed.
Lemma connect_auto c attached a : dc_path c = "auto" ->
  (connect_args c attached = Ok a <->
   exists d, only_adapter d attached /\ sa_url a = p_device d /\ sa_baudrate a = dc_baudrate c
             /\ sa_xonxoff a = fst (flow_flags (dc_flow c)) /\ sa_rtscts a = snd (flow_flags (dc_flow c))).
Proof.
  intro P. unfold connect_args. rewrite P. rewrite String.eqb_refl.
  destruct (flow_flags (dc_flow c)) as (x, y). cbn [fst snd]. destruct (detect_port attached) as [d|e] eqn:E; cbn [bind].
  - split.
    + intro H. inversion H; subst. exists d. split; [apply detect_iff; exact E|]. auto.
    + intros (d' & O & H1 & H2 & H3 & H4). apply detect_iff in O. assert (d' = d) by congruence. subst d'.
      destruct a as [u1 b1 x1 r1]; cbn [sa_url sa_baudrate sa_xonxoff sa_rtscts] in *. subst. reflexivity.
  - split; [discriminate|]. intros (d' & O & _). apply detect_iff in O. congruence.
Qed.
Lemma connect_explicit c attached : dc_path c <> "auto" ->
  connect_args c attached = Ok (mk_serial_args (dc_path c) (dc_baudrate c) (fst (flow_flags (dc_flow c))) (snd (flow_flags (dc_flow c)))).
Proof.
  intro P. unfold connect_args. destruct (String.eqb_spec (dc_path c) "auto"); [contradiction|]. cbn [bind].
  destruct (flow_flags (dc_flow c)). reflexivity.
Qed.
Lemma connect_fails c attached e : connect_args c attached = Err e ->
  e = SerialException /\ dc_path c = "auto" /\ forall d, ~ only_adapter d attached.
Proof.
  unfold connect_args. destruct (String.eqb_spec (dc_path c) "auto") as [P|P].
  - destruct (detect_port attached) as [d|x] eqn:E; cbn [bind]; [destruct (flow_flags (dc_flow c)); discriminate|].
    intro H. assert (x = e) by congruence. subst x. split; [|split; [exact P|]].
    + unfold detect_port in E. destruct (ports_grep attached) as [|a [|b r]]; congruence.
    + intros d O. apply detect_iff in O. congruence.
  - cbn [bind]. destruct (flow_flags (dc_flow c)); discriminate.
Qed.
Lemma flow_exclusive f : ~ (fst (flow_flags f) = true /\ snd (flow_flags f) = true).
Proof.
  unfold flow_flags. destruct f as [f|]; [|cbn [fst snd]; intuition congruence].
  destruct (String.eqb f "hardware"); [|destruct (String.eqb f "software")]; cbn [fst snd]; intuition congruence.
Qed.
Lemma flow_hardware : flow_flags (Some "hardware"%string) = (false, true). Proof. reflexivity. Qed.
Lemma flow_software : flow_flags (Some "software"%string) = (true, false). Proof. reflexivity. Qed.

(** ** probing *)
Lemma probe_true w : sane_world w -> (fst (probe w) = Ok true <-> answered_in_time w).
Proof.
  intros (S1 & S2). unfold probe, probe_task, answered_in_time, PROBE_LIMIT, SETTLE_MS.
  destruct (pw_open w) as [[]|e]; [|cbn [fst]; destruct (probe_catches e); split; try discriminate; intros (H & _); discriminate H].
  destruct (Z.leb_spec 2000 (pw_open_ms w + 1000)); cbn [fst].
  - split; [discriminate|]. intros (_ & ms & R & L). specialize (S2 _ _ R). lia.
  - destruct (pw_reply w) as [(ms, r)|]; [|cbn [fst]; split; [discriminate|]; intros (_ & ms & R & _); discriminate R].
    destruct (Z.leb_spec 2000 (pw_open_ms w + 1000 + ms)); cbn [fst].
    + split; [discriminate|]. intros (_ & m & R & L). inversion R; subst. lia.
    + destruct r as [[]|e]; split; intro H1; try (destruct (probe_catches e); discriminate H1); try reflexivity.
      * split; [reflexivity|]. exists ms. auto.
      * destruct H1 as (_ & m & R & _). discriminate R.
Qed.
Lemma catches_spec e : probe_catches e = true <-> caught e.
Proof.
  unfold caught. split.
  - destruct e; cbn [probe_catches]; intro H; try discriminate H; eauto.
  - intros [->|[->|(x & ->)]]; reflexivity.
Qed.
Lemma probe_cases w : sane_world w ->
  match fst (probe w) with
  | Ok true => answered_in_time w
  | Ok false => ~ answered_in_time w /\ forall e, world_error w e -> caught e
  | Err e => world_error w e /\ ~ caught e
  end.
Proof.
  intro S. destruct (fst (probe w)) as [[]|e] eqn:E.
  - apply probe_true; assumption.
  - split; [intro A; apply probe_true in A; congruence|]. intros e We. apply catches_spec.
    destruct S as (S1 & S2). unfold probe, probe_task, PROBE_LIMIT, SETTLE_MS in E.
    destruct We as [We|(We & ms & R & L)]; rewrite We in E; cbn [fst] in E.
    + destruct (probe_catches e); [reflexivity|discriminate E].
    + specialize (S2 _ _ R). rewrite R in E. rewrite (proj2 (Z.leb_gt 2000 (pw_open_ms w + 1000))) in E by lia.
      rewrite (proj2 (Z.leb_gt 2000 (pw_open_ms w + 1000 + ms))) in E by lia.
      cbn [fst] in E. destruct (probe_catches e); [reflexivity|discriminate E].
  - unfold probe, probe_task, PROBE_LIMIT, SETTLE_MS, world_error in *.
    destruct (pw_open w) as [[]|x]; cbn [fst] in E.
    + destruct (Z.leb_spec 2000 (pw_open_ms w + 1000)); [discriminate E|].
      destruct (pw_reply w) as [(ms, r)|]; [|discriminate E].
      destruct (Z.leb_spec 2000 (pw_open_ms w + 1000 + ms)); [discriminate E|]. cbn [fst] in E.
      destruct r as [[]|x]; [discriminate E|]. destruct (probe_catches x) eqn:C; [discriminate E|].
      assert (x = e) by congruence. subst x. split; [right; split; [reflexivity|]; exists ms; auto|].
      intro K. apply catches_spec in K. congruence.
    + destruct (probe_catches x) eqn:C; [discriminate E|]. assert (x = e) by congruence. subst x.
      split; [left; reflexivity|]. intro K. apply catches_spec in K. congruence.
Qed.
Lemma probe_left_open w : snd (probe w) = true <-> pw_open w = Ok tt /\ 1000 <= pw_open_ms w.
Proof.
  unfold probe, probe_task, PROBE_LIMIT, SETTLE_MS. destruct (pw_open w) as [[]|e].
  - destruct (Z.leb_spec 2000 (pw_open_ms w + 1000)); cbn [snd andb negb].
    + split; [|reflexivity]. intros _. split; [reflexivity|lia].
    + destruct (pw_reply w) as [(ms, r)|]; [destruct (Z.leb_spec 2000 (pw_open_ms w + 1000 + ms))|]; cbn [snd andb negb]; split; try discriminate; lia.
  - cbn [snd andb]. split; [discriminate|]. intros (H & _). discriminate H.
Qed.
Lemma probe_silent w : pw_open w = Ok tt -> pw_reply w = None -> fst (probe w) = Ok false.
Proof.
  intros O R. unfold probe, probe_task. rewrite O, R. destruct (Z.leb PROBE_LIMIT (pw_open_ms w + SETTLE_MS)); reflexivity.
Qed.
