(** * LifeProofs2: bookkeeping invariant of ports, APIs and coroutines *)
From Verif Require Import Base Types Life SpecLife.
From Coq Require Import ZifyBool ZifyNat.

(** ** lists *)
Lemma nth_set {A} (l : list A) n m x :
  nth_error (set_nth n x l) m = if Nat.eqb m n then (match nth_error l n with Some _ => Some x | None => None end) else nth_error l m.
Proof.
  revert n m. induction l as [|a l IH]; intros n m; cbn [set_nth].
  - destruct (Nat.eqb_spec m n) as [->|]; [destruct n|destruct m; destruct n]; reflexivity.
  - destruct n as [|n]; destruct m as [|m]; cbn [nth_error set_nth]; try reflexivity. rewrite IH. reflexivity.
Qed.
Lemma len_set {A} (l : list A) n x : length (set_nth n x l) = length l.
Proof. revert n. induction l as [|a l IH]; intros [|n]; cbn [set_nth length]; auto. Qed.
Lemma nth_snoc {A} (l : list A) x n : nth_error (l ++ [x]) n = if Nat.eqb n (length l) then Some x else nth_error l n.
Proof.
  destruct (Nat.eqb_spec n (length l)) as [->|N].
  - rewrite nth_error_app2, Nat.sub_diag by lia. reflexivity.
  - destruct (Nat.lt_ge_cases n (length l)); [apply nth_error_app1; assumption|].
    rewrite (proj2 (nth_error_None l n)) by lia. apply nth_error_None. rewrite app_length. cbn [length]. lia.
Qed.
Lemma nth_lt {A} (l : list A) n x : nth_error l n = Some x -> (n < length l)%nat.
Proof. intro H. apply nth_error_Some. congruence. Qed.

(** ** lawful logs: a loss is followed by a reconnect exactly if the API was handed over and not closed *)
Definition neutral (o : life_obs) : bool :=
  match o with LError _ | LClose _ | LAttempt _ | LResult _ _ | LCancel _ => true | _ => false end.
Inductive lawful : list life_obs -> Prop :=
| W_nil : lawful []
| W_other l o : lawful l -> (forall g, o <> LLost g) -> (forall g t, o <> LReconnect g t) -> lawful (l ++ [o])
| W_again l g t : lawful l -> ~ In (LLost g) l -> In (LHanded g) l -> ~ In (LClosed g) l -> lawful (l ++ [LLost g; LReconnect g t])
| W_quiet l g : lawful l -> ~ In (LLost g) l -> ~ (In (LHanded g) l /\ ~ In (LClosed g) l) -> lawful (l ++ [LLost g]).

(** the result of splitting [l ++ m] *)
Lemma split_last {A} (l : list A) o l1 x l2 : l ++ [o] = l1 ++ x :: l2 ->
  (l2 = [] /\ l1 = l /\ x = o) \/ exists l3, l2 = l3 ++ [o] /\ l = l1 ++ x :: l3.
Proof.
  intro E. destruct (@exists_last _ (x :: l2)) as (m & y & Em); [discriminate|].
  destruct l2 as [|z l2'].
  - left. apply app_inj_tail in E. destruct E as (-> & ->). auto.
  - right. destruct (@exists_last _ (z :: l2')) as (m' & y' & Em'); [discriminate|].
    rewrite Em' in *. rewrite app_comm_cons, app_assoc in E. apply app_inj_tail in E. destruct E as (-> & <-). exists m'. auto.
Qed.
Definition follows_rule (l : list life_obs) : Prop := forall l1 g l2, l = l1 ++ LLost g :: l2 ->
  ~ In (LLost g) l1 /\ ((exists t l3, l2 = LReconnect g t :: l3) <-> In (LHanded g) l1 /\ ~ In (LClosed g) l1).
Lemma lawful_rule l : lawful l -> follows_rule l.
Proof.
  induction 1 as [|l o L IH N1 N2|l g t L IH N H C|l g L IH N H]; intros l1 h l2 E.
  - destruct l1; discriminate E.
  - apply split_last in E. destruct E as [(-> & -> & E)|(l3 & -> & E)]; [destruct (N1 h); congruence|].
    destruct (IH _ _ _ E) as (I1 & I2). split; [exact I1|]. rewrite <- I2. split.
    + intros (t & l4 & E4). destruct l3 as [|y l3]; cbn [app] in E4; [injection E4; intros; destruct (N2 h t); congruence|].
      injection E4; intros; subst. eauto.
    + intros (t & l4 & ->). exists t. eexists. reflexivity.
  - assert (E2 : (l ++ [LLost g]) ++ [LReconnect g t] = l1 ++ LLost h :: l2) by (rewrite <- app_assoc; exact E).
    apply split_last in E2. destruct E2 as [(_ & _ & E2)|(l3 & -> & E2)]; [discriminate E2|].
    apply split_last in E2. destruct E2 as [(-> & -> & E2)|(l4 & -> & E2)].
    + injection E2 as ->. split; [exact N|]. cbn [app]. split; [auto|eauto].
    + destruct (IH _ _ _ E2) as (I1 & I2). split; [exact I1|]. rewrite <- I2. split.
      * intros (u & l5 & E5). destruct l4 as [|y l4]; cbn [app] in E5; [discriminate E5|]. injection E5; intros; subst. eauto.
      * intros (u & l5 & ->). exists u. eexists. cbn [app]. reflexivity.
  - apply split_last in E. destruct E as [(-> & -> & E)|(l3 & -> & E)].
    + injection E as ->. split; [exact N|]. split; [intros (t & l3 & E); discriminate E|intro K; contradiction].
    + destruct (IH _ _ _ E) as (I1 & I2). split; [exact I1|]. rewrite <- I2. split.
      * intros (u & l5 & E5). destruct l3 as [|y l3]; cbn [app] in E5; [discriminate E5|]. injection E5; intros; subst. eauto.
      * intros (u & l5 & ->). exists u. eexists. cbn [app]. reflexivity.
Qed.
(** a reconnect is created only right after the loss *)
Lemma lawful_origin l : lawful l -> forall l1 g t l2, l = l1 ++ LReconnect g t :: l2 -> exists l0, l1 = l0 ++ [LLost g].
Proof.
  induction 1 as [|l o L IH N1 N2|l g t L IH N H C|l g L IH N H]; intros l1 h u l2 E.
  - destruct l1; discriminate E.
  - apply split_last in E. destruct E as [(-> & -> & E)|(l3 & -> & E)]; [destruct (N2 h u); congruence|]. eapply IH. exact E.
  - assert (E2 : (l ++ [LLost g]) ++ [LReconnect g t] = l1 ++ LReconnect h u :: l2) by (rewrite <- app_assoc; exact E).
    apply split_last in E2. destruct E2 as [(-> & -> & E2)|(l3 & -> & E2)]; [injection E2 as -> ->; eauto|].
    apply split_last in E2. destruct E2 as [(_ & _ & E2)|(l4 & -> & E2)]; [discriminate E2|]. eapply IH. exact E2.
  - apply split_last in E. destruct E as [(_ & _ & E)|(l3 & -> & E)]; [discriminate E|]. eapply IH. exact E.
Qed.

(** ** the invariant *)
Record book (s : life) : Prop := mk_book {
  b_open : forall g x, nth_error (y_gws s) g = Some x -> (g_open x = false <-> In (LClosed g) (y_log s));
  b_told : forall g x, nth_error (y_gws s) g = Some x -> (g_told x = true <-> In (LLost g) (y_log s));
  b_port : forall g x, nth_error (y_gws s) g = Some x -> g_port x = g_open x && negb (g_told x);
  b_api : forall g x, nth_error (y_gws s) g = Some x -> exists a, nth_error (y_apis s) (g_api x) = Some a /\
            (a_app a = true <-> In (LHanded g) (y_log s));
  b_inj : forall g h x y, nth_error (y_gws s) g = Some x -> nth_error (y_gws s) h = Some y -> g_api x = g_api y -> g = h;
  b_none : forall g, (length (y_gws s) <= g)%nat -> ~ In (LClosed g) (y_log s) /\ ~ In (LLost g) (y_log s) /\ ~ In (LHanded g) (y_log s);
  b_uart : forall a x g, nth_error (y_apis s) a = Some x -> a_uart x = Some g -> a_app x = true /\ exists y, nth_error (y_gws s) g = Some y /\ g_api y = a;
  b_cur : forall a, y_cur s = Some a -> exists x, nth_error (y_apis s) a = Some x;
  b_settle : forall t k a g, nth_error (y_tasks s) t = Some k -> k_stage k = KSettle a g ->
    exists y, nth_error (y_gws s) g = Some y /\ g_api y = a /\ nth_error (y_apis s) a = Some (mk_api_obj None false);
  b_two : forall t u k m a b g, nth_error (y_tasks s) t = Some k -> nth_error (y_tasks s) u = Some m ->
    k_stage k = KSettle a g -> k_stage m = KSettle b g -> t = u;
  b_law : lawful (y_log s);
  b_spawn : forall g t, In (LReconnect g t) (y_log s) -> exists k, nth_error (y_tasks s) t = Some k /\ k_loop k = true }.

Ltac sel := cbn [with_gws with_apis with_cur with_tasks log y_gws y_apis y_cur y_tasks y_log] in *.
Ltac gsel := cbn [g_open g_port g_told g_api a_uart a_app k_loop k_stage] in *.

Lemma in_snoc {A} (l : list A) o x : In x (l ++ [o]) <-> In x l \/ x = o.
Proof. rewrite in_app_iff. cbn [In]. intuition. Qed.

Lemma book_init : book life_init.
Proof.
  split; unfold life_init; cbn [y_gws y_apis y_cur y_tasks y_log]; intros;
    try (match goal with H : nth_error [] ?n = Some _ |- _ => destruct n; discriminate H end); try discriminate; cbn [In] in *; try tauto.
  constructor.
Qed.

Lemma book_log o s : neutral o = true -> book s -> book (log o s).
Proof.
  intros N [? ? ? ? ? ? ? ? ? ? ? ?]. split; sel; auto.
  - intros g x H. rewrite in_snoc, (b_open0 g x H). split; [auto|]. intros [?| <-]; [assumption|discriminate N].
  - intros g x H. rewrite in_snoc, (b_told0 g x H). split; [auto|]. intros [?| <-]; [assumption|discriminate N].
  - intros g x H. destruct (b_api0 g x H) as (a & A & B). exists a. split; [exact A|]. rewrite in_snoc, B. split; [auto|]. intros [?| <-]; [assumption|discriminate N].
  - intros g H. destruct (b_none0 g H) as (A & B & C). rewrite !in_snoc.
    split; [|split]; intros [?| <-]; try contradiction; discriminate N.
  - constructor; [assumption| |]; intros; intros ->; discriminate N.
  - intros g t H. apply in_snoc in H. destruct H as [H| <-]; [eauto|discriminate N].
Qed.
Lemma book_stage t x s : (forall a g, x <> KSettle a g) -> book s -> book (at_stage t x s).
Proof.
  intros N [? ? ? ? ? ? ? ? ? ? ? ?]. unfold at_stage. destruct (nth_error (y_tasks s) t) as [k|] eqn:E; [|split; assumption].
  split; sel; auto.
  - intros u m a g. rewrite nth_set, E. destruct (Nat.eqb_spec u t) as [->|]; [|apply b_settle0].
    intro H. injection H as <-. gsel. intro H. destruct (N a g H).
  - intros u v m n a b g. rewrite !nth_set, E. destruct (Nat.eqb_spec u t) as [->|]; [|destruct (Nat.eqb_spec v t) as [->|]; [|apply b_two0]].
    + intro H. injection H as <-. gsel. intros _ H. destruct (N _ _ H).
    + intros _ H. injection H as <-. gsel. intros _ H. destruct (N _ _ H).
  - intros g u H. destruct (b_spawn0 g u H) as (m & Hm & L). rewrite nth_set, E. destruct (Nat.eqb_spec u t) as [->|]; [|eauto].
    assert (m = k) by congruence. subst m. eexists. split; [reflexivity|exact L].
Qed.
Lemma book_task b s : book s -> book (with_tasks (y_tasks s ++ [mk_coroutine b KBegin]) s).
Proof.
  intros [? ? ? ? ? ? ? ? ? ? ? ?]. split; sel; auto.
  - intros t k a g. rewrite nth_snoc. destruct (Nat.eqb t _); [|apply b_settle0]. intro H. injection H as <-. gsel. discriminate.
  - intros t u k m a c g. rewrite !nth_snoc. destruct (Nat.eqb t _); [|destruct (Nat.eqb u _)]; [| |apply b_two0].
    + intro H. injection H as <-. gsel. discriminate.
    + intros _ H. injection H as <-. gsel. discriminate.
  - intros g t H. destruct (b_spawn0 g t H) as (k & K & L). exists k. split; [|exact L].
    rewrite nth_snoc. pose proof (nth_lt _ _ _ K). destruct (Nat.eqb_spec t (length (y_tasks s))); [lia|exact K].
Qed.
Lemma book_api s : book s -> book (with_apis (y_apis s ++ [mk_api_obj None false]) s).
Proof.
  intros [? ? ? ? ? ? ? ? ? ? ? ?].
  assert (K : forall n x, nth_error (y_apis s) n = Some x -> nth_error (y_apis s ++ [mk_api_obj None false]) n = Some x).
  { intros n x H. rewrite nth_snoc. pose proof (nth_lt _ _ _ H). destruct (Nat.eqb_spec n (length (y_apis s))); [lia|exact H]. }
  split; sel; auto.
  - intros g x H. destruct (b_api0 g x H) as (a & A & B). eauto.
  - intros a x g. rewrite nth_snoc. destruct (Nat.eqb a _); [|apply b_uart0]. intro H. injection H as <-. gsel. discriminate.
  - intros a H. destruct (b_cur0 a H) as (x & X). eauto.
  - intros t k a g H1 H2. destruct (b_settle0 t k a g H1 H2) as (y & Y1 & Y2 & Y3). exists y. auto.
Qed.
(** a port is opened for the fresh API [a] *)
Lemma book_port t a s : book s -> nth_error (y_apis s) a = Some (mk_api_obj None false) ->
  (forall g x, nth_error (y_gws s) g = Some x -> g_api x <> a) ->
  book (at_stage t (KSettle a (length (y_gws s))) (with_gws (y_gws s ++ [mk_gateway true true false a]) s)).
Proof.
  intros [? ? ? ? ? ? ? ? ? ? ? ?] A F.
  assert (G : forall n x, nth_error (y_gws s) n = Some x -> nth_error (y_gws s ++ [mk_gateway true true false a]) n = Some x).
  { intros n x H. rewrite nth_snoc. pose proof (nth_lt _ _ _ H). destruct (Nat.eqb_spec n (length (y_gws s))); [lia|exact H]. }
  destruct (b_none0 _ (le_n _)) as (N1 & N2 & N3).
  assert (B0 : forall g x, nth_error (y_gws s ++ [mk_gateway true true false a]) g = Some x ->
    (g = length (y_gws s) /\ x = mk_gateway true true false a) \/ nth_error (y_gws s) g = Some x).
  { intros g x. rewrite nth_snoc. destruct (Nat.eqb_spec g (length (y_gws s))); [|auto]. intro H. injection H as <-. auto. }
  assert (K : forall s', y_gws s' = y_gws s ++ [mk_gateway true true false a] -> y_apis s' = y_apis s -> y_cur s' = y_cur s -> y_log s' = y_log s ->
     (forall u k c g, nth_error (y_tasks s') u = Some k -> k_stage k = KSettle c g -> exists y, nth_error (y_gws s') g = Some y /\ g_api y = c /\ nth_error (y_apis s') c = Some (mk_api_obj None false)) ->
     (forall u v k m c d g, nth_error (y_tasks s') u = Some k -> nth_error (y_tasks s') v = Some m -> k_stage k = KSettle c g -> k_stage m = KSettle d g -> u = v) ->
     (forall g u, In (LReconnect g u) (y_log s') -> exists k, nth_error (y_tasks s') u = Some k /\ k_loop k = true) -> book s').
  { intros s' E1 E2 E3 E4 H1 H2 H3. split; rewrite ?E1, ?E2, ?E3, ?E4 in *; auto.
    - intros g x H. apply B0 in H. destruct H as [(-> & ->)|H]; [gsel; split; [discriminate|contradiction]|auto].
    - intros g x H. apply B0 in H. destruct H as [(-> & ->)|H]; [gsel; split; [discriminate|contradiction]|auto].
    - intros g x H. apply B0 in H. destruct H as [(-> & ->)|H]; [reflexivity|exact (b_port0 _ _ H)].
    - intros g x H. apply B0 in H. destruct H as [(-> & ->)|H]; [|auto]. gsel. eexists. split; [exact A|]. gsel. split; [discriminate|contradiction].
    - intros g h x y H K0 E. apply B0 in H, K0. destruct H as [(-> & ->)|H]; destruct K0 as [(-> & ->)|K0]; gsel; [reflexivity| | |eauto].
      + destruct (F _ _ K0). auto.
      + destruct (F _ _ H). auto.
    - intros g H. rewrite app_length in H. cbn [length] in H. apply b_none0. lia.
    - intros c x g H E. destruct (b_uart0 c x g H E) as (U & y & Y1 & Y2). eauto. }
  assert (L : forall u k c g, nth_error (y_tasks s) u = Some k -> k_stage k = KSettle c g -> g <> length (y_gws s)).
  { intros u k c g H1 H2. destruct (b_settle0 _ _ _ _ H1 H2) as (y & Y & _). apply nth_lt in Y. lia. }
  unfold at_stage. sel. destruct (nth_error (y_tasks s) t) as [k0|] eqn:E.
  - apply K; sel; try reflexivity.
    + intros u k c g. rewrite nth_set, E. destruct (Nat.eqb_spec u t) as [->|].
      * intro H. injection H as <-. gsel. intro H. injection H as <- <-. exists (mk_gateway true true false a).
        split; [rewrite nth_snoc, Nat.eqb_refl; reflexivity|auto].
      * intros H1 H2. destruct (b_settle0 _ _ _ _ H1 H2) as (y & Y1 & Y2 & Y3). exists y. auto.
    + intros u v k m c d g. rewrite !nth_set, E. destruct (Nat.eqb_spec u t) as [->|]; destruct (Nat.eqb_spec v t) as [->|]; auto.
      * intros H H1. injection H as <-. gsel. intros H2 H3. injection H2 as <- <-. destruct (L _ _ _ _ H1 H3 eq_refl).
      * intros H H1. injection H1 as <-. gsel. intros H2 H3. injection H3 as <- <-. destruct (L _ _ _ _ H H2 eq_refl).
      * eauto.
    + intros g u H. destruct (b_spawn0 g u H) as (m & Hm & Lm). rewrite nth_set, E. destruct (Nat.eqb_spec u t) as [->|]; [|eauto].
      assert (m = k0) by congruence. subst m. eexists. split; [reflexivity|exact Lm].
  - apply K; sel; try reflexivity; eauto.
    intros u k c g H1 H2. destruct (b_settle0 _ _ _ _ H1 H2) as (y & Y1 & Y2 & Y3). exists y. auto.
Qed.
Lemma book_close g s : book s -> book (gw_close g s).
Proof.
  intros [? ? ? ? ? ? ? ? ? ? ? ?]. unfold gw_close. destruct (nth_error (y_gws s) g) as [x|] eqn:E; [|split; assumption].
  assert (B0 : forall h y, nth_error (set_nth g (mk_gateway false false (g_told x) (g_api x)) (y_gws s)) h = Some y ->
    (h = g /\ y = mk_gateway false false (g_told x) (g_api x)) \/ (h <> g /\ nth_error (y_gws s) h = Some y)).
  { intros h y. rewrite nth_set, E. destruct (Nat.eqb_spec h g); [|auto]. intro H. injection H as <-. auto. }
  split; sel; auto.
  - intros h y H. apply B0 in H. rewrite in_snoc. destruct H as [(-> & ->)|(N & H)]; gsel; [split; auto|].
    rewrite (b_open0 _ _ H). split; [auto|]. intros [?|K]; [assumption|congruence].
  - intros h y H. apply B0 in H. rewrite in_snoc. destruct H as [(-> & ->)|(N & H)]; gsel; rewrite (b_told0 _ _ ltac:(eassumption)); split; auto; intros [?|K]; (assumption || discriminate K).
  - intros h y H. apply B0 in H. destruct H as [(-> & ->)|(N & H)]; gsel; [reflexivity|exact (b_port0 _ _ H)].
  - intros h y H. apply B0 in H. destruct H as [(-> & ->)|(N & H)]; gsel; destruct (b_api0 _ _ ltac:(eassumption)) as (a & A & B); exists a; (split; [exact A|]); rewrite in_snoc, B; split; auto; intros [?|K]; (assumption || discriminate K).
  - intros h i y z H K Eq. apply B0 in H, K. destruct H as [(-> & ->)|(N & H)]; destruct K as [(-> & ->)|(N2 & K)]; gsel; [reflexivity|eauto|eauto|eauto].
  - intros h H. rewrite len_set in H. destruct (b_none0 h H) as (N1 & N2 & N3). rewrite !in_snoc. pose proof (nth_lt _ _ _ E).
    split; [|split]; intros [?|K]; try contradiction; try discriminate K. injection K as ->. lia.
  - intros a y h H K. destruct (b_uart0 a y h H K) as (U & z & Z1 & Z2). split; [exact U|]. rewrite nth_set, E.
    destruct (Nat.eqb_spec h g) as [->|]; [|eauto]. eexists. split; [reflexivity|]. gsel. congruence.
  - intros t k a h H1 H2. destruct (b_settle0 t k a h H1 H2) as (y & Y1 & Y2 & Y3). rewrite nth_set, E.
    destruct (Nat.eqb_spec h g) as [->|]; [|eauto]. eexists. split; [reflexivity|]. gsel. split; [congruence|exact Y3].
  - constructor; [assumption| |]; intros; discriminate.
  - intros h t H. apply in_snoc in H. destruct H as [H|H]; [eauto|discriminate H].
Qed.
Lemma book_uart_none a x s : book s -> nth_error (y_apis s) a = Some x -> a_app x = true ->
  book (with_apis (set_nth a (mk_api_obj None (a_app x)) (y_apis s)) s).
Proof.
  intros [? ? ? ? ? ? ? ? ? ? ? ?] E Ap. split; sel; auto.
  - intros g y H. destruct (b_api0 g y H) as (b & B1 & B2). rewrite nth_set, E. destruct (Nat.eqb_spec (g_api y) a) as [Eq|]; [|eauto].
    eexists. split; [reflexivity|]. gsel. assert (b = x) by congruence. subst b. exact B2.
  - intros b y g. rewrite nth_set, E. destruct (Nat.eqb_spec b a); [|apply b_uart0]. intro H. injection H as <-. gsel. discriminate.
  - intros b H. destruct (b_cur0 b H) as (y & Y). rewrite nth_set, E. destruct (Nat.eqb b a); eauto.
  - intros t k b g H1 H2. destruct (b_settle0 t k b g H1 H2) as (y & Y1 & Y2 & Y3). exists y. split; [exact Y1|]. split; [exact Y2|].
    rewrite nth_set, E. destruct (Nat.eqb_spec b a) as [->|]; [|exact Y3]. rewrite Y3 in E. injection E as <-. discriminate Ap.
Qed.
Lemma book_api_close a s : book s -> book (api_close a s).
Proof.
  intro B. unfold api_close. destruct (nth_error (y_apis s) a) as [x|] eqn:E; [|exact B].
  destruct (a_uart x) as [g|] eqn:U; [|exact B]. destruct (b_uart s B a x g E U) as (Ap & _).
  pose proof (book_close g s B) as B'. assert (Eq : y_apis (gw_close g s) = y_apis s) by (unfold gw_close; destruct (nth_error (y_gws s) g); reflexivity).
  pose proof (book_uart_none a x (gw_close g s) B') as K. rewrite Eq in K. apply K; assumption.
Qed.
Lemma book_app_close s : book s -> book (app_close s).
Proof. intro B. unfold app_close. destruct (y_cur s); [apply book_api_close|]; exact B. Qed.
Lemma book_hand t k a g s : book s -> nth_error (y_tasks s) t = Some k -> k_stage k = KSettle a g ->
  book (at_stage t KRequests (log (LHanded g) (with_cur (Some a) (with_apis (set_nth a (mk_api_obj (Some g) true) (y_apis s)) s)))).
Proof.
  intros [? ? ? ? ? ? ? ? ? ? ? ?] T S. unfold at_stage. sel. rewrite T. destruct (b_settle0 _ _ _ _ T S) as (y & Y1 & Y2 & Y3).
  split; sel; auto.
  - intros h x H. rewrite in_snoc, (b_open0 h x H). split; [auto|]. intros [?|K]; [assumption|discriminate K].
  - intros h x H. rewrite in_snoc, (b_told0 h x H). split; [auto|]. intros [?|K]; [assumption|discriminate K].
  - intros h x H. rewrite nth_set, Y3. destruct (Nat.eqb_spec (g_api x) a) as [Eq|N].
    + assert (h = g) by (eapply b_inj0; [exact H|exact Y1|congruence]). subst h. eexists. split; [reflexivity|]. gsel. rewrite in_snoc. split; auto.
    + destruct (b_api0 h x H) as (b & B1 & B2). exists b. split; [exact B1|]. rewrite in_snoc, B2. split; [auto|]. intros [?|K]; [assumption|]. injection K as ->.
      assert (x = y) by congruence. congruence.
  - intros h H. destruct (b_none0 h H) as (N1 & N2 & N3). rewrite !in_snoc. apply nth_lt in Y1.
    split; [|split]; intros [?|K]; try contradiction; try discriminate K. injection K as ->. lia.
  - intros b x h. rewrite nth_set, Y3. destruct (Nat.eqb_spec b a) as [->|]; [|apply b_uart0].
    intro H. injection H as <-. gsel. intro H. injection H as <-. eauto.
  - intros b H. injection H as <-. rewrite nth_set, Y3, Nat.eqb_refl. eauto.
  - intros u m b h. rewrite !nth_set, T, Y3. destruct (Nat.eqb_spec u t) as [->|N]; [intro H; injection H as <-; gsel; discriminate|].
    intros H1 H2. destruct (b_settle0 _ _ _ _ H1 H2) as (z & Z1 & Z2 & Z3). exists z. split; [exact Z1|]. split; [exact Z2|].
    destruct (Nat.eqb_spec b a) as [->|]; [|exact Z3]. exfalso. apply N.
    assert (h = g) by (eapply b_inj0; [exact Z1|exact Y1|congruence]). subst h. eapply b_two0; eassumption.
  - intros u v m n b c h. rewrite !nth_set, T. destruct (Nat.eqb_spec u t) as [->|]; [intro H; injection H as <-; gsel; discriminate|].
    destruct (Nat.eqb_spec v t) as [->|]; [intros _ H; injection H as <-; gsel; discriminate|]. apply b_two0.
  - constructor; [assumption| |]; intros; discriminate.
  - intros h u H. apply in_snoc in H. destruct H as [H|H]; [|discriminate H].
    destruct (b_spawn0 h u H) as (m & M & L). rewrite nth_set, T. destruct (Nat.eqb_spec u t) as [->|]; [|eauto].
    assert (m = k) by congruence. subst m. eexists. split; [reflexivity|exact L].
Qed.
Lemma book_lost g s : book s -> book (lost g s).
Proof.
  intro B. unfold lost. destruct (nth_error (y_gws s) g) as [x|] eqn:E; [|exact B]. destruct (g_told x) eqn:Tx; [exact B|].
  pose proof B as [? ? ? ? ? ? ? ? ? ? ? ?]. destruct (b_api0 g x E) as (a & A1 & A2).
  assert (NL : ~ In (LLost g) (y_log s)) by (intro H; apply (b_told0 g x E) in H; congruence).
  assert (B0 : forall h y, nth_error (set_nth g (mk_gateway (g_open x) false true (g_api x)) (y_gws s)) h = Some y ->
    (h = g /\ y = mk_gateway (g_open x) false true (g_api x)) \/ (h <> g /\ nth_error (y_gws s) h = Some y)).
  { intros h y. rewrite nth_set, E. destruct (Nat.eqb_spec h g); [|auto]. intro H. injection H as <-. auto. }
  assert (K : forall s', y_gws s' = set_nth g (mk_gateway (g_open x) false true (g_api x)) (y_gws s) -> y_apis s' = y_apis s -> y_cur s' = y_cur s ->
     (forall o, In o (y_log s') -> In o (y_log s) \/ o = LLost g \/ exists t, o = LReconnect g t) -> (forall o, In o (y_log s) \/ o = LLost g -> In o (y_log s')) ->
     (forall t k c h, nth_error (y_tasks s') t = Some k -> k_stage k = KSettle c h -> nth_error (y_tasks s) t = Some k) ->
     lawful (y_log s') -> (forall h t, In (LReconnect h t) (y_log s') -> exists k, nth_error (y_tasks s') t = Some k /\ k_loop k = true) -> book s').
  { intros s' E1 E2 E3 L1 L2 T1 Lw Sp.
    assert (M : forall o, (forall t, o <> LReconnect g t) -> o <> LLost g -> (In o (y_log s') <-> In o (y_log s))).
    { intros o N1 N2. split; [|auto]. intro H. apply L1 in H. destruct H as [H|[H|(t & H)]]; [exact H|contradiction|destruct (N1 t H)]. }
    split; rewrite ?E1, ?E2, ?E3 in *; auto.
    - intros h y H. apply B0 in H. rewrite M by (intros; discriminate). destruct H as [(-> & ->)|(N & H)]; gsel; auto.
    - intros h y H. apply B0 in H. destruct H as [(-> & ->)|(N & H)]; gsel; [split; auto|].
      rewrite M by (intros; congruence). auto.
    - intros h y H. apply B0 in H. destruct H as [(-> & ->)|(N & H)]; gsel; [|exact (b_port0 _ _ H)]. rewrite andb_false_r. reflexivity.
    - intros h y H. apply B0 in H. destruct H as [(-> & ->)|(N & H)]; gsel.
      + exists a. rewrite M by (intros; discriminate). auto.
      + destruct (b_api0 _ _ H) as (b & B1 & B2). exists b. rewrite M by (intros; discriminate). auto.
    - intros h i y z H H' Eq. apply B0 in H, H'. destruct H as [(-> & ->)|(N & H)]; destruct H' as [(-> & ->)|(N2 & H')]; gsel; [reflexivity|eauto|eauto|eauto].
    - intros h H. rewrite len_set in H. destruct (b_none0 h H) as (N1 & N2 & N3). pose proof (nth_lt _ _ _ E). rewrite !M by (intros; try discriminate; intro Q; injection Q as ->; lia). auto.
    - intros b y h H H'. destruct (b_uart0 b y h H H') as (U & z & Z1 & Z2). split; [exact U|]. rewrite nth_set, E.
      destruct (Nat.eqb_spec h g) as [->|]; [|eauto]. eexists. split; [reflexivity|]. gsel. congruence.
    - intros t k b h H1 H2. specialize (T1 t k b h H1 H2). destruct (b_settle0 t k b h T1 H2) as (y & Y1 & Y2 & Y3). rewrite nth_set, E.
      destruct (Nat.eqb_spec h g) as [->|]; [|eauto]. eexists. split; [reflexivity|]. gsel. split; [congruence|exact Y3].
    - intros t u k m b c h H1 H2 H3 H4. eapply b_two0; eauto. }
  cbv zeta. destruct (g_open x) eqn:Ox; sel.
  - rewrite A1. destruct (a_app a) eqn:Ap; sel.
    + apply K; sel; try reflexivity.
      * intros o H. rewrite !in_snoc in H. destruct H as [[H|H]|H]; eauto.
      * intros o H. rewrite !in_snoc. tauto.
      * intros t k c h. rewrite nth_snoc. destruct (Nat.eqb t _); [intro H; injection H as <-; gsel; discriminate|auto].
      * rewrite <- app_assoc. cbn [app]. apply W_again; try assumption; [apply A2; reflexivity|].
        intro H. apply (b_open0 g x E) in H. congruence.
      * intros h t H. rewrite !in_snoc in H. destruct H as [[H|H]|H]; [|discriminate H|].
        -- destruct (b_spawn0 h t H) as (k & Hk & L). exists k. split; [|exact L]. rewrite nth_snoc. pose proof (nth_lt _ _ _ Hk).
           destruct (Nat.eqb_spec t (length (y_tasks s))); [lia|exact Hk].
        -- injection H as -> ->. rewrite nth_snoc, Nat.eqb_refl. eauto.
    + apply book_log; [reflexivity|]. apply K; sel; try reflexivity.
      * intros o H. rewrite !in_snoc in H. destruct H as [H|H]; eauto.
      * intros o H. rewrite !in_snoc. tauto.
      * intros t k c h H _. exact H.
      * apply W_quiet; try assumption. intros (H & _). apply A2 in H. discriminate H.
      * intros h t H. rewrite in_snoc in H. destruct H as [H|H]; [eauto|discriminate H].
  - apply K; sel; try reflexivity.
    + intros o H. rewrite !in_snoc in H. destruct H as [H|H]; eauto.
    + intros o H. rewrite !in_snoc. tauto.
    + intros t k c h H _. exact H.
    + apply W_quiet; try assumption. intros (_ & H). apply H. apply (b_open0 g x E). exact Ox.
    + intros h t H. rewrite in_snoc in H. destruct H as [H|H]; [eauto|discriminate H].
Qed.
Lemma book_loop_top t s : book s -> book (loop_top t s).
Proof. intro B. unfold loop_top. apply book_stage; [discriminate|]. apply book_log; [reflexivity|]. apply book_app_close, B. Qed.
Lemma book_ended t r s : book s -> book (startup_ended t r s).
Proof.
  intro B. unfold startup_ended. cbv zeta. pose proof (book_log (LResult t r) s eq_refl B) as B'.
  destruct (nth_error (y_tasks (log (LResult t r) s)) t) as [k|]; [|exact B'].
  destruct r as [[]|e]; [apply book_stage; [discriminate|exact B']|].
  destruct e; try (apply book_stage; [discriminate|exact B']); (destruct (k_loop k); [apply book_loop_top, B'|apply book_stage; [discriminate|exact B']]).
Qed.
Lemma book_begins t r s : book s -> book (startup_begins t r s).
Proof.
  intro B. unfold startup_begins. cbv zeta.
  pose proof (book_api (log (LAttempt t) s) (book_log (LAttempt t) s eq_refl B)) as B'. destruct r as [[]|e]; [|apply book_ended, B'].
  apply book_port; [exact B'| |].
  - sel. rewrite nth_snoc, Nat.eqb_refl. reflexivity.
  - intros g x H Eq. sel. destruct (b_api s B g x H) as (a & A & _). apply nth_lt in A. lia.
Qed.
Lemma book_go t r s : book s -> book (go_on t r s).
Proof.
  intro B. unfold go_on. destruct (nth_error (y_tasks s) t) as [k|] eqn:E; [|exact B].
  assert (C : book (at_stage t (KEnd r) (log (LCancel t) s))) by (apply book_stage; [discriminate|]; apply book_log; [reflexivity|exact B]).
  destruct (k_stage k) eqn:S.
  - destruct r as [u|[]]; try exact C; apply book_loop_top, B.
  - destruct r as [u|[]]; try exact C; apply book_begins, B.
  - pose proof (book_hand t k a g s B E S) as H. destruct r as [u|[]]; try exact H; apply book_ended, B.
  - apply book_ended, B.
  - exact B.
Qed.
Lemma book_step e s : book s -> book (life_step e s).
Proof.
  intro B. destruct e; cbn [life_step].
  - apply book_begins, book_task, B.
  - destruct (y_cur s); [apply book_api_close, B|apply book_log; [reflexivity|exact B]].
  - apply book_lost, B.
  - apply book_go, B.
Qed.
Lemma life_run_snoc es e s : life_run (es ++ [e]) s = life_step e (life_run es s).
Proof. unfold life_run. rewrite fold_left_app. reflexivity. Qed.
Lemma life_run_app es fs s : life_run (es ++ fs) s = life_run fs (life_run es s).
Proof. unfold life_run. rewrite fold_left_app. reflexivity. Qed.
Lemma book_run es : book (life_run es life_init).
Proof. induction es as [|e es IH] using rev_ind; [exact book_init|]. rewrite life_run_snoc. apply book_step, IH. Qed.
