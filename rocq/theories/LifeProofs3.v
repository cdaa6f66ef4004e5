(** * LifeProofs3: what a reconnect loop does, and how many there are *)
From Verif Require Import Base Types Life SpecLife LifeProofs2.
From Coq Require Import ZifyBool ZifyNat.

(** ** the log grows *)
Lemma tasks_gw g s : y_tasks (gw_close g s) = y_tasks s.
Proof. unfold gw_close. destruct (nth_error (y_gws s) g); reflexivity. Qed.
Lemma tasks_close a s : y_tasks (api_close a s) = y_tasks s.
Proof.
  unfold api_close. destruct (nth_error (y_apis s) a) as [x|]; [|reflexivity]. destruct (a_uart x); [|reflexivity].
  sel. apply tasks_gw.
Qed.
Lemma tasks_app_close s : y_tasks (app_close s) = y_tasks s.
Proof. unfold app_close. destruct (y_cur s); [apply tasks_close|reflexivity]. Qed.
Lemma log_close a s : y_log (api_close a s) = y_log s \/ exists g, y_log (api_close a s) = y_log s ++ [LClosed g].
Proof.
  unfold api_close. destruct (nth_error (y_apis s) a) as [x|]; [|auto]. destruct (a_uart x) as [g|]; [|auto].
  sel. unfold gw_close. destruct (nth_error (y_gws s) g); sel; eauto.
Qed.
Lemma log_app_close s : y_log (app_close s) = y_log s \/ exists g, y_log (app_close s) = y_log s ++ [LClosed g].
Proof. unfold app_close. destruct (y_cur s); [apply log_close|auto]. Qed.
Lemma log_stage t x s : y_log (at_stage t x s) = y_log s.
Proof. unfold at_stage. destruct (nth_error (y_tasks s) t); reflexivity. Qed.
Lemma log_loop_top t s : exists m, y_log (loop_top t s) = y_log s ++ m ++ [LClose t] /\ forall o, In o m -> exists g, o = LClosed g.
Proof.
  unfold loop_top. rewrite log_stage. sel. destruct (log_app_close s) as [->|(g & ->)].
  - exists []. split; [reflexivity|]. intros o [].
  - exists [LClosed g]. rewrite <- app_assoc. split; [reflexivity|]. intros o [<-|[]]. eauto.
Qed.

(** the entries a start-up's end adds *)
Lemma log_ended t r s : exists m, y_log (startup_ended t r s) = y_log s ++ LResult t r :: m /\
  forall o, In o m -> o = LClose t \/ exists g, o = LClosed g.
Proof.
  unfold startup_ended. cbv zeta.
  assert (A : forall x, exists m, y_log (at_stage t x (log (LResult t r) s)) = y_log s ++ LResult t r :: m /\
    forall o, In o m -> o = LClose t \/ exists g, o = LClosed g).
  { intro x. exists []. rewrite log_stage. split; [reflexivity|intros o []]. }
  assert (B : exists m, y_log (loop_top t (log (LResult t r) s)) = y_log s ++ LResult t r :: m /\
    forall o, In o m -> o = LClose t \/ exists g, o = LClosed g).
  { destruct (log_loop_top t (log (LResult t r) s)) as (m & E & F). exists (m ++ [LClose t]). rewrite E. sel. rewrite <- app_assoc.
    split; [reflexivity|]. intros o H. apply in_app_iff in H. destruct H as [H|[<-|[]]]; [right; apply F, H|auto]. }
  destruct (nth_error (y_tasks (log (LResult t r) s)) t) as [k|].
  - destruct r as [[]|[]]; try apply A; destruct (k_loop k); try apply A; apply B.
  - exists []. split; [reflexivity|intros o []].
Qed.
Lemma log_begins t r s : exists m, y_log (startup_begins t r s) = y_log s ++ LAttempt t :: m /\
  forall o, In o m -> o = LResult t r \/ o = LClose t \/ exists g, o = LClosed g.
Proof.
  unfold startup_begins. cbv zeta. destruct r as [[]|e].
  - exists []. rewrite log_stage. sel. split; [reflexivity|intros o []].
  - match goal with |- context [startup_ended t (Err e) ?x] => destruct (log_ended t (Err e) x) as (m & E & F) end.
    rewrite E. sel. exists (LResult t (Err e) :: m). rewrite <- app_assoc. split; [reflexivity|].
    intros o [<-|H]; [auto|]. right. apply F, H.
Qed.
(** what an event may add *)
Definition added (s : life) (e : life_event) (o : life_obs) : Prop :=
  match o with
  | LCancel t => e = VGo t (Err CancelledError)
  | LResult t r => e = VGo t r \/ (e = VStartup r /\ t = length (y_tasks s))
  | _ => True
  end.
Lemma log_step e s : exists m, y_log (life_step e s) = y_log s ++ m /\ Forall (added s e) m.
Proof.
  assert (Z : exists m, y_log s = y_log s ++ m /\ Forall (added s e) m) by (exists []; rewrite app_nil_r; auto).
  assert (T : forall o, added s e o -> exists m, y_log s ++ [o] = y_log s ++ m /\ Forall (added s e) m) by (intros o H; exists [o]; auto).
  assert (B : forall t r x, y_log x = y_log s -> (forall o, o = LResult t r -> added s e o) ->
    exists m, y_log (startup_begins t r x) = y_log s ++ m /\ Forall (added s e) m).
  { intros t r x X H. destruct (log_begins t r x) as (m & E & F). rewrite E, X. exists (LAttempt t :: m). split; [reflexivity|].
    constructor; [exact I|]. apply Forall_forall. intros o Ho. destruct (F o Ho) as [->|[->|(g & ->)]]; [auto|exact I|exact I]. }
  assert (N : forall t r, (forall o, o = LResult t r -> added s e o) ->
    exists m, y_log (startup_ended t r s) = y_log s ++ m /\ Forall (added s e) m).
  { intros t r H. destruct (log_ended t r s) as (m & E & F). rewrite E. exists (LResult t r :: m). split; [reflexivity|].
    constructor; [apply H; reflexivity|]. apply Forall_forall. intros o Ho. destruct (F o Ho) as [->|(g & ->)]; exact I. }
  assert (L : forall t, exists m, y_log (loop_top t s) = y_log s ++ m /\ Forall (added s e) m).
  { intro t. destruct (log_loop_top t s) as (m & E & F). rewrite E. exists (m ++ [LClose t]). split; [reflexivity|].
    apply Forall_app. split; [|repeat constructor]. apply Forall_forall. intros o Ho. destruct (F o Ho) as (g & ->). exact I. }
  destruct e as [r| |g|t r]; cbn [life_step].
  - apply B; [reflexivity|]. intros o ->. right. auto.
  - destruct (y_cur s) as [a|]; [|apply (T (LError AttributeError) I)].
    destruct (log_close a s) as [->|(g & ->)]; [exact Z|apply (T (LClosed g) I)].
  - unfold lost. destruct (nth_error (y_gws s) g) as [x|]; [|exact Z]. destruct (g_told x); [exact Z|]. cbv zeta.
    destruct (g_open x); sel; [|apply (T (LLost g) I)].
    destruct (nth_error (y_apis s) (g_api x)) as [a|]; [|apply (T (LLost g) I)]. destruct (a_app a); sel; rewrite <- app_assoc; eexists; (split; [reflexivity|]); repeat constructor.
  - unfold go_on. destruct (nth_error (y_tasks s) t) as [k|]; [|exact Z].
    assert (C : forall o, o = LResult t r -> added s (VGo t r) o) by (intros o ->; left; reflexivity).
    destruct (k_stage k) as [| |a g| |x].
    + destruct r as [u|[]]; try apply L. rewrite log_stage. sel. apply T. reflexivity.
    + destruct r as [u|[]]; try (apply B; [reflexivity|exact C]). rewrite log_stage. sel. apply T. reflexivity.
    + destruct r as [u|[]]; try (apply N, C); rewrite log_stage; sel; apply T; exact I.
    + apply N, C.
    + exact Z.
Qed.

(** ** tasks keep being what they are *)
Definition task_kept (s s' : life) : Prop := forall t k, nth_error (y_tasks s) t = Some k ->
  exists k', nth_error (y_tasks s') t = Some k' /\ k_loop k' = k_loop k.
Lemma kept_refl s : task_kept s s. Proof. intros t k H. eauto. Qed.
Lemma kept_eq s s' : y_tasks s' = y_tasks s -> task_kept s s'.
Proof. intros E t k H. rewrite E. eauto. Qed.
Lemma kept_trans a b c : task_kept a b -> task_kept b c -> task_kept a c.
Proof. intros H K t k E. destruct (H t k E) as (k1 & E1 & L1). destruct (K t k1 E1) as (k2 & E2 & L2). exists k2. split; congruence. Qed.
Lemma kept_stage t x s : task_kept s (at_stage t x s).
Proof.
  intros u k E. unfold at_stage. destruct (nth_error (y_tasks s) t) as [m|] eqn:M; [|eauto]. sel. rewrite nth_set, M.
  destruct (Nat.eqb_spec u t) as [->|]; [|eauto]. assert (m = k) by congruence. subst. eexists. split; reflexivity.
Qed.
Lemma kept_new b s : task_kept s (with_tasks (y_tasks s ++ [mk_coroutine b KBegin]) s).
Proof.
  intros u k E. sel. exists k. split; [|reflexivity]. rewrite nth_snoc. pose proof (nth_lt _ _ _ E).
  destruct (Nat.eqb_spec u (length (y_tasks s))); [lia|exact E].
Qed.
Lemma kept_top t s : task_kept s (loop_top t s).
Proof. unfold loop_top. eapply kept_trans; [|apply kept_stage]. apply kept_eq. sel. apply tasks_app_close. Qed.
Lemma kept_ended t r s : task_kept s (startup_ended t r s).
Proof.
  unfold startup_ended. cbv zeta. assert (K : task_kept s (log (LResult t r) s)) by (apply kept_eq; reflexivity).
  destruct (nth_error (y_tasks (log (LResult t r) s)) t) as [k|]; [|exact K].
  destruct r as [[]|[]]; try (eapply kept_trans; [exact K|apply kept_stage]);
    destruct (k_loop k); (eapply kept_trans; [exact K|]); (apply kept_stage || apply kept_top).
Qed.
Lemma kept_begins t r s : task_kept s (startup_begins t r s).
Proof.
  unfold startup_begins. cbv zeta. destruct r as [[]|e].
  - eapply kept_trans; [|apply kept_stage]. apply kept_eq. reflexivity.
  - eapply kept_trans; [|apply kept_ended]. apply kept_eq. reflexivity.
Qed.
Lemma kept_step e s : task_kept s (life_step e s).
Proof.
  destruct e as [r| |g|t r]; cbn [life_step].
  - eapply kept_trans; [apply kept_new|apply kept_begins].
  - destruct (y_cur s); apply kept_eq; [apply tasks_close|reflexivity].
  - unfold lost. destruct (nth_error (y_gws s) g) as [x|]; [|apply kept_refl]. destruct (g_told x); [apply kept_refl|]. cbv zeta.
    destruct (g_open x); sel; [|apply kept_eq; reflexivity].
    destruct (nth_error (y_apis s) (g_api x)) as [a|]; [|apply kept_eq; reflexivity].
    destruct (a_app a); [|apply kept_eq; reflexivity].
    intros u k E. destruct (kept_new true s u k E) as (k' & E' & L). sel. eauto.
  - unfold go_on. destruct (nth_error (y_tasks s) t) as [k|]; [|apply kept_refl].
    assert (C : forall o x, task_kept s (at_stage t x (log o s))) by (intros o x; eapply kept_trans; [|apply kept_stage]; apply kept_eq; reflexivity).
    destruct (k_stage k) as [| |a g| |x].
    + destruct r as [u|[]]; first [apply C|apply kept_top].
    + destruct r as [u|[]]; first [apply C|apply kept_begins].
    + assert (D : task_kept s (at_stage t KRequests (log (LHanded g) (with_cur (Some a) (with_apis (set_nth a (mk_api_obj (Some g) true) (y_apis s)) s)))))
        by (eapply kept_trans; [|apply kept_stage]; apply kept_eq; reflexivity).
      destruct r as [u|[]]; first [exact D|apply kept_ended].
    + apply kept_ended.
    + apply kept_refl.
Qed.

(** ** a loop's entries *)
Definition state_of (x : stage) : loop_state :=
  match x with KBegin => Created | KSleep => Waiting | KSettle _ _ | KRequests => Trying | KEnd _ => Over end.
Definition trails (s : life) : Prop :=
  (forall t, (length (y_tasks s) <= t)%nat -> filter (about t) (y_log s) = []) /\
  (forall t k, nth_error (y_tasks s) t = Some k -> k_loop k = true -> loop_trace t (filter (about t) (y_log s)) (state_of (k_stage k))).

Lemma filter_snoc {A} (p : A -> bool) l o : filter p (l ++ [o]) = filter p l ++ (if p o then [o] else []).
Proof. rewrite filter_app. cbn [filter]. destruct (p o); reflexivity. Qed.
Lemma trails_same s s' : y_tasks s' = y_tasks s -> (forall t, filter (about t) (y_log s') = filter (about t) (y_log s)) -> trails s -> trails s'.
Proof. intros E F (A & B). split; rewrite E; intros; rewrite F; auto. Qed.
Lemma trails_close a s : trails s -> trails (api_close a s).
Proof.
  apply trails_same; [apply tasks_close|]. intro t. destruct (log_close a s) as [->|(g & ->)]; [reflexivity|].
  rewrite filter_snoc. cbn [about]. apply app_nil_r.
Qed.
Lemma trails_app_close s : trails s -> trails (app_close s).
Proof. unfold app_close. destruct (y_cur s); [apply trails_close|auto]. Qed.
(** coroutine [t] moves from [k] to stage [x], logging [ms] *)
Lemma trails_move t k x ms s s' : trails s -> nth_error (y_tasks s) t = Some k ->
  y_tasks s' = set_nth t (mk_coroutine (k_loop k) x) (y_tasks s) ->
  (forall u, filter (about u) (y_log s') = filter (about u) (y_log s) ++ if Nat.eqb u t then ms else []) ->
  (forall l, loop_trace t l (state_of (k_stage k)) -> k_loop k = true -> loop_trace t (l ++ ms) (state_of x)) -> trails s'.
Proof.
  intros (A & B) E E' F G. split.
  - intros u H. rewrite E', len_set in H. rewrite F, (A u H). pose proof (nth_lt _ _ _ E). destruct (Nat.eqb_spec u t); [lia|reflexivity].
  - intros u m. rewrite E', nth_set, E, F. destruct (Nat.eqb_spec u t) as [->|].
    + intro H. injection H as <-. gsel. intro L. apply G; [|exact L]. apply B; assumption.
    + rewrite app_nil_r. apply B.
Qed.
Lemma stage_tasks t x k s : nth_error (y_tasks s) t = Some k -> y_tasks (at_stage t x s) = set_nth t (mk_coroutine (k_loop k) x) (y_tasks s).
Proof. intro E. unfold at_stage. rewrite E. reflexivity. Qed.
Lemma set_set {A} (l : list A) n x y : set_nth n x (set_nth n y l) = set_nth n x l.
Proof. revert n. induction l as [|a l IH]; intros [|n]; cbn [set_nth]; congruence. Qed.
Lemma filter_no p (m : list life_obs) : (forall o, In o m -> p o = false) -> filter p m = [].
Proof. induction m as [|o m IH]; intro H; cbn [filter]; [reflexivity|]. rewrite (H o (or_introl eq_refl)). apply IH. intros x K. apply H. right. exact K. Qed.
Lemma eqb_sym' u t : Nat.eqb t u = Nat.eqb u t.
Proof. apply Nat.eqb_sym. Qed.

(** how a start-up's end looks *)
Lemma ended_shape t r k s : nth_error (y_tasks s) t = Some k ->
  let again := k_loop k && match r with Ok _ | Err CancelledError => false | _ => true end in
  y_tasks (startup_ended t r s) = set_nth t (mk_coroutine (k_loop k) (if again then KSleep else KEnd r)) (y_tasks s) /\
  forall u, filter (about u) (y_log (startup_ended t r s)) =
    filter (about u) (y_log s) ++ if Nat.eqb u t then LResult t r :: (if again then [LClose t] else []) else [].
Proof.
  intro E. cbv zeta. unfold startup_ended. cbv zeta. sel. rewrite E.
  assert (A : forall x, y_tasks (at_stage t x (log (LResult t r) s)) = set_nth t (mk_coroutine (k_loop k) x) (y_tasks s) /\
    forall u, filter (about u) (y_log (at_stage t x (log (LResult t r) s))) = filter (about u) (y_log s) ++ if Nat.eqb u t then [LResult t r] else []).
  { intro x. split; [rewrite (stage_tasks _ _ k) by exact E; reflexivity|]. intro u. rewrite log_stage. sel. rewrite filter_snoc. cbn [about].
    rewrite eqb_sym'. reflexivity. }
  assert (B : y_tasks (loop_top t (log (LResult t r) s)) = set_nth t (mk_coroutine (k_loop k) KSleep) (y_tasks s) /\
    forall u, filter (about u) (y_log (loop_top t (log (LResult t r) s))) = filter (about u) (y_log s) ++ if Nat.eqb u t then [LResult t r; LClose t] else []).
  { split.
    - unfold loop_top. rewrite (stage_tasks _ _ k); sel; rewrite tasks_app_close; [reflexivity|exact E].
    - intro u. destruct (log_loop_top t (log (LResult t r) s)) as (m & -> & F). sel. rewrite !filter_app, (filter_no _ m).
      + cbn [filter about app]. rewrite eqb_sym'. destruct (Nat.eqb u t); rewrite ?app_nil_r, <- ?app_assoc; reflexivity.
      + intros o H. destruct (F o H) as (g & ->). reflexivity. }
  destruct (k_loop k) eqn:Lk; cbn [andb].
  - destruct r as [[]|[]]; first [apply A|apply B].
  - destruct r as [[]|[]]; apply A.
Qed.
Lemma trails_ended t r k s : trails s -> nth_error (y_tasks s) t = Some k -> state_of (k_stage k) = Trying \/ k_loop k = false ->
  trails (startup_ended t r s).
Proof.
  intros T E H. destruct (ended_shape t r k s E) as (A & B). eapply trails_move; [exact T|exact E|exact A|exact B|].
  intros l L K. destruct H as [H|H]; [|congruence]. rewrite H in L. rewrite K. cbn [andb].
  destruct r as [[]|e]; [apply T_success, L|]. destruct e; cbn [state_of]; first [apply T_cancelled_try, L|apply T_failure; [exact L|discriminate]].
Qed.
Lemma trails_begins t r k s : trails s -> nth_error (y_tasks s) t = Some k -> k_stage k = KSleep \/ k_loop k = false ->
  trails (startup_begins t r s).
Proof.
  intros T E H. unfold startup_begins. cbv zeta. destruct r as [[]|e].
  - eapply (trails_move t k (KSettle (length (y_apis s)) (length (y_gws s))) [LAttempt t]); [exact T|exact E| | |].
    + rewrite (stage_tasks _ _ k); [reflexivity|exact E].
    + intro u. rewrite log_stage. sel. rewrite filter_snoc. cbn [about]. rewrite eqb_sym'. reflexivity.
    + intros l L K. destruct H as [H|H]; [|congruence]. rewrite H in L. apply T_try, L.
  - match goal with |- trails (startup_ended t (Err e) ?x) => destruct (ended_shape t (Err e) k x E) as (A & B) end.
    eapply (trails_move t k _ (LAttempt t :: LResult t (Err e) :: (if k_loop k && match e with CancelledError => false | _ => true end then [LClose t] else []))); [exact T|exact E|exact A| |].
    + intro u. rewrite B. sel. rewrite filter_snoc. cbn [about]. rewrite eqb_sym', <- app_assoc.
      destruct (Nat.eqb u t); reflexivity.
    + intros l L K. destruct H as [H|H]; [|congruence]. rewrite H in L. rewrite K. cbn [andb]. apply T_try in L.
      replace (l ++ LAttempt t :: LResult t (Err e) :: (if match e with CancelledError => false | _ => true end then [LClose t] else []))
        with ((l ++ [LAttempt t]) ++ LResult t (Err e) :: (if match e with CancelledError => false | _ => true end then [LClose t] else []))
        by (rewrite <- app_assoc; reflexivity).
      destruct e; cbn [state_of]; first [apply T_cancelled_try, L|apply T_failure; [exact L|discriminate]].
Qed.
Lemma trails_top t k s : trails s -> nth_error (y_tasks s) t = Some k -> k_stage k = KBegin -> trails (loop_top t s).
Proof.
  intros T E S. eapply (trails_move t k KSleep [LClose t]); [exact T|exact E| | |].
  - unfold loop_top. rewrite (stage_tasks _ _ k); sel; rewrite tasks_app_close; [reflexivity|exact E].
  - intro u. destruct (log_loop_top t s) as (m & -> & F). rewrite !filter_app, (filter_no _ m).
    + cbn [filter about app]. rewrite eqb_sym'. reflexivity.
    + intros o H. destruct (F o H) as (g & ->). reflexivity.
  - intros l L _. rewrite S in L. apply T_closed, L.
Qed.
Lemma trails_new b s : trails s -> trails (with_tasks (y_tasks s ++ [mk_coroutine b KBegin]) s).
Proof.
  intros (A & B). split; sel.
  - intros t H. rewrite app_length in H. apply A. lia.
  - intros t k. rewrite nth_snoc. destruct (Nat.eqb_spec t (length (y_tasks s))) as [->|]; [|apply B].
    intro H. injection H as <-. gsel. intros _. rewrite (A _ (le_n _)). constructor.
Qed.
Lemma trails_step e s : trails s -> trails (life_step e s).
Proof.
  intro T. destruct e as [r| |g|t r]; cbn [life_step].
  - apply (trails_begins _ _ (mk_coroutine false KBegin)); [apply trails_new, T| |right; reflexivity]. sel. rewrite nth_snoc, Nat.eqb_refl. reflexivity.
  - destruct (y_cur s) as [a|]; [apply trails_close, T|]. revert T. apply trails_same; [reflexivity|]. intro t. sel. rewrite filter_snoc. apply app_nil_r.
  - unfold lost. destruct (nth_error (y_gws s) g) as [x|]; [|exact T]. destruct (g_told x); [exact T|]. cbv zeta.
    assert (K : forall o s', (forall t, about t o = false) -> y_tasks s' = y_tasks s -> y_log s' = y_log s ++ [o] -> trails s').
    { intros o s' N E1 E2. revert T. apply trails_same; [exact E1|]. intro t. rewrite E2, filter_snoc, N. apply app_nil_r. }
    destruct (g_open x); sel; [|eapply (K (LLost g)); reflexivity].
    destruct (nth_error (y_apis s) (g_api x)) as [a|]; [|eapply (K (LLost g)); reflexivity].
    destruct (a_app a).
    + pose proof (trails_new true s T) as T'. revert T'. apply trails_same; [reflexivity|]. intro t. sel. rewrite !filter_snoc. cbn [about]. rewrite !app_nil_r. reflexivity.
    + revert T. apply trails_same; [reflexivity|]. intro t. sel. rewrite !filter_snoc. cbn [about]. rewrite !app_nil_r. reflexivity.
  - unfold go_on. destruct (nth_error (y_tasks s) t) as [k|] eqn:E; [|exact T].
    assert (C : k_stage k = KBegin \/ k_stage k = KSleep -> trails (at_stage t (KEnd (Err CancelledError)) (log (LCancel t) s))).
    { intro H. eapply (trails_move t k (KEnd (Err CancelledError)) [LCancel t]); [exact T|exact E| | |].
      - rewrite (stage_tasks _ _ k); [reflexivity|exact E].
      - intro u. rewrite log_stage. sel. rewrite filter_snoc. cbn [about]. rewrite eqb_sym'. reflexivity.
      - intros l L _. eapply T_cancelled; [exact L|]. destruct H as [->| ->]; auto. }
    destruct (k_stage k) as [| |a g| |x] eqn:S.
    + destruct r as [u|[]]; try (eapply trails_top; eassumption). apply C. auto.
    + destruct r as [u|[]]; try (eapply trails_begins; [exact T|exact E|auto]). apply C. auto.
    + assert (D : trails (at_stage t KRequests (log (LHanded g) (with_cur (Some a) (with_apis (set_nth a (mk_api_obj (Some g) true) (y_apis s)) s))))).
      { eapply (trails_move t k KRequests []); [exact T|exact E| | |].
        - rewrite (stage_tasks _ _ k); [reflexivity|exact E].
        - intro u. rewrite log_stage. sel. rewrite filter_snoc. cbn [about]. destruct (Nat.eqb u t); reflexivity.
        - intros l L _. rewrite app_nil_r. rewrite S in L. exact L. }
      destruct r as [u|[]]; try exact D. eapply trails_ended; [exact T|exact E|rewrite S; auto].
    + eapply trails_ended; [exact T|exact E|rewrite S; auto].
    + exact T.
Qed.
Lemma trails_run es : trails (life_run es life_init).
Proof.
  induction es as [|e es IH] using rev_ind; [|rewrite life_run_snoc; apply trails_step, IH].
  split; [reflexivity|]. intros [|t] k H; discriminate H.
Qed.

(** ** facts about traces *)
Lemma trace_over t l x : loop_trace t l x ->
  (x = Over <-> exists l', l = l' ++ [LResult t (Ok tt)] \/ l = l' ++ [LResult t (Err CancelledError)] \/ l = l' ++ [LCancel t]).
Proof.
  assert (D : forall (l l' : list life_obs) o p, o <> p -> l ++ [o] <> l' ++ [p]) by (intros m m' o p N E; apply app_inj_tail in E; destruct E; contradiction).
  intro T. destruct T as [|l T|l T|l T|l e T N|l T|l x T H]; split; intro K; try discriminate K; try reflexivity; try (exists l; auto; fail).
  - destruct K as (l' & [K|[K|K]]); destruct l'; discriminate K.
  - destruct K as (l' & [K|[K|K]]); apply D in K; (contradiction || discriminate).
  - destruct K as (l' & [K|[K|K]]); apply D in K; (contradiction || discriminate).
  - replace (l ++ [LResult t (Err e); LClose t]) with ((l ++ [LResult t (Err e)]) ++ [LClose t]) in K by (rewrite <- app_assoc; reflexivity).
    destruct K as (l' & [K|[K|K]]); apply D in K; (contradiction || discriminate).
Qed.
(** successes, cancellations end the loop *)
Lemma trace_final t l x o : loop_trace t l x -> In o l ->
  (o = LResult t (Ok tt) \/ o = LResult t (Err CancelledError) \/ o = LCancel t) -> x = Over.
Proof.
  assert (No : forall l x, loop_trace t l x -> x <> Over -> ~ (In (LResult t (Ok tt)) l \/ In (LResult t (Err CancelledError)) l \/ In (LCancel t) l)).
  { induction 1 as [|m T IH|m T IH|m T IH|m e T IH N|m T IH|m y T IH H]; intro NO; try (destruct NO; reflexivity); rewrite ?in_app_iff; cbn [In].
    - tauto.
    - specialize (IH ltac:(discriminate)). intuition discriminate.
    - specialize (IH ltac:(discriminate)). intuition discriminate.
    - specialize (IH ltac:(discriminate)). intuition congruence. }
  intros T H K. destruct x; try reflexivity; exfalso; apply (No _ _ T ltac:(discriminate)); destruct K as [->|[->| ->]]; auto.
Qed.
(** every try comes right after a close, and every failure is followed by a close *)
Lemma trace_try t l x : loop_trace t l x -> forall l1 l2, l = l1 ++ LAttempt t :: l2 -> exists l0, l1 = l0 ++ [LClose t].
Proof.
  intro T. assert (W : (x = Waiting -> exists l0, l = l0 ++ [LClose t]) /\ forall l1 l2, l = l1 ++ LAttempt t :: l2 -> exists l0, l1 = l0 ++ [LClose t]); [|apply W].
  induction T as [|m T IH|m T IH|m T IH|m e T IH N|m T IH|m y T IH H].
  - split; [discriminate|]. intros l1 l2 E. destruct l1; discriminate E.
  - split; [eauto|]. intros l1 l2 E. apply split_last in E. destruct E as [(_ & _ & E)|(l3 & -> & E)]; [discriminate E|]. eapply IH, E.
  - split; [discriminate|]. intros l1 l2 E. apply split_last in E. destruct E as [(_ & -> & _)|(l3 & -> & E)]; [apply IH; reflexivity|]. eapply IH, E.
  - split; [discriminate|]. intros l1 l2 E. apply split_last in E. destruct E as [(_ & _ & E)|(l3 & -> & E)]; [discriminate E|]. eapply IH, E.
  - split.
    + intros _. exists (m ++ [LResult t (Err e)]). rewrite <- app_assoc. reflexivity.
    + intros l1 l2 E. assert (E2 : (m ++ [LResult t (Err e)]) ++ [LClose t] = l1 ++ LAttempt t :: l2) by (rewrite <- app_assoc; exact E).
      apply split_last in E2. destruct E2 as [(_ & _ & E2)|(l3 & -> & E2)]; [discriminate E2|].
      apply split_last in E2. destruct E2 as [(_ & _ & E2)|(l4 & -> & E2)]; [discriminate E2|]. eapply IH, E2.
  - split; [discriminate|]. intros l1 l2 E. apply split_last in E. destruct E as [(_ & _ & E)|(l3 & -> & E)]; [discriminate E|]. eapply IH, E.
  - split; [discriminate|]. intros l1 l2 E. apply split_last in E. destruct E as [(_ & _ & E)|(l3 & -> & E)]; [discriminate E|]. eapply IH, E.
Qed.
Lemma trace_retry t l x e : loop_trace t l x -> e <> CancelledError -> forall l1 l2, l = l1 ++ LResult t (Err e) :: l2 -> exists l3, l2 = LClose t :: l3.
Proof.
  intros T Ne. induction T as [|m T IH|m T IH|m T IH|m f T IH N|m T IH|m y T IH H]; intros l1 l2 E.
  - destruct l1; discriminate E.
  - apply split_last in E. destruct E as [(_ & _ & E)|(l3 & -> & E)]; [discriminate E|]. destruct (IH _ _ E) as (l4 & ->). eexists. reflexivity.
  - apply split_last in E. destruct E as [(_ & _ & E)|(l3 & -> & E)]; [discriminate E|]. destruct (IH _ _ E) as (l4 & ->). eexists. reflexivity.
  - apply split_last in E. destruct E as [(_ & _ & E)|(l3 & -> & E)]; [discriminate E|]. destruct (IH _ _ E) as (l4 & ->). eexists. reflexivity.
  - assert (E2 : (m ++ [LResult t (Err f)]) ++ [LClose t] = l1 ++ LResult t (Err e) :: l2) by (rewrite <- app_assoc; exact E).
    apply split_last in E2. destruct E2 as [(_ & _ & E2)|(l3 & -> & E2)]; [discriminate E2|].
    apply split_last in E2. destruct E2 as [(-> & _ & E2)|(l4 & -> & E2)]; [exists []; reflexivity|]. destruct (IH _ _ E2) as (l5 & ->). eexists. reflexivity.
  - apply split_last in E. destruct E as [(_ & _ & E)|(l3 & -> & E)]; [congruence|]. destruct (IH _ _ E) as (l4 & ->). eexists. reflexivity.
  - apply split_last in E. destruct E as [(_ & _ & E)|(l3 & -> & E)]; [discriminate E|]. destruct (IH _ _ E) as (l4 & ->). eexists. reflexivity.
Qed.

(** ** cancellations come from outside *)
Lemma cancels_run es t k : nth_error (y_tasks (life_run es life_init)) t = Some k -> k_loop k = true ->
  In (LCancel t) (y_log (life_run es life_init)) \/ In (LResult t (Err CancelledError)) (y_log (life_run es life_init)) ->
  In (VGo t (Err CancelledError)) es.
Proof.
  revert k. induction es as [|e es IH] using rev_ind; intros k; [intros _ _ [[]|[]]|]. rewrite life_run_snoc.
  set (s := life_run es life_init) in *. intros E L H. destruct (log_step e s) as (m & Em & F). rewrite Em in H. rewrite Forall_forall in F.
  rewrite in_app_iff. rewrite !in_app_iff in H.
  assert (Old : In (LCancel t) (y_log s) \/ In (LResult t (Err CancelledError)) (y_log s) -> In (VGo t (Err CancelledError)) es).
  { intro K. assert (T : exists k0, nth_error (y_tasks s) t = Some k0).
    { destruct (nth_error (y_tasks s) t) as [k0|] eqn:Z; [eauto|]. exfalso. apply nth_error_None in Z. destruct (trails_run es) as (A & _). fold s in A.
      specialize (A t Z). assert (X : forall o, about t o = true -> In o (y_log s) -> False).
      { intros o Ho Hi. assert (Y : In o (filter (about t) (y_log s))) by (apply filter_In; auto). rewrite A in Y. exact Y. }
      destruct K as [K|K]; eapply X; try exact K; cbn [about]; apply Nat.eqb_refl. }
    destruct T as (k0 & T). apply (IH k0 T); [|exact K]. destruct (kept_step e s t k0 T) as (k1 & E1 & L1). congruence. }
  destruct H as [[H|H]|[H|H]].
  - left. apply Old. auto.
  - right. left. exact (F _ H).
  - left. apply Old. auto.
  - destruct (F _ H) as [K|(K & Kt)]; [right; left; exact K|]. exfalso. subst e t. cbn [life_step] in E.
    assert (N : nth_error (y_tasks (with_tasks (y_tasks s ++ [mk_coroutine false KBegin]) s)) (length (y_tasks s)) = Some (mk_coroutine false KBegin))
      by (sel; rewrite nth_snoc, Nat.eqb_refl; reflexivity).
    destruct (kept_begins (length (y_tasks s)) (Err CancelledError) _ _ _ N) as (k1 & E1 & L1). cbn [k_loop] in L1. congruence.
Qed.
Lemma loop_ends es t k : nth_error (y_tasks (life_run es life_init)) t = Some k -> k_loop k = true -> ~ In (VGo t (Err CancelledError)) es ->
  ((exists r, k_stage k = KEnd r) <-> In (LResult t (Ok tt)) (y_log (life_run es life_init))).
Proof.
  intros E L N. destruct (trails_run es) as (_ & T). specialize (T t k E L).
  assert (St : (exists r, k_stage k = KEnd r) <-> state_of (k_stage k) = Over).
  { destruct (k_stage k); cbn [state_of]; split; try discriminate; try (intros (r & H); discriminate H); eauto. }
  rewrite St. assert (Fi : forall o, about t o = true -> (In o (y_log (life_run es life_init)) <-> In o (filter (about t) (y_log (life_run es life_init)))))
    by (intros o Ho; rewrite filter_In; tauto).
  split.
  - intro K. apply (trace_over _ _ _ T) in K. destruct K as (l' & [K|[K|K]]).
    + apply Fi; [cbn [about]; apply Nat.eqb_refl|]. rewrite K. apply in_app_iff. right. left. reflexivity.
    + exfalso. apply N. eapply cancels_run; [exact E|exact L|]. right. apply Fi; [cbn [about]; apply Nat.eqb_refl|]. rewrite K. apply in_app_iff. right. left. reflexivity.
    + exfalso. apply N. eapply cancels_run; [exact E|exact L|]. left. apply Fi; [cbn [about]; apply Nat.eqb_refl|]. rewrite K. apply in_app_iff. right. left. reflexivity.
  - intro H. apply (trace_final _ _ _ (LResult t (Ok tt)) T); [apply Fi; [cbn [about]; apply Nat.eqb_refl|exact H]|auto].
Qed.
(** a waiting loop tries *)
Lemma loop_tries s t k r : nth_error (y_tasks s) t = Some k -> k_stage k = KSleep -> r <> Err CancelledError ->
  exists l, y_log (life_step (VGo t r) s) = y_log s ++ LAttempt t :: l.
Proof.
  intros E S N. cbn [life_step]. unfold go_on. rewrite E, S. destruct (log_begins t r s) as (m & F & _).
  destruct r as [u|[]]; try (exists m; exact F). destruct (N eq_refl).
Qed.
