(** * LifeProofs4: calm histories have one loop and one port; closing; counting *)
From Verif Require Import Base Types Life SpecLife LifeProofs2 LifeProofs3.
From Coq Require Import ZifyBool ZifyNat.

(** ** ports of handed-over APIs *)
Record closed_inv (s : life) : Prop := mk_closed_inv {
  d_cur : forall a, y_cur s = Some a -> exists x, nth_error (y_apis s) a = Some x /\ a_app x = true;
  d_done : forall a x g y, nth_error (y_apis s) a = Some x -> a_app x = true -> nth_error (y_gws s) g = Some y -> g_api y = a ->
    a_uart x = Some g \/ g_open y = false }.
Lemma closed_same s s' : y_gws s' = y_gws s -> y_apis s' = y_apis s -> y_cur s' = y_cur s -> closed_inv s -> closed_inv s'.
Proof. intros E1 E2 E3 [A B]. split; rewrite ?E1, ?E2, ?E3; assumption. Qed.
Lemma stage_same t x s : y_gws (at_stage t x s) = y_gws s /\ y_apis (at_stage t x s) = y_apis s /\ y_cur (at_stage t x s) = y_cur s.
Proof. unfold at_stage. destruct (nth_error (y_tasks s) t); auto. Qed.
Lemma closed_stage t x s : closed_inv s -> closed_inv (at_stage t x s).
Proof. destruct (stage_same t x s) as (A & B & C). apply closed_same; assumption. Qed.
Lemma closed_log o s : closed_inv s -> closed_inv (log o s).
Proof. apply closed_same; reflexivity. Qed.

(** what closing does *)
Lemma api_close_shape a s : book s ->
  y_cur (api_close a s) = y_cur s /\
  (forall b, nth_error (y_apis (api_close a s)) b =
     if Nat.eqb b a then match nth_error (y_apis s) a with Some x => Some (mk_api_obj None (a_app x)) | None => None end else nth_error (y_apis s) b) /\
  (forall g, nth_error (y_gws (api_close a s)) g =
     match nth_error (y_gws s) g with
     | Some y => if match nth_error (y_apis s) a with Some x => match a_uart x with Some h => Nat.eqb h g | None => false end | None => false end
                 then Some (mk_gateway false false (g_told y) (g_api y)) else Some y
     | None => None end).
Proof.
  intro B. unfold api_close. destruct (nth_error (y_apis s) a) as [x|] eqn:E.
  - destruct (a_uart x) as [h|] eqn:U.
    + destruct (b_uart s B a x h E U) as (_ & z & Z & _). unfold gw_close. rewrite Z. sel. split; [reflexivity|]. split.
      * intro b. rewrite nth_set, E. reflexivity.
      * intro g. rewrite nth_set, Z. rewrite (Nat.eqb_sym h g). destruct (Nat.eqb_spec g h) as [->|]; [rewrite Z; reflexivity|].
        destruct (nth_error (y_gws s) g); reflexivity.
    + split; [reflexivity|]. split.
      * intro b. destruct (Nat.eqb_spec b a) as [->|]; [|reflexivity]. rewrite E. destruct x as [u v]. cbn [a_uart a_app] in *. subst u. reflexivity.
      * intro g. destruct (nth_error (y_gws s) g); reflexivity.
  - split; [reflexivity|]. split.
    + intro b. destruct (Nat.eqb_spec b a) as [->|]; [exact E|reflexivity].
    + intro g. destruct (nth_error (y_gws s) g); reflexivity.
Qed.
Lemma closed_close a s : book s -> closed_inv s -> closed_inv (api_close a s).
Proof.
  intros Bk [D1 D2]. destruct (api_close_shape a s Bk) as (Ec & Ea & Eg). split.
  - rewrite Ec. intros b H. destruct (D1 b H) as (x & X & Ap). rewrite Ea. destruct (Nat.eqb_spec b a) as [->|]; [|eauto].
    rewrite X. eexists. split; [reflexivity|exact Ap].
  - intros b x g y. rewrite Ea, Eg. destruct (nth_error (y_gws s) g) as [y0|] eqn:G; [|discriminate].
    destruct (Nat.eqb_spec b a) as [->|N].
    + destruct (nth_error (y_apis s) a) as [x0|] eqn:A; [|discriminate]. intro H. injection H as <-. gsel. intros Ap H Hy.
      destruct (a_uart x0) as [h|] eqn:U.
      * destruct (Nat.eqb_spec h g) as [->|Ng]; injection H as <-; gsel; [auto|].
        destruct (D2 a x0 g y0 A Ap G Hy) as [K|K]; [congruence|auto].
      * injection H as <-. destruct (D2 a x0 g y0 A Ap G Hy) as [K|K]; [congruence|auto].
    + intros X Ap H Hy. destruct (nth_error (y_apis s) a) as [x0|] eqn:A; [|injection H as <-; eapply D2; eassumption].
      destruct (a_uart x0) as [h|]; [|injection H as <-; eapply D2; eassumption].
      destruct (Nat.eqb h g); injection H as <-; gsel; [auto|eapply D2; eassumption].
Qed.
Lemma closed_app_close s : book s -> closed_inv s -> closed_inv (app_close s).
Proof. intros B D. unfold app_close. destruct (y_cur s); [apply closed_close; assumption|exact D]. Qed.
Lemma closed_top t s : book s -> closed_inv s -> closed_inv (loop_top t s).
Proof. intros B D. unfold loop_top. apply closed_stage, closed_log, closed_app_close; assumption. Qed.
Lemma closed_ended t r s : book s -> closed_inv s -> closed_inv (startup_ended t r s).
Proof.
  intros B D. unfold startup_ended. cbv zeta. pose proof (closed_log (LResult t r) s D) as D'. pose proof (book_log (LResult t r) s eq_refl B) as B'.
  destruct (nth_error (y_tasks (log (LResult t r) s)) t) as [k|]; [|exact D'].
  destruct r as [[]|[]]; try (apply closed_stage, D'); destruct (k_loop k); first [apply closed_stage, D'|apply closed_top; assumption].
Qed.
Lemma closed_new_api s : book s -> closed_inv s -> closed_inv (with_apis (y_apis s ++ [mk_api_obj None false]) s).
Proof.
  intros B [D1 D2]. split; sel.
  - intros a H. destruct (D1 a H) as (x & X & Ap). exists x. split; [|exact Ap]. rewrite nth_snoc. pose proof (nth_lt _ _ _ X).
    destruct (Nat.eqb_spec a (length (y_apis s))); [lia|exact X].
  - intros a x g y. rewrite nth_snoc. destruct (Nat.eqb_spec a (length (y_apis s))); [|apply D2]. intro H. injection H as <-. discriminate.
Qed.
Lemma closed_begins t r s : book s -> closed_inv s -> closed_inv (startup_begins t r s).
Proof.
  intros B D. unfold startup_begins. cbv zeta.
  pose proof (book_api (log (LAttempt t) s) (book_log (LAttempt t) s eq_refl B)) as B'.
  pose proof (closed_new_api (log (LAttempt t) s) (book_log (LAttempt t) s eq_refl B) (closed_log (LAttempt t) s D)) as D'.
  destruct r as [[]|e]; [|apply closed_ended; assumption]. apply closed_stage. destruct D' as [D1 D2]. sel. split; sel; [exact D1|].
  intros a x g y X Ap. rewrite nth_snoc. destruct (Nat.eqb_spec g (length (y_gws s))); [|apply D2; assumption].
  intro H. injection H as <-. gsel. intros <-. rewrite nth_snoc, Nat.eqb_refl in X. injection X as <-. discriminate Ap.
Qed.
Lemma closed_step e s : book s -> closed_inv s -> closed_inv (life_step e s).
Proof.
  intros B D. destruct e as [r| |g|t r]; cbn [life_step].
  - apply closed_begins; [apply book_task, B|]. revert D. apply closed_same; reflexivity.
  - destruct (y_cur s) as [a|]; [apply closed_close; assumption|apply closed_log, D].
  - unfold lost. destruct (nth_error (y_gws s) g) as [x|] eqn:E; [|exact D]. destruct (g_told x); [exact D|]. cbv zeta.
    assert (K : closed_inv (with_gws (set_nth g (mk_gateway (g_open x) false true (g_api x)) (y_gws s)) s)).
    { destruct D as [D1 D2]. split; sel; [exact D1|]. intros a z h y Z Ap. rewrite nth_set, E. destruct (Nat.eqb_spec h g) as [->|]; [|apply D2; assumption].
      intro H. injection H as <-. gsel. intro Hy. eapply D2; eassumption. }
    destruct (g_open x); sel; [|revert K; apply closed_same; reflexivity].
    destruct (nth_error (y_apis s) (g_api x)) as [a|]; [|revert K; apply closed_same; reflexivity].
    destruct (a_app a); revert K; apply closed_same; reflexivity.
  - unfold go_on. destruct (nth_error (y_tasks s) t) as [k|] eqn:E; [|exact D].
    assert (C : forall o x, closed_inv (at_stage t x (log o s))) by (intros; apply closed_stage, closed_log, D).
    destruct (k_stage k) as [| |a g| |x] eqn:S.
    + destruct r as [u|[]]; first [apply C|apply closed_top; assumption].
    + destruct r as [u|[]]; first [apply C|apply closed_begins; assumption].
    + assert (F : closed_inv (at_stage t KRequests (log (LHanded g) (with_cur (Some a) (with_apis (set_nth a (mk_api_obj (Some g) true) (y_apis s)) s))))).
      { apply closed_stage, closed_log. destruct (b_settle s B t k a g E S) as (y & Y1 & Y2 & Y3). destruct D as [D1 D2]. split; sel.
        - intros b H. injection H as <-. rewrite nth_set, Y3, Nat.eqb_refl. eauto.
        - intros b x h z. rewrite nth_set, Y3. destruct (Nat.eqb_spec b a) as [->|]; [|apply D2]. intro H. injection H as <-. gsel. intros _ Z Hz.
          left. f_equal. eapply (b_inj s B); [exact Y1|exact Z|congruence]. }
      destruct r as [u|[]]; first [exact F|apply closed_ended; assumption].
    + apply closed_ended; assumption.
    + exact D.
Qed.
Lemma closed_run es : closed_inv (life_run es life_init).
Proof.
  induction es as [|e es IH] using rev_ind; [|rewrite life_run_snoc; apply closed_step; [apply book_run|exact IH]].
  split; [discriminate|]. intros [|a] x g y H; discriminate H.
Qed.
(** after [app_close] the application's API has no open port *)
Lemma app_close_closes s : book s -> closed_inv s -> port_closed (app_close s).
Proof.
  intros B D. pose proof (book_app_close s B) as B'. pose proof (closed_app_close s B D) as [D1 D2]. intros a g y Hc G Hy.
  destruct (D1 a Hc) as (x & X & Ap). assert (O : g_open y = false).
  { destruct (D2 a x g y X Ap G Hy) as [U|O]; [|exact O]. exfalso. revert Hc X U. unfold app_close. destruct (y_cur s) as [c|] eqn:Ec; [|congruence].
    destruct (api_close_shape c s B) as (Hc & Ha & _). rewrite Hc, Ec, Ha. intro H. injection H as <-. rewrite Nat.eqb_refl.
    destruct (nth_error (y_apis s) c); [|discriminate]. intro H. injection H as <-. discriminate. }
  split; [exact O|]. rewrite (b_port _ B' g y G), O. reflexivity.
Qed.
Lemma port_closed_same s s' : y_gws s' = y_gws s -> y_cur s' = y_cur s -> port_closed s -> port_closed s'.
Proof. intros E1 E2 H a g y. rewrite E1, E2. apply H. Qed.
(** a step whose last entry is that a loop has closed leaves the application's API without an open port *)
Lemma top_closed t s : book s -> closed_inv s -> port_closed (loop_top t s).
Proof.
  intros B D. destruct (stage_same t KSleep (log (LClose t) (app_close s))) as (A1 & _ & A3).
  eapply port_closed_same; [exact A1|exact A3|]. eapply port_closed_same; [reflexivity|reflexivity|]. apply app_close_closes; assumption.
Qed.
Lemma last_of {A} (l m : list A) o p : l ++ [o] = m ++ [p] -> o = p.
Proof. intro H. apply app_inj_tail in H. apply H. Qed.
Lemma ended_closed t r u s l : book s -> closed_inv s -> y_log (startup_ended t r s) = l ++ [LClose u] -> port_closed (startup_ended t r s).
Proof.
  intros B D. unfold startup_ended. cbv zeta.
  assert (A : forall x l, y_log (at_stage t x (log (LResult t r) s)) = l ++ [LClose u] -> port_closed (at_stage t x (log (LResult t r) s)))
    by (intros x m E; rewrite log_stage in E; sel; apply last_of in E; discriminate E).
  pose proof (closed_log (LResult t r) s D) as D'. pose proof (book_log (LResult t r) s eq_refl B) as B'.
  destruct (nth_error (y_tasks (log (LResult t r) s)) t) as [k|]; [|sel; intro E; apply last_of in E; discriminate E].
  destruct r as [[]|[]]; try apply A; destruct (k_loop k); first [apply A|intros _; apply top_closed; assumption].
Qed.
Lemma begins_closed t r u s l : book s -> closed_inv s -> y_log (startup_begins t r s) = l ++ [LClose u] -> port_closed (startup_begins t r s).
Proof.
  intros B D. unfold startup_begins. cbv zeta. destruct r as [[]|e]; [rewrite log_stage; sel; intro E; apply last_of in E; discriminate E|].
  apply ended_closed; [apply book_api, book_log; [reflexivity|exact B]|].
  apply closed_new_api; [apply book_log; [reflexivity|exact B]|apply closed_log, D].
Qed.
Lemma step_closed e s t m : book s -> closed_inv s -> y_log (life_step e s) = y_log s ++ m ++ [LClose t] -> port_closed (life_step e s).
Proof.
  intros B D. assert (Z : forall l : list life_obs, l <> l ++ m ++ [LClose t]).
  { intros l E. rewrite <- (app_nil_r l) in E at 1. apply app_inv_head in E. destruct m; discriminate E. }
  destruct e as [r| |g|u r]; cbn [life_step]; rewrite ?app_assoc.
  - apply begins_closed; [apply book_task, B|]. revert D. apply closed_same; reflexivity.
  - destruct (y_cur s) as [a|]; [|sel; intro E; apply last_of in E; discriminate E].
    destruct (log_close a s) as [->|(g & ->)]; intro E; [rewrite <- app_assoc in E; destruct (Z _ E)|apply last_of in E; discriminate E].
  - unfold lost. destruct (nth_error (y_gws s) g) as [x|]; [|intro E; rewrite <- app_assoc in E; destruct (Z _ E)].
    destruct (g_told x); [intro E; rewrite <- app_assoc in E; destruct (Z _ E)|]. cbv zeta.
    destruct (g_open x); sel; [|intro E; apply last_of in E; discriminate E].
    destruct (nth_error (y_apis s) (g_api x)) as [a|]; [|intro E; apply last_of in E; discriminate E].
    destruct (a_app a); sel; intro E; apply last_of in E; discriminate E.
  - unfold go_on. destruct (nth_error (y_tasks s) u) as [k|]; [|intro E; rewrite <- app_assoc in E; destruct (Z _ E)].
    assert (C : forall o x s' l, (forall v, o <> LClose v) -> y_log (at_stage u x (log o s')) = l ++ [LClose t] -> port_closed (at_stage u x (log o s'))).
    { intros o x s' l N E. rewrite log_stage in E. sel. apply last_of in E. destruct (N t E). }
    destruct (k_stage k) as [| |a g| |x].
    + destruct r as [w|[]]; first [intros _; apply top_closed; assumption|apply C; discriminate].
    + destruct r as [w|[]]; first [apply begins_closed; assumption|apply C; discriminate].
    + destruct r as [w|[]]; first [apply ended_closed; assumption|apply C; discriminate].
    + apply ended_closed; assumption.
    + intro E. rewrite <- app_assoc in E. destruct (Z _ E).
Qed.

(** ** calm histories *)
Definition hot (s : life) (g : nat) : Prop := exists y, nth_error (y_gws s) g = Some y /\ g_open y = true /\ g_told y = false.
Definition cur_port (s : life) (g : nat) : Prop := exists a x, y_cur s = Some a /\ nth_error (y_apis s) a = Some x /\ a_uart x = Some g.
Definition living (s : life) (t : nat) (x : stage) : Prop := exists k, nth_error (y_tasks s) t = Some k /\ k_stage k = x /\ is_live k = true.
Record quiet (s : life) : Prop := mk_quiet {
  q_one : forall t u x y, living s t x -> living s u y -> t = u;
  q_idle : forall t, living s t KBegin \/ living s t KSleep -> forall g, ~ hot s g;
  q_settle : forall t a h, living s t (KSettle a h) -> forall g, hot s g -> g = h;
  q_else : (forall t a h, ~ living s t (KSettle a h)) -> forall g, hot s g -> cur_port s g }.
Lemma living_stage s t x : living s t x -> forall r, x <> KEnd r.
Proof. intros (k & _ & S & L) r ->. unfold is_live in L. rewrite S in L. discriminate L. Qed.
Lemma quiet_at s t x0 k x s' : quiet s -> nth_error (y_tasks s) t = Some k -> k_stage k = x0 -> living s t x0 ->
  y_tasks s' = set_nth t (mk_coroutine (k_loop k) x) (y_tasks s) ->
  match x with
  | KBegin | KSleep => forall g, ~ hot s' g
  | KSettle _ h => forall g, hot s' g -> g = h
  | KRequests | KEnd _ => forall g, hot s' g -> cur_port s' g
  end -> quiet s'.
Proof.
  intros Q E S L T H.
  assert (U : forall u y, living s' u y -> u = t /\ y = x).
  { intros u y (m & M & Sm & Lm). rewrite T, nth_set, E in M. destruct (Nat.eqb_spec u t) as [->|N].
    - injection M as <-. cbn [k_stage] in Sm. auto.
    - exfalso. apply N. eapply (q_one s Q); [|exact L]. exists m. split; [exact M|]. split; [exact Sm|exact Lm]. }
  assert (V : (forall r, x <> KEnd r) -> living s' t x).
  { intro N. exists (mk_coroutine (k_loop k) x). rewrite T, nth_set, E, Nat.eqb_refl. split; [reflexivity|]. split; [reflexivity|].
    unfold is_live. cbn [k_stage]. destruct x; try reflexivity. destruct (N r eq_refl). }
  split.
  - intros u v y z H1 H2. apply U in H1, H2. destruct H1, H2. congruence.
  - intros u [K|K]; apply U in K; destruct K as (_ & <-); exact H.
  - intros u a h K. apply U in K. destruct K as (_ & <-). exact H.
  - intros N g K. destruct x as [| |a h| |r].
    + destruct (H g K).
    + destruct (H g K).
    + destruct (N t a h (V ltac:(discriminate))).
    + exact (H g K).
    + exact (H g K).
Qed.
Lemma hot_same s s' g : y_gws s' = y_gws s -> hot s' g -> hot s g.
Proof. unfold hot. intros ->. auto. Qed.
Lemma cur_same s s' g : y_cur s' = y_cur s -> y_apis s' = y_apis s -> cur_port s g -> cur_port s' g.
Proof. unfold cur_port. intros -> ->. auto. Qed.
Lemma close_hot a s g : book s -> hot (api_close a s) g -> hot s g /\ forall x, nth_error (y_apis s) a = Some x -> a_uart x <> Some g.
Proof.
  intros B (y & Y & O & N). destruct (api_close_shape a s B) as (_ & _ & G). rewrite G in Y. destruct (nth_error (y_gws s) g) as [z|] eqn:Z; [|discriminate Y].
  destruct (nth_error (y_apis s) a) as [x|] eqn:X.
  - destruct (a_uart x) as [h|] eqn:U.
    + destruct (Nat.eqb_spec h g) as [->|Nh]; injection Y as <-; [discriminate O|]. split; [exists z; auto|]. intros x1 E. injection E as <-. congruence.
    + injection Y as <-. split; [exists z; auto|]. intros x1 E. injection E as <-. congruence.
  - injection Y as <-. split; [exists z; auto|]. discriminate.
Qed.
Lemma app_close_cold s g : book s -> (forall h, hot s h -> cur_port s h) -> ~ hot (app_close s) g.
Proof.
  intros B H K. unfold app_close in K. destruct (y_cur s) as [a|] eqn:C.
  - apply close_hot in K; [|exact B]. destruct K as (K & N). destruct (H g K) as (b & x & Cb & X & U). rewrite C in Cb. injection Cb as <-. exact (N x X U).
  - destruct (H g K) as (b & x & Cb & _). congruence.
Qed.
Lemma quiet_top t k s : book s -> quiet s -> nth_error (y_tasks s) t = Some k -> is_live k = true -> (forall g, hot s g -> cur_port s g) -> quiet (loop_top t s).
Proof.
  intros B Q E L H. eapply (quiet_at s t (k_stage k) k KSleep); [exact Q|exact E|reflexivity|exists k; auto| |].
  - unfold loop_top. rewrite (stage_tasks _ _ k); sel; rewrite tasks_app_close; [reflexivity|exact E].
  - intros g K. apply (app_close_cold s g B H). destruct (stage_same t KSleep (log (LClose t) (app_close s))) as (A1 & _). exact (hot_same _ _ _ A1 K).
Qed.
Lemma quiet_log o s : quiet s -> quiet (log o s).
Proof. intros [A B C D]. split; [exact A|exact B|exact C|exact D]. Qed.
Lemma quiet_ended t r k s : book s -> quiet s -> nth_error (y_tasks s) t = Some k -> is_live k = true -> (forall g, hot s g -> cur_port s g) -> quiet (startup_ended t r s).
Proof.
  intros B Q E L H. unfold startup_ended. cbv zeta. sel. rewrite E.
  assert (A : forall r', quiet (at_stage t (KEnd r') (log (LResult t r) s))).
  { intro r'. destruct (stage_same t (KEnd r') (log (LResult t r) s)) as (A1 & A2 & A3).
    eapply (quiet_at s t (k_stage k) k (KEnd r')); [exact Q|exact E|reflexivity|exists k; auto|rewrite (stage_tasks _ _ k) by exact E; reflexivity|].
    intros g K. eapply cur_same; [exact A3|exact A2|]. apply H. exact (hot_same _ _ _ A1 K). }
  assert (P : quiet (loop_top t (log (LResult t r) s)))
    by (apply (quiet_top t k); [apply book_log; [reflexivity|exact B]|apply quiet_log, Q|exact E|exact L|exact H]).
  destruct r as [[]|[]]; first [apply A|destruct (k_loop k); first [exact P|apply A]].
Qed.
Lemma quiet_begins t r k s : book s -> quiet s -> nth_error (y_tasks s) t = Some k -> is_live k = true -> (forall g, ~ hot s g) -> quiet (startup_begins t r s).
Proof.
  intros B Q E L H. unfold startup_begins. cbv zeta. destruct r as [[]|e].
  - match goal with |- quiet (at_stage t ?x ?y) => destruct (stage_same t x y) as (A1 & A2 & A3); eapply (quiet_at s t (k_stage k) k x) end;
      [exact Q|exact E|reflexivity|exists k; auto|rewrite (stage_tasks _ _ k) by exact E; reflexivity|].
    intros g K. apply (hot_same _ _ _ A1) in K. destruct K as (y & Y & O). sel. rewrite nth_snoc in Y. destruct (Nat.eqb_spec g (length (y_gws s))); [assumption|].
    destruct (H g). exists y. auto.
  - apply (quiet_ended t (Err e) k); [apply book_api, book_log; [reflexivity|exact B]| |exact E|exact L|intros g K; destruct (H g K)].
    destruct Q as [Q1 Q2 Q3 Q4]. split; [exact Q1|exact Q2|exact Q3|]. intros _ g K. destruct (H g K).
Qed.
Lemma quiet_step e s : book s -> quiet s -> is_startup e = false -> is_cancel e = false -> (forall g, e = VLost g -> ~ requesting s) -> quiet (life_step e s).
Proof.
  intros B Q NS NC NR. destruct e as [r| |g|t r]; cbn [life_step]; [discriminate NS| | |].
  - destruct (y_cur s) as [a|] eqn:C; [|apply quiet_log, Q]. pose proof (tasks_close a s) as T.
    assert (Lv : forall t x, living (api_close a s) t x -> living s t x) by (unfold living; rewrite T; auto).
    assert (Lw : forall t x, living s t x -> living (api_close a s) t x) by (unfold living; rewrite T; auto).
    destruct Q as [Q1 Q2 Q3 Q4]. split.
    + intros t u x y H1 H2. eapply Q1; eauto.
    + intros t H g K. apply close_hot in K; [|exact B]. apply (Q2 t) with (g := g); [destruct H; auto|apply K].
    + intros t b h H g K. apply close_hot in K; [|exact B]. eapply Q3; [apply Lv, H|apply K].
    + intros N g K. apply close_hot in K; [|exact B]. destruct K as (K & U). destruct (Q4 (fun t b h H => N t b h (Lw _ _ H)) g K) as (b & x & Cb & X & Ux).
      assert (b = a) by congruence. subst b. destruct (U x X Ux).
  - specialize (NR g eq_refl). unfold lost. destruct (nth_error (y_gws s) g) as [x|] eqn:E; [|exact Q]. destruct (g_told x) eqn:Tx; [exact Q|]. cbv zeta.
    set (s1 := log (LLost g) (with_gws (set_nth g (mk_gateway (g_open x) false true (g_api x)) (y_gws s)) s)).
    assert (Ho : forall h, hot s1 h -> hot s h /\ h <> g).
    { intros h (y & Y & O & N). unfold s1 in Y. sel. rewrite nth_set, E in Y. destruct (Nat.eqb_spec h g) as [->|Ng].
      - injection Y as <-. discriminate N.
      - split; [exists y; auto|exact Ng]. }
    assert (Q' : quiet s1).
    { destruct Q as [Q1 Q2 Q3 Q4]. split; [exact Q1| | |].
      - intros t H h K. exact (Q2 t H h (proj1 (Ho h K))).
      - intros t a h H h' K. exact (Q3 t a h H h' (proj1 (Ho h' K))).
      - intros N h K. destruct (Q4 N h (proj1 (Ho h K))) as (a & z & Z). exists a, z. exact Z. }
    destruct (g_open x) eqn:Ox; [|exact Q']. destruct (nth_error (y_apis s1) (g_api x)) as [a|] eqn:A; [|exact Q']. destruct (a_app a) eqn:Ap; [|apply quiet_log, Q'].
    assert (Hg : hot s g) by (exists x; auto).
    assert (NL : forall t y, ~ living s t y).
    { intros t y L. destruct y as [| |b h| |r].
      - exact (q_idle s Q t (or_introl L) g Hg).
      - exact (q_idle s Q t (or_intror L) g Hg).
      - assert (g = h) by (eapply (q_settle s Q); eassumption). subst h. destruct L as (k & K & S & _). destruct (b_settle s B t k b g K S) as (z & Z1 & Z2 & Z3).
        assert (z = x) by congruence. subst z. unfold s1 in A. sel. rewrite Z2 in A. rewrite Z3 in A. injection A as <-. discriminate Ap.
      - apply NR. destruct L as (k & K & S & _). exists k. split; [eapply nth_error_In, K|exact S].
      - exact (living_stage _ _ _ L r eq_refl). }
    assert (Cold : forall h, ~ hot s1 h).
    { intros h K. destruct (Ho h K) as (K' & Ng). assert (N0 : forall t b h0, ~ living s t (KSettle b h0)) by (intros; apply NL).
      destruct (q_else s Q N0 h K') as (b & z & C1 & C2 & C3). destruct (q_else s Q N0 g Hg) as (c & w & C4 & C5 & C6). congruence. }
    split.
    + intros t u y z (k & K1 & K2 & K3) (m & M1 & M2 & M3). unfold s1 in K1, M1. sel. rewrite nth_snoc in K1, M1.
      destruct (Nat.eqb_spec t (length (y_tasks s))); [|destruct (NL t (k_stage k)); exists k; auto].
      destruct (Nat.eqb_spec u (length (y_tasks s))); [congruence|destruct (NL u (k_stage m)); exists m; auto].
    + intros t _ h K. exact (Cold h K).
    + intros t b h _ h' K. destruct (Cold h' K).
    + intros _ h K. destruct (Cold h K).
  - unfold go_on. destruct (nth_error (y_tasks s) t) as [k|] eqn:E; [|exact Q].
    assert (L : (forall x, k_stage k <> KEnd x) -> is_live k = true) by (intro N; unfold is_live; destruct (k_stage k); try reflexivity; destruct (N r0 eq_refl)).
    assert (Lv : (forall x, k_stage k <> KEnd x) -> living s t (k_stage k)) by (intro N; exists k; auto).
    assert (El : (forall x, k_stage k <> KEnd x) -> (forall a h, k_stage k <> KSettle a h) -> forall g, hot s g -> cur_port s g).
    { intros N1 N2 g. apply (q_else s Q). intros u a h Hu. assert (u = t) by (eapply (q_one s Q); [exact Hu|apply Lv, N1]). subst u.
      destruct Hu as (k' & K1 & K2 & _). assert (k' = k) by congruence. subst k'. exact (N2 a h K2). }
    destruct (k_stage k) as [| |a h| |x] eqn:S.
    + destruct r as [u|[]]; try discriminate NC; (apply (quiet_top t k); [exact B|exact Q|exact E|apply L; discriminate|apply El; discriminate]).
    + assert (C : forall g, ~ hot s g) by (apply (q_idle s Q t); right; apply Lv; discriminate).
      destruct r as [u|[]]; try discriminate NC; (apply (quiet_begins t _ k); [exact B|exact Q|exact E|apply L; discriminate|exact C]).
    + assert (F : quiet (at_stage t KRequests (log (LHanded h) (with_cur (Some a) (with_apis (set_nth a (mk_api_obj (Some h) true) (y_apis s)) s))))).
      { match goal with |- quiet (at_stage t ?x ?y) => destruct (stage_same t x y) as (A1 & A2 & A3); eapply (quiet_at s t (k_stage k) k x) end;
          [exact Q|exact E|reflexivity|rewrite S; apply Lv; discriminate|rewrite (stage_tasks _ _ k) by exact E; reflexivity|].
        intros g K. apply (hot_same _ _ _ A1) in K. assert (g = h) by (eapply (q_settle s Q t a h); [apply Lv; discriminate|exact K]). subst g.
        destruct (b_settle s B t k a h E S) as (y & _ & _ & Y3). exists a, (mk_api_obj (Some h) true). rewrite A2, A3. sel. rewrite nth_set, Y3, Nat.eqb_refl. auto. }
      destruct r as [u|[]]; first [discriminate NC|exact F].
    + apply (quiet_ended t r k); [exact B|exact Q|exact E|apply L; discriminate|apply El; discriminate].
    + exact Q.
Qed.
Lemma quiet_init : quiet life_init.
Proof.
  assert (N : forall t x, ~ living life_init t x) by (intros [|t] x (k & H & _); discriminate H).
  assert (M : forall g, ~ hot life_init g) by (intros [|g] (y & H & _); discriminate H).
  split; [intros t u x y H; destruct (N _ _ H)|intros t _; exact M|intros t a h H; destruct (N _ _ H)|intros _ g H; destruct (M g H)].
Qed.
Lemma calm_prefix es fs : calm (es ++ fs) -> calm es.
Proof.
  intros (A & B & C). split; [|split].
  - intros e r -> x H. apply (A e (r ++ fs)); [reflexivity|]. apply in_app_iff. auto.
  - intros e H. apply B. apply in_app_iff. auto.
  - intros es1 g es2 ->. apply (C es1 g (es2 ++ fs)). rewrite <- app_assoc. reflexivity.
Qed.
Lemma quiet_run es : calm es -> quiet (life_run es life_init).
Proof.
  induction es as [|e es IH] using rev_ind; intro C; [exact quiet_init|]. rewrite life_run_snoc.
  destruct C as (C1 & C2 & C3) eqn:EC. pose proof (calm_prefix _ _ C) as Cp. clear EC.
  destruct es as [|e0 es].
  - cbn [life_run fold_left]. destruct e as [r| |g|t r].
    + cbn [life_step]. set (s := with_tasks (y_tasks life_init ++ [mk_coroutine false KBegin]) life_init).
      assert (M : forall g, ~ hot s g) by (intros [|g] (y & H & _); discriminate H).
      apply (quiet_begins 0 r (mk_coroutine false KBegin)); [apply book_task, book_init| |reflexivity|reflexivity|exact M].
      split; [|intros t _; exact M|intros t a h _ g H; destruct (M g H)|intros _ g H; destruct (M g H)].
      intros t u x y (k & K & _) (m & K' & _). destruct t as [|[|t]]; [|discriminate K|discriminate K]. destruct u as [|[|u]]; [reflexivity|discriminate K'|discriminate K'].
    + apply quiet_step; [apply book_init|exact quiet_init|reflexivity|reflexivity|discriminate].
    + apply quiet_step; [apply book_init|exact quiet_init|reflexivity|reflexivity|]. intros h _ (k & [] & _).
    + apply quiet_step; [apply book_init|exact quiet_init|reflexivity| |discriminate]. apply C2. left. reflexivity.
  - apply quiet_step; [apply book_run|apply IH; exact Cp| | |].
    + apply (C1 e0 (es ++ [e])); [reflexivity|]. apply in_app_iff. right. left. reflexivity.
    + apply C2. apply in_app_iff. right. left. reflexivity.
    + intros g ->. apply (C3 _ g []). reflexivity.
Qed.

(** counting *)
Lemma filter_one {A} (p : A -> bool) l : (forall i j x y, nth_error l i = Some x -> nth_error l j = Some y -> p x = true -> p y = true -> i = j) ->
  (length (filter p l) <= 1)%nat.
Proof.
  induction l as [|a l IH]; intro H; cbn [filter]; [cbn [length]; lia|]. destruct (p a) eqn:P.
  - replace (filter p l) with (@nil A); [cbn [length]; lia|]. symmetry.
    destruct (filter p l) as [|b m] eqn:F; [reflexivity|]. exfalso. assert (I : In b (filter p l)) by (rewrite F; left; reflexivity).
    apply filter_In in I. destruct I as (I & Pb). apply In_nth_error in I. destruct I as (n & N). specialize (H O (S n) a b eq_refl N P Pb). discriminate H.
  - apply IH. intros i j x y Hi Hj Px Py. specialize (H (S i) (S j) x y Hi Hj Px Py). congruence.
Qed.
Lemma calm_one es : calm es -> let s := life_run es life_init in (live_loops s <= 1)%nat /\ (live s <= 1)%nat /\ (open_ports s <= 1)%nat.
Proof.
  intro C. cbv zeta. pose proof (quiet_run es C) as Q. pose proof (book_run es) as B. set (s := life_run es life_init) in *.
  assert (L : forall i j x y, nth_error (y_tasks s) i = Some x -> nth_error (y_tasks s) j = Some y -> is_live x = true -> is_live y = true -> i = j).
  { intros i j x y Hi Hj Lx Ly. eapply (q_one s Q); [exists x; eauto|exists y; eauto]. }
  split; [|split].
  - apply filter_one. intros i j x y Hi Hj Px Py. apply andb_prop in Px, Py. eapply L; [exact Hi|exact Hj|apply Px|apply Py].
  - apply filter_one. exact L.
  - apply filter_one. intros i j x y Hi Hj Px Py.
    assert (H : forall g z, nth_error (y_gws s) g = Some z -> g_port z = true -> hot s g).
    { intros g z Z P. exists z. rewrite (b_port s B g z Z) in P. apply andb_prop in P. destruct P as (P1 & P2). apply negb_true_iff in P2. auto. }
    assert (Hi' := H i x Hi Px). assert (Hj' := H j y Hj Py).
    destruct (existsb (fun k => match k_stage k with KSettle _ _ => true | _ => false end) (y_tasks s)) eqn:Ex.
    + apply existsb_exists in Ex. destruct Ex as (k & I & K). destruct (k_stage k) as [| |a h| |] eqn:S; try discriminate K.
      apply In_nth_error in I. destruct I as (n & N). assert (Lk : living s n (KSettle a h)) by (exists k; unfold is_live; rewrite S; auto).
      rewrite (q_settle s Q n a h Lk i Hi'), (q_settle s Q n a h Lk j Hj'). reflexivity.
    + assert (N : forall t a h, ~ living s t (KSettle a h)).
      { intros t a h (k & K & S & _). assert (T : existsb (fun k => match k_stage k with KSettle _ _ => true | _ => false end) (y_tasks s) = true).
        { apply existsb_exists. exists k. split; [eapply nth_error_In, K|rewrite S; reflexivity]. } congruence. }
      destruct (q_else s Q N i Hi') as (a & z & A1 & A2 & A3). destruct (q_else s Q N j Hj') as (b & w & B1 & B2 & B3). congruence.
Qed.
(** when a loop is about to try, no port is open *)
Lemma calm_waiting es t k : calm es -> nth_error (y_tasks (life_run es life_init)) t = Some k -> k_stage k = KSleep -> open_ports (life_run es life_init) = 0%nat.
Proof.
  intros C E S. pose proof (quiet_run es C) as Q. pose proof (book_run es) as B. set (s := life_run es life_init) in *.
  assert (Cold : forall g, ~ hot s g) by (apply (q_idle s Q t); right; exists k; unfold is_live; rewrite S; auto).
  unfold open_ports. destruct (filter g_port (y_gws s)) as [|b m] eqn:F; [reflexivity|]. exfalso.
  assert (I : In b (filter g_port (y_gws s))) by (rewrite F; left; reflexivity). apply filter_In in I. destruct I as (I & P).
  apply In_nth_error in I. destruct I as (n & N). apply (Cold n). exists b. rewrite (b_port s B n b N) in P. apply andb_prop in P. destruct P as (P1 & P2). apply negb_true_iff in P2. auto.
Qed.

(** ** after shutdown *)
Definition dead (s : life) : Prop := (forall t x, ~ living s t x) /\ (forall g, ~ hot s g).
Lemma dead_step e s : book s -> dead s -> is_startup e = false -> dead (life_step e s) /\ y_tasks (life_step e s) = y_tasks s.
Proof.
  intros B (D1 & D2) N. destruct e as [r| |g|t r]; cbn [life_step]; [discriminate N| | |].
  - destruct (y_cur s) as [a|]; [|split; [split; [exact D1|exact D2]|reflexivity]]. split; [|apply tasks_close]. split.
    + unfold living. rewrite tasks_close. exact D1.
    + intros g K. apply close_hot in K; [|exact B]. exact (D2 g (proj1 K)).
  - unfold lost. destruct (nth_error (y_gws s) g) as [x|] eqn:E; [|split; [split; assumption|reflexivity]].
    destruct (g_told x) eqn:T; [split; [split; assumption|reflexivity]|]. cbv zeta. destruct (g_open x) eqn:O; [destruct (D2 g); exists x; auto|].
    split; [|reflexivity]. split; [exact D1|]. intros h (y & Y & H1 & H2). sel. rewrite nth_set, E in Y. destruct (Nat.eqb h g); [injection Y as <-; discriminate H1|].
    apply (D2 h). exists y. auto.
  - unfold go_on. destruct (nth_error (y_tasks s) t) as [k|] eqn:E; [|split; [split; assumption|reflexivity]].
    destruct (is_live k) eqn:L; [destruct (D1 t (k_stage k)); exists k; auto|]. unfold is_live in L. destruct (k_stage k); try discriminate L. split; [split; assumption|reflexivity].
Qed.
Lemma dead_ports s : book s -> dead s -> open_ports s = 0%nat.
Proof.
  intros B (_ & D). unfold open_ports. destruct (filter g_port (y_gws s)) as [|b m] eqn:F; [reflexivity|]. exfalso.
  assert (I : In b (filter g_port (y_gws s))) by (rewrite F; left; reflexivity). apply filter_In in I. destruct I as (I & P).
  apply In_nth_error in I. destruct I as (n & N). apply (D n). exists b. rewrite (b_port s B n b N) in P. apply andb_prop in P. destruct P as (P1 & P2). apply negb_true_iff in P2. auto.
Qed.
Lemma shutdown_dead es : calm es -> live (life_run es life_init) = 0%nat -> dead (life_run (es ++ [VShutdown]) life_init).
Proof.
  intros C L. rewrite life_run_snoc. pose proof (quiet_run es C) as Q. pose proof (book_run es) as B. set (s := life_run es life_init) in *.
  assert (NL : forall t x, ~ living s t x).
  { intros t x (k & K & _ & Lk). unfold live in L. assert (I : In k (filter is_live (y_tasks s))) by (apply filter_In; split; [eapply nth_error_In, K|exact Lk]).
    destruct (filter is_live (y_tasks s)); [destruct I|discriminate L]. }
  assert (H : forall g, hot s g -> cur_port s g) by (apply (q_else s Q); intros; apply NL).
  cbn [life_step]. pose proof (app_close_cold s) as Cold. unfold app_close in Cold. destruct (y_cur s) as [a|] eqn:Ec.
  - split; [unfold living; rewrite tasks_close; exact NL|]. intros g K. exact (Cold g B H K).
  - split; [exact NL|]. intros g K. exact (Cold g B H K).
Qed.
Lemma shutdown_final es fs : calm es -> live (life_run es life_init) = 0%nat -> (forall e, In e fs -> is_startup e = false) ->
  let s := life_run (es ++ VShutdown :: fs) life_init in
  open_ports s = 0%nat /\ live s = 0%nat /\ y_tasks s = y_tasks (life_run es life_init).
Proof.
  intros C L N. cbv zeta. assert (K : dead (life_run (es ++ VShutdown :: fs) life_init) /\ y_tasks (life_run (es ++ VShutdown :: fs) life_init) = y_tasks (life_run es life_init)).
  { induction fs as [|e fs IH] using rev_ind.
    - split; [apply shutdown_dead; assumption|]. rewrite life_run_snoc. cbn [life_step]. destruct (y_cur _); [apply tasks_close|reflexivity].
    - destruct IH as (D & T); [intros x H; apply N; apply in_app_iff; auto|].
      replace (es ++ VShutdown :: fs ++ [e]) with ((es ++ VShutdown :: fs) ++ [e]) by (rewrite <- app_assoc; reflexivity). rewrite life_run_snoc.
      destruct (dead_step e _ (book_run _) D) as (D' & T'); [apply N; apply in_app_iff; right; left; reflexivity|]. split; [exact D'|congruence]. }
  destruct K as (D & T). split; [apply dead_ports; [apply book_run|exact D]|]. split; [|exact T].
  unfold live. destruct (filter is_live _) as [|k m] eqn:F; [reflexivity|]. exfalso. assert (I : In k (filter is_live (y_tasks (life_run (es ++ VShutdown :: fs) life_init)))) by (rewrite F; left; reflexivity).
  apply filter_In in I. destruct I as (I & Lk). apply In_nth_error in I. destruct I as (n & Hn). apply (proj1 D n (k_stage k)). exists k. auto.
Qed.

(** ** one loop per lost port *)
Lemma once_per_port es g t u : In (LReconnect g t) (y_log (life_run es life_init)) -> In (LReconnect g u) (y_log (life_run es life_init)) -> t = u.
Proof.
  intros H1 H2. pose proof (lawful_rule _ (b_law _ (book_run es))) as R. pose proof (lawful_origin _ (b_law _ (book_run es))) as O.
  set (l := y_log (life_run es life_init)) in *. apply in_split in H1, H2. destruct H1 as (a1 & a2 & Ea). destruct H2 as (b1 & b2 & Eb).
  destruct (O _ _ _ _ Ea) as (a0 & ->). destruct (O _ _ _ _ Eb) as (b0 & ->).
  assert (Ea' : l = a0 ++ LLost g :: (LReconnect g t :: a2)) by (rewrite Ea, <- app_assoc; reflexivity).
  assert (Eb' : l = b0 ++ LLost g :: (LReconnect g u :: b2)) by (rewrite Eb, <- app_assoc; reflexivity).
  destruct (R _ _ _ Ea') as (Na & _). destruct (R _ _ _ Eb') as (Nb & _).
  assert (E : a0 ++ LLost g :: (LReconnect g t :: a2) = b0 ++ LLost g :: (LReconnect g u :: b2)) by congruence.
  clear - E Na Nb. revert b0 E Nb. induction a0 as [|x a0 IH]; intros [|y b0] E Nb; cbn [app] in E.
  - injection E as E1 E2. exact E1.
  - injection E as E1 E2. destruct Nb. left. symmetry. exact E1.
  - injection E as E1 E2. destruct Na. left. exact E1.
  - injection E as E1 E2. apply (IH (fun K => Na (or_intror K)) b0 E2). intro K. apply Nb. right. exact K.
Qed.
