(** * StartProofs: executions of the start-up program *)
From Coq Require Import ZifyBool ZifyNat.
From Verif Require Import Base Types Buffalo Zpi Api SpecCodec SpecMachine Nv StartZnp SpecStart.

(** ** Executions of compound programs *)
Lemma runs_seq {A B} (p : prog A) (g : A -> prog B) tr f : runs (seq p g) tr f ->
  (exists t1 t2 a, tr = t1 ++ t2 /\ runs p t1 (Returned a) /\ runs (g a) t2 f) \/
  (runs p tr Interrupted /\ f = Interrupted) \/
  (exists e, runs p tr (Raised e) /\ f = Raised e).
Proof.
  revert tr f. induction p as [a|e|sub cmd d x k IH|m t k IH|w k IH|sub cmd d k IH]; intros tr f H; cbn [seq] in H.
  1: left; exists [], tr, a; split; [reflexivity|]; split; [constructor|exact H].
  1: inversion H; subst; [right; left|right; right; exists e]; split; constructor.
  all: inversion H; subst; try (right; left; split; constructor; fail).
  all: clear H; match goal with R : runs _ _ _ |- _ => apply IH in R as [(t1 & t2 & a & -> & K1 & K2)|[[K1 ->]|(e & K1 & ->)]] end.
  all: try (right; left; split; [constructor; assumption|reflexivity]).
  all: try (right; right; exists e; split; [constructor; assumption|reflexivity]).
  all: left; eexists (_ :: t1), t2, a; split; [reflexivity|]; split; [constructor; assumption|exact K2].
Qed.

Lemma runs_seq_ret {A B} (p : prog A) (g : A -> prog B) tr b : runs (seq p g) tr (Returned b) ->
  exists t1 t2 a, tr = t1 ++ t2 /\ runs p t1 (Returned a) /\ runs (g a) t2 (Returned b).
Proof. intro H. destruct (runs_seq _ _ _ _ H) as [K1|[[_ E]|(e & _ & E)]]; [exact K1|discriminate|discriminate]. Qed.

Lemma runs_attempt {A} (p : prog A) h tr f : runs (attempt p h) tr f ->
  (exists a, f = Returned a /\ runs p tr (Returned a)) \/
  (f = Interrupted /\ runs p tr Interrupted) \/
  (exists t1 t2 e, tr = t1 ++ t2 /\ runs p t1 (Raised e) /\
     match h e with Some q => runs q t2 f | None => t2 = [] /\ f = Raised e end).
Proof.
  revert tr f. induction p as [a|e|sub cmd d x k IH|m t k IH|w k IH|sub cmd d k IH]; intros tr f H; cbn [attempt] in H.
  1: inversion H; subst; [right; left|left; exists a]; split; constructor.
  1: { destruct (h e) as [q|] eqn:E.
    - right; right. exists [], tr, e. rewrite E. split; [reflexivity|]. split; [constructor|exact H].
    - inversion H; subst; [right; left; split; constructor|]. right; right. exists [], [], e. rewrite E. split; [reflexivity|].
      split; [constructor|split; reflexivity]. }
  all: inversion H; subst; try (right; left; split; constructor; fail).
  all: clear H; match goal with R : runs _ _ _ |- _ => apply IH in R as [(a & -> & K1)|[[-> K1]|(t1 & t2 & e & -> & K1 & K2)]] end.
  all: try (right; left; split; [reflexivity|constructor; assumption]).
  all: try (left; exists a; split; [reflexivity|constructor; assumption]).
  all: right; right; eexists (_ :: t1), t2, e; split; [reflexivity|]; split; [constructor; assumption|exact K2].
Qed.

Lemma runs_of_result {A} (r : result A) tr f : runs (of_result r) tr f ->
  tr = [] /\ (f = Interrupted \/ match r with Ok a => f = Returned a | Err e => f = Raised e end).
Proof. destruct r; intro H; inversion H; subst; split; auto. Qed.
Lemma runs_ret_inv {A} (a : A) tr f : runs (DRet a) tr f -> tr = [] /\ (f = Interrupted \/ f = Returned a).
Proof. intro H; inversion H; subst; auto. Qed.
Lemma runs_raise_inv {A} e tr (f : fin A) : runs (DRaise e) tr f -> tr = [] /\ (f = Interrupted \/ f = Raised e).
Proof. intro H; inversion H; subst; auto. Qed.
Lemma runs_field r n tr f : runs (field r n) tr f ->
  tr = [] /\ (f = Interrupted \/ match dict_get (z_payload r) n with Some v => f = Returned v | None => f = Raised KeyError end).
Proof. unfold field. destruct (dict_get _ _); intro H; inversion H; subst; auto. Qed.

(** ** Programs all of whose acts satisfy a predicate *)
Definition only {A} (P : act -> Prop) (p : prog A) : Prop := forall tr f, runs p tr f -> Forall P tr.
Lemma only_ret {A} P (a : A) : only P (DRet a).
Proof. intros tr f H. apply runs_ret_inv in H as [-> _]. constructor. Qed.
Lemma only_raise {A} P e : only P (@DRaise A e).
Proof. intros tr f H. apply runs_raise_inv in H as [-> _]. constructor. Qed.
Lemma only_field P r n : only P (field r n).
Proof. intros tr f H. apply runs_field in H as [-> _]. constructor. Qed.
Lemma only_seq {A B} P (p : prog A) (g : A -> prog B) : only P p -> (forall a, only P (g a)) -> only P (seq p g).
Proof.
  intros Hp Hg tr f H. destruct (runs_seq _ _ _ _ H) as [(t1 & t2 & a & -> & H1 & H2)|[[H1 ->]|(e & H1 & ->)]].
  - apply Forall_app. split; [eapply Hp, H1|eapply Hg, H2].
  - eapply Hp, H1.
  - eapply Hp, H1.
Qed.
Lemma only_attempt {A} P (p : prog A) h : only P p -> (forall e q, h e = Some q -> only P q) -> only P (attempt p h).
Proof.
  intros Hp Hh tr f H. destruct (runs_attempt _ _ _ _ H) as [(a & -> & H1)|[[-> H1]|(t1 & t2 & e & -> & H1 & H2)]].
  - eapply Hp, H1.
  - eapply Hp, H1.
  - apply Forall_app. split; [eapply Hp, H1|]. destruct (h e) as [q|] eqn:E; [eapply Hh; [exact E|exact H2]|].
    destruct H2 as [-> _]. constructor.
Qed.
Lemma only_request (P : act -> Prop) sub cmd d x : (forall r, P (ARequest sub cmd d x r)) -> only P (request sub cmd d x).
Proof.
  intros HP tr f H. unfold request in H. inversion H; subst; [constructor|repeat constructor; apply HP|].
  clear H; match goal with R : runs _ _ _ |- _ => apply runs_of_result in R as [-> _] end. repeat constructor. apply HP.
Qed.
Lemma only_listen (P : act -> Prop) m t : P (AListen m t) -> only P (listen m t).
Proof.
  intros HP tr f H. unfold listen in H. inversion H; subst; [constructor|].
  clear H; match goal with R : runs _ _ _ |- _ => apply runs_ret_inv in R as [-> _] end. repeat constructor. exact HP.
Qed.
Lemma only_await (P : act -> Prop) w : (forall r, P (AAwait (fst w) r)) -> only P (await w).
Proof.
  intros HP tr f H. unfold await in H. inversion H; subst; [constructor|].
  clear H; match goal with R : runs _ _ _ |- _ => apply runs_of_result in R as [-> _] end. repeat constructor. apply HP.
Qed.
Lemma only_spawn (P : act -> Prop) sub cmd d : P (ASpawn sub cmd d) -> only P (spawn sub cmd d).
Proof.
  intros HP tr f H. unfold spawn in H. inversion H; subst; [constructor|].
  clear H; match goal with R : runs _ _ _ |- _ => apply runs_ret_inv in R as [-> _] end. repeat constructor. exact HP.
Qed.
Lemma only_weaken {A} (P Q : act -> Prop) (p : prog A) : (forall a, P a -> Q a) -> only P p -> only Q p.
Proof. intros HPQ H tr f Hr. eapply Forall_impl; [exact HPQ|eapply H, Hr]. Qed.

Ltac onl := repeat first
  [ apply only_ret | apply only_raise | apply only_field | apply only_request; intro | apply only_listen
  | apply only_await; intro | apply only_spawn
  | apply only_attempt; [|let e := fresh "e" in let q := fresh "q" in let E := fresh "E" in intros e q E]
  | apply only_seq; [|intro]
  | match goal with |- only _ (if ?b then _ else _) => destruct b | |- only _ (match ?x with _ => _ end) => destruct x end
  | match goal with E : (if is_assertion ?e then _ else _) = Some _ |- _ => destruct (is_assertion e); [injection E as <-|discriminate E] end
  | match goal with E : match ?e with ValueError => _ | _ => _ end = Some _ |- _ => destruct e; try discriminate E; injection E as <- end ].

(** ** Straight-line programs *)
Inductive op := OpRequest (sub : subsystem) (cmd : string) (d : payload) (x : list Z) | OpListen (m : matcher) (t : Z) | OpAwait (m : matcher).
Inductive follows : list op -> list act -> fin unit -> Prop :=
| fo_interrupted l : follows l [] Interrupted
| fo_end : follows [] [] (Returned tt)
| fo_lost sub cmd d x l : follows (OpRequest sub cmd d x :: l) [ARequest sub cmd d x None] Interrupted
| fo_failed sub cmd d x l e f : f <> Returned tt -> follows (OpRequest sub cmd d x :: l) [ARequest sub cmd d x (Some (Err e))] f
| fo_done sub cmd d x l m tr f : answer_possible x (Ok m) -> follows l tr f ->
    follows (OpRequest sub cmd d x :: l) (ARequest sub cmd d x (Some (Ok m)) :: tr) f
| fo_listen m t l tr f : follows l tr f -> follows (OpListen m t :: l) (AListen m t :: tr) f
| fo_await m r l tr f : indication_possible m (Ok r) -> follows l tr f -> follows (OpAwait m :: l) (AAwait m (Ok r) :: tr) f
| fo_await_failed m e l f : f <> Returned tt -> follows (OpAwait m :: l) [AAwait m (Err e)] f.
Definition erase {A} (f : fin A) : fin unit := match f with Returned _ => Returned tt | Raised e => Raised e | Interrupted => Interrupted end.
Definition plan {A} (p : prog A) (l : list op) : Prop := forall tr f, runs p tr f -> follows l tr (erase f).

Lemma follows_app l1 l2 t1 t2 f : follows l1 t1 (Returned tt) -> follows l2 t2 f -> follows (l1 ++ l2) (t1 ++ t2) f.
Proof.
  intros H H2. remember (Returned tt) as g eqn:E. revert E. induction H; intro E; try discriminate; try contradiction; cbn [app]; [exact H2| | |].
  all: constructor; auto.
Qed.
Lemma follows_stop l1 l2 tr f : follows l1 tr f -> f <> Returned tt -> follows (l1 ++ l2) tr f.
Proof. intros H N. induction H; cbn [app]; try (constructor; auto; fail). congruence. Qed.

Lemma plan_ret {A} (a : A) : plan (DRet a) [].
Proof. intros tr f H. apply runs_ret_inv in H as [-> [->| ->]]; constructor. Qed.
Lemma plan_request sub cmd d x : plan (request sub cmd d x) [OpRequest sub cmd d x].
Proof.
  intros tr f H. unfold request in H. inversion H; subst; [constructor|constructor|]. clear H.
  match goal with R : runs _ _ _ |- _ => apply runs_of_result in R as [-> [->|R]] end.
  - destruct r as [m|e]; constructor; [assumption|constructor|discriminate].
  - destruct r as [m|e]; subst f; constructor; [assumption|constructor|discriminate].
Qed.
Lemma plan_listen {A} m t (g : matcher * Z -> prog A) l : plan (g (m, t)) l -> plan (seq (listen m t) g) (OpListen m t :: l).
Proof.
  intros Hg tr f H. unfold listen in H. cbn [seq] in H. inversion H; subst; [constructor|]. constructor. apply Hg. assumption.
Qed.
Lemma plan_await_started m t : plan (await_started (m, t)) [OpAwait m].
Proof.
  intros tr f H. unfold await_started, await in H. cbn [attempt] in H. inversion H; subst; [constructor|]. clear H.
  destruct r as [r|e]; cbn [of_result attempt] in *.
  - match goal with R : runs _ _ _ |- _ => apply runs_ret_inv in R as [-> [->| ->]] end; constructor; try assumption; constructor.
  - assert (E : tr0 = [] /\ erase f <> Returned tt).
    { destruct e; match goal with R : runs _ _ _ |- _ => apply runs_raise_inv in R as [-> [->| ->]] end; (split; [reflexivity|discriminate]). }
    destruct E as [-> E]. constructor. exact E.
Qed.
Lemma plan_seq {A B} (p : prog A) (g : A -> prog B) l1 l2 : plan p l1 -> (forall a, plan (g a) l2) -> plan (seq p g) (l1 ++ l2).
Proof.
  intros Hp Hg tr f H. destruct (runs_seq _ _ _ _ H) as [(t1 & t2 & a & -> & H1 & H2)|[[H1 ->]|(e & H1 & ->)]].
  - apply follows_app; [apply (Hp _ _ H1)|apply (Hg a _ _ H2)].
  - apply follows_stop; [apply (Hp _ _ H1)|discriminate].
  - apply follows_stop; [apply (Hp _ _ H1)|discriminate].
Qed.
Lemma plan_then {A} sub cmd d x (g : zpi -> prog A) l : (forall r, plan (g r) l) -> plan (seq (request sub cmd d x) g) (OpRequest sub cmd d x :: l).
Proof. intro H. apply (plan_seq _ _ [_]); [apply plan_request|exact H]. Qed.

(** an operation that was carried out *)
Definition done (o : op) (a : act) : Prop :=
  match o, a with
  | OpRequest sub cmd d x, ARequest sub' cmd' d' x' (Some (Ok _)) => sub' = sub /\ cmd' = cmd /\ d' = d /\ x' = x
  | OpListen m t, AListen m' t' => m' = m /\ t' = t
  | OpAwait m, AAwait m' (Ok r) => m' = m /\ waiter_match m r = Ok true
  | _, _ => False
  end.
(** an operation that was begun *)
Definition begun (o : op) (a : act) : Prop :=
  match o, a with
  | OpRequest sub cmd d x, ARequest sub' cmd' d' x' _ => sub' = sub /\ cmd' = cmd /\ d' = d /\ x' = x
  | OpListen m t, AListen m' t' => m' = m /\ t' = t
  | OpAwait m, AAwait m' _ => m' = m
  | _, _ => False
  end.
Lemma follows_complete l tr : follows l tr (Returned tt) -> Forall2 done l tr.
Proof.
  intro H. remember (Returned tt) as g eqn:E. revert E. induction H; intro E; try discriminate; try contradiction.
  - constructor.
  - constructor; [repeat split|auto].
  - constructor; [repeat split|auto].
  - constructor; [split; [reflexivity|assumption]|auto].
Qed.
Lemma follows_split l pre a post f : follows l (pre ++ a :: post) f ->
  exists l1 o l2 g, l = l1 ++ o :: l2 /\ Forall2 done l1 pre /\ begun o a /\ follows l2 post g.
Proof.
  remember (pre ++ a :: post) as tr eqn:E. intro H. revert pre E. induction H; intros pre E.
  1-2: destruct pre; discriminate.
  1-2, 6: (destruct pre as [|y pre]; [injection E as <- <-|injection E as _ E; destruct pre; discriminate];
    eexists [], _, l, Interrupted; repeat split; constructor).
  all: destruct pre as [|y pre]; cbn [app] in E; injection E as <- E.
  all: try (eexists [], _, l, f; subst; repeat split; try assumption; constructor; fail).
  all: destruct (IHfollows _ E) as (l1 & o & l2 & g & -> & H1 & H2); eexists (_ :: l1), o, l2, g; split; [reflexivity|]; split; [|exact H2];
    constructor; [repeat split; assumption|exact H1].
Qed.

(** ** The operations of an initialisation *)
Definition OpWrite (d : payload) : op := OpRequest SYS "osalNvWrite" d [0].
Definition is_coordinator : matcher := mk_matcher AREQ ZDO "stateChangeInd" [("state", VInt 9)].
Definition init_ops (v : Z) (o : options) : list op :=
  [OpRequest SYS "resetReq" [("type", VInt 1)] [0]; OpWrite (item_startup 2); OpRequest SYS "resetReq" [("type", VInt 1)] [0];
   OpWrite (item_logical 0); OpWrite (item_distribute (o_distribute o)); OpWrite item_direct_cb;
   OpWrite (item_channels (o_channels o)); OpWrite (item_pan (o_pan o)); OpWrite (item_ext (o_ext o))] ++
  (if stack3 v then
     [OpWrite (item_key (o_key o));
      OpRequest APP_CNF "bdbSetChannel" [("isPrimary", VInt 1); ("channel", VInt (o_channels o))] [0];
      OpRequest APP_CNF "bdbSetChannel" [("isPrimary", VInt 0); ("channel", VInt 0)] [0];
      OpListen is_coordinator 60000; OpRequest APP_CNF "bdbStartCommissioning" [("mode", VInt 4)] [0];
      OpAwait is_coordinator; OpRequest APP_CNF "bdbStartCommissioning" [("mode", VInt 2)] [0]]
   else [OpRequest SAPI "writeConfiguration" (item_key (o_key o)) [0]; OpWrite item_tc_link_key]) ++
  [OpRequest SYS "osalNvItemInit" (item_configured_init v) [0; 9]; OpWrite (item_configured v)].
Lemma initialise_plan v o : plan (initialise v o) (init_ops v o).
Proof.
  unfold initialise, init_ops, nv_write, soft_reset. cbn [app].
  do 9 (apply plan_then; intros _).
  apply (plan_seq _ _ (if stack3 v then _ else _)).
  - destruct (stack3 v).
    + do 3 (apply plan_then; intros _). apply plan_listen. apply plan_then; intros _.
      apply (plan_seq _ _ [_] [_]); [apply plan_await_started|intros _; apply plan_request].
    + apply plan_then; intros _. apply plan_request.
  - intros _. do 2 (apply plan_then; intros _). apply plan_ret.
Qed.
