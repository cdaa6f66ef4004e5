(** * StartProofs10: the order of the changes that a start makes *)
From Coq Require Import ZifyBool ZifyNat.
From Verif Require Import Base Types Buffalo Zpi Api SpecCodec SpecMachine Nv StartZnp SpecStart StartProofs StartProofs2 StartProofs3 StartProofs4.

Definition op_change (q : op) : list storage := match op_storage q with Reads _ | NoStorage => [] | c => [c] end.
Lemma init_script v o : wf_options o -> flat_map op_change (init_ops (version_of v) o) = script v o.
Proof.
  intros (_ & _ & Hp & _ & _ & Hc). unfold script, settings. rewrite <- pan_bytes, <- channel_bytes, <- flag_eq by assumption.
  destruct v; reflexivity.
Qed.
Lemma changes_app t1 t2 : changes (t1 ++ t2) = changes t1 ++ changes t2.
Proof. apply flat_map_app. Qed.
Lemma harmless_changes tr : Forall harmless tr -> changes tr = [].
Proof.
  intro H. induction H as [|a tr Ha H IH]; [reflexivity|]. cbn [changes flat_map]. change (flat_map change_of tr) with (changes tr). rewrite IH, app_nil_r.
  destruct a; try reflexivity; cbn [harmless change_of] in *; destruct (storage_of sub cmd d); try reflexivity; contradiction.
Qed.
Lemma follows_changes l tr f : follows l tr f ->
  exists l1 l2, l = l1 ++ l2 /\ changes tr = flat_map op_change l1 /\ in_turn tr /\
    (f = Returned tt -> l2 = [] /\ forall a, In a tr -> change_of a <> [] -> acknowledged a).
Proof.
  assert (N : forall t, in_turn t -> forall a, (change_of a = [] \/ acknowledged a) -> in_turn (a :: t)).
  { intros t Ht a Ha pre b post E Hb Hp. destruct pre as [|c pre]; cbn [app] in E; injection E as -> E.
    - destruct Ha as [Ha|Ha]; [contradiction|exact Ha].
    - eapply Ht; eassumption. }
  assert (N0 : in_turn []) by (intros pre a post E; destruct pre; discriminate).
  assert (N1 : forall a, in_turn [a]).
  { intros a pre b post E _ Hp. destruct pre as [|c [|c2 pre]]; cbn [app] in E; try discriminate. injection E as <- <-. contradiction. }
  assert (C : forall sub cmd d x r, change_of (ARequest sub cmd d x r) = op_change (OpRequest sub cmd d x)) by (intros; reflexivity).
  intro H. induction H as [l| |sub cmd d x l|sub cmd d x l e f Hf|sub cmd d x l m tr f Ha H IH|m t l tr f H IH|m r l tr f Hi H IH|m e l f Hf].
  - exists [], l. repeat split; try assumption; discriminate.
  - exists [], []. repeat split; auto. intros a [].
  - exists [OpRequest sub cmd d x], l. split; [reflexivity|]. split; [cbn [changes flat_map]; rewrite C; reflexivity|]. split; [apply N1|discriminate].
  - exists [OpRequest sub cmd d x], l. split; [reflexivity|]. split; [cbn [changes flat_map]; rewrite C; reflexivity|]. split; [apply N1|contradiction].
  - destruct IH as (l1 & l2 & -> & E & T & R). exists (OpRequest sub cmd d x :: l1), l2. split; [reflexivity|].
    split; [cbn [changes flat_map]; rewrite C; fold (changes tr); rewrite E; reflexivity|].
    split; [apply N; [exact T|right; exact I]|]. intro Ef. destruct (R Ef) as [R1 R2]. split; [exact R1|].
    intros a [<-|Hin] Hc; [exact I|apply R2; assumption].
  - destruct IH as (l1 & l2 & -> & E & T & R). exists (OpListen m t :: l1), l2. split; [reflexivity|].
    split; [exact E|]. split; [apply N; [exact T|left; reflexivity]|]. intro Ef. destruct (R Ef) as [R1 R2]. split; [exact R1|].
    intros a [<-|Hin] Hc; [contradiction|apply R2; assumption].
  - destruct IH as (l1 & l2 & -> & E & T & R). exists (OpAwait m :: l1), l2. split; [reflexivity|].
    split; [exact E|]. split; [apply N; [exact T|left; reflexivity]|]. intro Ef. destruct (R Ef) as [R1 R2]. split; [exact R1|].
    intros a [<-|Hin] Hc; [contradiction|apply R2; assumption].
  - exists [], (OpAwait m :: l). split; [reflexivity|]. split; [reflexivity|]. split; [apply N1|contradiction].
Qed.

Lemma request_changes sub cmd d x tr f : runs (request sub cmd d x) tr f ->
  tr = [] /\ f = Interrupted \/ (exists r, tr = [ARequest sub cmd d x r]) .
Proof.
  intro H. unfold request in H. inversion H; subst; [left; auto|right; eexists; reflexivity|].
  match goal with R : runs _ _ _ |- _ => apply runs_of_result in R as [-> _] end. right. eexists. reflexivity.
Qed.
(** the rest changes at most the channel list, with its last act *)
Lemma rest_changes o g r t f : wf_options o -> runs (rest o g r) t f ->
  (changes t = [] /\ (forall r', f = Returned r' -> r <> Restored)) \/
  (r = Restored /\ exists pre a, t = pre ++ [a] /\ changes pre = [] /\ change_of a = [Writes 132 (le4 (o_channels o))]).
Proof.
  intros Hwf H.
  assert (Hc : 0 <= o_channels o < 4294967296) by (destruct Hwf as (_ & _ & _ & _ & _ & Hc); exact Hc).
  assert (S : forall {A B} (p : prog A) (k : A -> prog B) t f, only harmless p -> runs (seq p k) t f ->
     (changes t = [] /\ forall b, f <> Returned b) \/ exists t1 t2 a, t = t1 ++ t2 /\ changes t1 = [] /\ runs (k a) t2 f).
  { intros A B p k t0 f0 O R. destruct (runs_seq _ _ _ _ R) as [(t1 & t2 & a & -> & H1 & H2)|[[H1 ->]|(e & H1 & ->)]].
    - right. exists t1, t2, a. split; [reflexivity|]. split; [apply harmless_changes, (O _ _ H1)|exact H2].
    - left. split; [apply harmless_changes, (O _ _ H1)|discriminate].
    - left. split; [apply harmless_changes, (O _ _ H1)|discriminate]. }
  unfold rest in H.
  apply S in H as [[E N]|(t1 & t2 & u & -> & E1 & H)]; [left; split; [exact E|intros r' ->; exfalso; eapply N; reflexivity]| |exact boot_harmless].
  apply S in H as [[E N]|(t3 & t4 & u2 & -> & E2 & H)]; [left; split; [rewrite changes_app, E1, E; reflexivity|intros r' ->; exfalso; eapply N; reflexivity]| |exact register_harmless].
  apply S in H as [[E N]|(t5 & t6 & u3 & -> & E3 & H)]; [left; split; [rewrite !changes_app, E1, E2, E; reflexivity|intros r' ->; exfalso; eapply N; reflexivity]| |exact (group_harmless 242 g)].
  assert (K : forall t, (changes t = [] /\ (forall r', f = Returned r' -> r <> Restored)) \/
    (r = Restored /\ exists pre a, t = pre ++ [a] /\ changes pre = [] /\ change_of a = [Writes 132 (le4 (o_channels o))]) ->
    (changes (t1 ++ t3 ++ t5 ++ t) = [] /\ (forall r', f = Returned r' -> r <> Restored)) \/
    (r = Restored /\ exists pre a, t1 ++ t3 ++ t5 ++ t = pre ++ [a] /\ changes pre = [] /\ change_of a = [Writes 132 (le4 (o_channels o))])).
  { intros t [[E N]|(E & pre & a & -> & E4 & E5)].
    - left. rewrite !changes_app, E1, E2, E3, E. split; [reflexivity|exact N].
    - right. split; [exact E|]. exists (t1 ++ t3 ++ t5 ++ pre), a. split; [rewrite <- !app_assoc; reflexivity|]. split; [|exact E5].
      rewrite !changes_app, E1, E2, E3, E4. reflexivity. }
  apply K. clear K. destruct r.
  1, 3: left; split; [|intros; discriminate]; apply S in H as [[E _]|(a1 & a2 & u4 & -> & E4 & H)]; [exact E| |apply only_ret];
    apply runs_ret_inv in H as [-> _]; rewrite changes_app, E4; reflexivity.
  assert (Q : t6 = [] /\ f = Interrupted \/ exists r, t6 = [ARequest SYS "osalNvWrite" (item_channels (o_channels o)) [0] r]).
  { assert (W : forall t h, runs (nv_write (item_channels (o_channels o));; DRet tt) t h ->
      t = [] /\ h = Interrupted \/ exists r, t = [ARequest SYS "osalNvWrite" (item_channels (o_channels o)) [0] r]).
    { intros t h R. destruct (runs_seq _ _ _ _ R) as [(a1 & a2 & u4 & -> & H1 & H2)|[[H1 ->]|(e & H1 & ->)]].
      - apply runs_ret_inv in H2 as [-> _]. rewrite app_nil_r. apply request_changes in H1 as [[_ H1]|H1]; [discriminate|right; exact H1].
      - apply request_changes in H1 as [[-> _]|H1]; [left; auto|right; exact H1].
      - apply request_changes in H1 as [[_ H1]|H1]; [discriminate|right; exact H1]. }
    destruct (runs_seq _ _ _ _ H) as [(a1 & a2 & u4 & -> & H1 & H2)|[[H1 ->]|(e & H1 & ->)]].
    - apply runs_ret_inv in H2 as [-> _]. rewrite app_nil_r. apply W in H1 as [[_ H1]|H1]; [discriminate|right; exact H1].
    - apply W in H1 as [[-> _]|H1]; [left; auto|right; exact H1].
    - apply W in H1 as [[_ H1]|H1]; [discriminate|right; exact H1]. }
  destruct Q as [[-> ->]|(r & ->)]; [left; split; [reflexivity|discriminate]|].
  right. split; [reflexivity|]. exists [], (ARequest SYS "osalNvWrite" (item_channels (o_channels o)) [0] r). split; [reflexivity|]. split; [reflexivity|].
  cbn [change_of]. rewrite channels_storage by exact Hc. reflexivity.
Qed.

Lemma start_changes v o g b tr f : wf_options o -> runs (start_znp (version_of v) o g b) tr f ->
  (exists done todo more, script v o = done ++ todo /\ changes tr = done ++ more /\
     (more = [] \/ todo = [] /\ more = [Writes 132 (le4 (o_channels o))])) /\
  in_turn tr /\
  (forall r, f = Returned r -> changes tr = whole v o r).
Proof.
  intros Hwf H. apply start_course in H as (t1 & t2 & t3 & -> & HC). rewrite !changes_app.
  assert (T : forall t l, Forall harmless t -> in_turn l -> in_turn (t ++ l)).
  { intros t l Ht Hl. induction Ht as [|a t Ha Ht IH]; [exact Hl|]. intros pre x post E Hx Hp. destruct pre as [|y pre]; cbn [app] in E; injection E as -> E.
    - exfalso. apply Hx. pose proof (harmless_changes [x] (Forall_cons _ Ha (Forall_nil _))) as K. cbn [changes flat_map] in K. rewrite app_nil_r in K. exact K.
    - eapply IH; eassumption. }
  assert (N0 : in_turn []) by (intros pre a post E; destruct pre; discriminate).
  inversion HC as [? ? Hh Hf|? ? ? c Hh Hr H3|? ? k ? c Hh Hr H2 Hf|? ? ? r ? c Hh Hr H2 Er H3]; subst; rewrite (harmless_changes _ Hh); cbn [app].
  - split; [exists [], (script v o), []; auto|]. split; [apply T; assumption|]. intros r E. exfalso. eapply Hf, E.
  - destruct (rest_changes _ _ _ _ _ Hwf H3) as [[E _]|(E & _)]; [|discriminate E]. rewrite E.
    split; [exists [], (script v o), []; auto|]. split.
    + apply T; [exact Hh|]. intros pre a post Et Ha. exfalso. rewrite Et, changes_app in E. apply app_eq_nil in E as [_ E]. cbn [changes flat_map] in E.
      apply app_eq_nil in E as [E _]. contradiction.
    + intros r ->. apply rest_result in H3. subst r. reflexivity.
  - destruct (follows_changes _ _ _ H2) as (l1 & l2 & El & E & Ht & _). rewrite app_nil_r.
    split; [|split].
    + exists (flat_map op_change l1), (flat_map op_change l2), []. rewrite <- flat_map_app, <- El, init_script, E, app_nil_r by exact Hwf. auto.
    + rewrite app_nil_r. apply T; assumption.
    + intros r E2. exfalso. eapply Hf, E2.
  - destruct (follows_changes _ _ _ H2) as (l1 & l2 & El & E & Ht & R). destruct (R eq_refl) as [-> R2]. rewrite app_nil_r in El. subst l1.
    rewrite init_script in E by exact Hwf. rewrite E.
    set (r := if c then Reset else match v with Stack12 => Restored | _ => Reset end) in *.
    assert (I2 : in_turn (t2 ++ t3) -> in_turn (t1 ++ t2 ++ t3)) by (apply T; exact Hh).
    assert (I3 : (forall pre a post, t3 = pre ++ a :: post -> change_of a <> [] -> changes post <> [] -> acknowledged a) -> in_turn (t2 ++ t3)).
    { intros Q pre a post Et Ha Hp. symmetry in Et. apply app_split in Et as [(p & -> & ->)|(p & -> & ->)].
      - apply R2; [apply in_or_app; right; left; reflexivity|exact Ha].
      - eapply Q; eauto. }
    destruct (rest_changes _ _ _ _ _ Hwf H3) as [[E3 N3]|(E3 & pre & a & -> & Ep & Ea)].
    + rewrite E3. split; [exists (script v o), [], []; rewrite !app_nil_r; auto|]. split.
      * apply I2, I3. intros pre a post -> Ha. exfalso. rewrite changes_app in E3. apply app_eq_nil in E3 as [_ E3]. cbn [changes flat_map] in E3.
        apply app_eq_nil in E3 as [E3 _]. contradiction.
      * intros r' ->. specialize (N3 _ eq_refl). apply rest_result in H3. subst r'. rewrite app_nil_r. unfold r in *.
        destruct c; [reflexivity|]. destruct v; [contradiction|reflexivity|reflexivity].
    + assert (E4 : changes (pre ++ [a]) = [Writes 132 (le4 (o_channels o))]) by (rewrite changes_app, Ep; cbn [changes flat_map app]; rewrite Ea; reflexivity).
      rewrite E4. split; [exists (script v o), [], [Writes 132 (le4 (o_channels o))]; rewrite app_nil_r; auto|]. split.
      * apply I2, I3. intros p x q Et Hx Hq. exfalso. symmetry in Et. apply app_split in Et as [(p' & -> & ->)|(p' & -> & E5)].
        -- rewrite changes_app in Ep. apply app_eq_nil in Ep as [_ Ep]. cbn [changes flat_map] in Ep. apply app_eq_nil in Ep as [Ep _]. contradiction.
        -- destruct p' as [|y p']; [injection E5 as <- <-; contradiction|]. injection E5 as _ E5. destruct p'; discriminate.
      * intros r' ->. apply rest_result in H3. subst r'. rewrite E3. reflexivity.
Qed.
