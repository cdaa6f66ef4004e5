(** * StartProofs4: the course of a start; the marker; what is stored afterwards *)
From Coq Require Import ZifyBool ZifyNat.
From Verif Require Import Base Types Buffalo Zpi Api SpecCodec SpecMachine Nv StartZnp SpecStart StartProofs StartProofs2 StartProofs3.

Ltac apps := rewrite <- ?app_assoc; cbn [app]; rewrite ?app_nil_r; reflexivity.

(** a rewrite of the channel list at the end *)
Definition rewrite_channels (o : options) (a : act) : Prop := exists r, a = ARequest SYS "osalNvWrite" (item_channels (o_channels o)) [0] r.

(** the part after the configuration *)
Definition rest (o : options) (group : Z) (result : start_result) : prog start_result :=
  boot;;
  register_endpoints;;
  add_to_group 242 group;;
  (match result with
   | Restored => nv_write (item_channels (o_channels o));; DRet tt
   | _ => DRet tt
   end);;
  DRet result.
Lemma start_eq v o g b : start_znp v o g b =
  let! configured := has_configured v in let! result := configure v o b configured in rest o g result.
Proof. reflexivity. Qed.

Lemma rest_only o g r : only (fun a => harmless a \/ r = Restored /\ rewrite_channels o a) (rest o g r).
Proof.
  unfold rest.
  apply only_seq; [eapply only_weaken; [|exact boot_harmless]; auto|intros _].
  apply only_seq; [eapply only_weaken; [|exact register_harmless]; auto|intros _].
  apply only_seq; [eapply only_weaken; [|exact (group_harmless 242 g)]; auto|intros _].
  apply only_seq; [|intros _; apply only_ret].
  destruct r; try apply only_ret. apply only_seq; [|intros _; apply only_ret]. apply only_request. intro r. right. split; [reflexivity|].
  exists r. reflexivity.
Qed.
Lemma rest_result o g r tr r' : runs (rest o g r) tr (Returned r') -> r' = r.
Proof.
  unfold rest. intro H. do 4 (apply runs_seq_ret in H as (? & ? & ? & _ & _ & H)). apply runs_ret_inv in H as [_ [E|E]]; congruence.
Qed.

(** [t1] reads the configuration: the stick was found to be marked ([c]) and to need initialisation ([n]) *)
Definition reading (v : firmware) (o : options) (t1 : list act) (c n : bool) : Prop :=
  exists ta tb, t1 = ta ++ tb /\ runs (has_configured (version_of v)) ta (Returned c) /\ runs (needs_init (version_of v) o) tb (Returned n).
(** The course of a start: reading ([t1]), possibly an initialisation ([t2]), the rest ([t3]). *)
Inductive course (v : firmware) (o : options) (g : Z) : list act -> list act -> list act -> fin start_result -> Prop :=
| c_unread t1 f : Forall harmless t1 -> (forall r, f <> Returned r) -> course v o g t1 [] [] f
| c_resumed t1 t3 f c : Forall harmless t1 -> reading v o t1 c false -> runs (rest o g Resumed) t3 f -> course v o g t1 [] t3 f
| c_partial t1 t2 k f c : Forall harmless t1 -> reading v o t1 c true -> follows (init_ops (version_of v) o) t2 k ->
    (forall r, f <> Returned r) -> course v o g t1 t2 [] f
| c_init t1 t2 t3 r f c : Forall harmless t1 -> reading v o t1 c true -> follows (init_ops (version_of v) o) t2 (Returned tt) ->
    r = (if c then Reset else match v with Stack12 => Restored | _ => Reset end) ->
    runs (rest o g r) t3 f -> course v o g t1 t2 t3 f.

Lemma start_course v o g b tr f : runs (start_znp (version_of v) o g b) tr f ->
  exists t1 t2 t3, tr = t1 ++ t2 ++ t3 /\ course v o g t1 t2 t3 f.
Proof.
  rewrite start_eq. intro H.
  destruct (runs_seq _ _ _ _ H) as [(ta & t & c & -> & H1 & H2)|[[H1 ->]|(e & H1 & ->)]]; clear H.
  2-3: exists tr, [], []; rewrite !app_nil_r; split; [reflexivity|]; apply c_unread; [eapply has_configured_harmless, H1|discriminate].
  pose proof (has_configured_harmless _ _ _ H1) as Ha.
  destruct (runs_seq _ _ _ _ H2) as [(tb & t3 & r & -> & H3 & H4)|H3]; clear H2.
  - (* configured *)
    unfold configure in H3. destruct (b && negb c).
    { apply runs_raise_inv in H3 as [_ [E|E]]; discriminate. }
    apply runs_seq_ret in H3 as (t1 & t2 & n & -> & H5 & H6). pose proof (needs_init_harmless _ _ _ _ H5) as Hb. destruct n.
    + apply runs_seq_ret in H6 as (t2' & t4 & u & -> & H6 & H7). apply runs_ret_inv in H7 as [-> [E|E]]; [discriminate|]. injection E as E.
      exists (ta ++ t1), t2', t3. split; [apps|].
      eapply (c_init _ _ _ _ _ _ r _ c).
      * apply Forall_app. split; assumption.
      * exists ta, t1. split; [reflexivity|split; assumption].
      * apply (initialise_plan _ _ _ _ H6).
      * rewrite E. destruct v, c; reflexivity.
      * exact H4.
    + apply runs_ret_inv in H6 as [-> [E|E]]; [discriminate|]. injection E as E. subst r.
      exists (ta ++ t1), [], t3. split; [apps|].
      eapply c_resumed.
      * apply Forall_app. split; assumption.
      * exists ta, t1. split; [reflexivity|split; eassumption].
      * exact H4.
  - (* stopped while configuring *)
    assert (K : exists g, runs (configure (version_of v) o b c) t g /\ (forall r, g <> Returned r) /\ forall r, f <> Returned r).
    { destruct H3 as [[H3 ->]|(e & H3 & ->)]; eexists; (split; [exact H3|]); split; discriminate. }
    clear H3. destruct K as (h & H3 & Hh & Hf). unfold configure in H3. destruct (b && negb c).
    { apply runs_raise_inv in H3 as [-> _]. exists ta, [], []. split; [reflexivity|]. apply c_unread; assumption. }
    destruct (runs_seq _ _ _ _ H3) as [(t1 & t2 & n & -> & H5 & H6)|H5].
    + pose proof (needs_init_harmless _ _ _ _ H5) as Hb. destruct n.
      * destruct (runs_seq _ _ _ _ H6) as [(t2' & t4 & u & -> & H7 & H8)|H7].
        -- apply runs_ret_inv in H8 as [-> [E|E]].
           ++ exists (ta ++ t1), t2', []. split; [apps|].
              eapply c_partial; [apply Forall_app; split; assumption|exists ta, t1; split; [reflexivity|split; eassumption]|apply (initialise_plan _ _ _ _ H7)|exact Hf].
           ++ exfalso. eapply Hh, E.
        -- assert (K : exists g, runs (initialise (version_of v) o) t2 g) by (destruct H7 as [[H7 _]|(e & H7 & _)]; eexists; exact H7).
           destruct K as (k & K). exists (ta ++ t1), t2, []. split; [apps|].
           eapply c_partial; [apply Forall_app; split; assumption|exists ta, t1; split; [reflexivity|split; eassumption]|apply (initialise_plan _ _ _ _ K)|exact Hf].
      * apply runs_ret_inv in H6 as [-> [E|E]].
        -- exists (ta ++ t1), [], []. split; [apps|]. apply c_unread; [apply Forall_app; split; assumption|exact Hf].
        -- exfalso. eapply Hh, E.
    + assert (K : exists g, runs (needs_init (version_of v) o) t g) by (destruct H5 as [[H5 _]|(e & H5 & _)]; eexists; exact H5).
      destruct K as (k & K). exists (ta ++ t), [], []. split; [apps|].
      apply c_unread; [apply Forall_app; split; [exact Ha|eapply needs_init_harmless, K]|exact Hf].
Qed.

(** ** The marker *)
Definition op_storage (o : op) : storage := match o with OpRequest sub cmd d _ => storage_of sub cmd d | _ => NoStorage end.
Lemma begun_writes o a i b : begun o a -> writes a i b -> op_storage o = Writes i b.
Proof.
  destruct o, a; cbn [begun writes op_storage]; try contradiction. intros (-> & -> & -> & _) H. exact H.
Qed.
Lemma done_writes o a i b : done o a -> op_storage o = Writes i b -> acknowledged a /\ writes a i b.
Proof.
  destruct o, a as [? ? ? ? [[?|?]|]| |? [?|?]|]; cbn [done op_storage]; try contradiction; try discriminate.
  intros (-> & -> & -> & _) H. split; [exact I|exact H].
Qed.
Lemma done_begun o a : done o a -> begun o a.
Proof. destruct o, a as [? ? ? ? [[?|?]|]| |? [?|?]|]; cbn; tauto. Qed.
Lemma forall2_in {A B} (R : A -> B -> Prop) l l' x : Forall2 R l l' -> In x l -> exists y, In y l' /\ R x y.
Proof.
  intro H. induction H as [|a b l l' Hab H IH]; [contradiction|].
  intros [->|Hi]; [exists b; split; [left; reflexivity|exact Hab]|]. destruct (IH Hi) as (y & Hy & HR). exists y. split; [right; exact Hy|exact HR].
Qed.

Lemma forall2_in_r {A B} (R : A -> B -> Prop) l l' y : Forall2 R l l' -> In y l' -> exists x, In x l /\ R x y.
Proof.
  intro H. induction H as [|a b l l' Hab H IH]; [contradiction|].
  intros [->|Hi]; [exists a; split; [left; reflexivity|exact Hab]|]. destruct (IH Hi) as (x & Hx & HR). exists x. split; [right; exact Hx|exact HR].
Qed.

Definition before_mark (v : firmware) (o : options) : list op := removelast (init_ops (version_of v) o).
Lemma init_ops_last v o : init_ops (version_of v) o = before_mark v o ++ [OpWrite (item_configured (version_of v))].
Proof. destruct v; reflexivity. Qed.
Lemma mark_storage v : op_storage (OpWrite (item_configured (version_of v))) = Writes (marker v) set_mark.
Proof. destruct v; reflexivity. Qed.
Definition written (x : storage) : list (Z * list Z) := match x with Writes i b => [(i, b)] | _ => [] end.
Lemma before_mark_settings v o : wf_options o -> flat_map (fun q => written (op_storage q)) (before_mark v o) = settings v o.
Proof.
  intros (_ & _ & Hp & _ & _ & Hc). unfold settings. rewrite <- pan_bytes, <- channel_bytes, <- flag_eq by assumption.
  destruct v; reflexivity.
Qed.
Lemma before_mark_writes v o q i b : wf_options o -> In q (before_mark v o) -> op_storage q = Writes i b -> In (i, b) (settings v o).
Proof.
  intros Hwf Hq E. rewrite <- before_mark_settings by exact Hwf. apply in_flat_map. exists q. rewrite E. split; [exact Hq|left; reflexivity].
Qed.
Lemma settings_before_mark v o i b : wf_options o -> In (i, b) (settings v o) -> exists q, In q (before_mark v o) /\ op_storage q = Writes i b.
Proof.
  intros Hwf. rewrite <- before_mark_settings by exact Hwf. intro H. apply in_flat_map in H as (q & Hq & H). exists q. split; [exact Hq|].
  destruct (op_storage q); cbn [written In] in H; try contradiction. destruct H as [E|[]]. injection E as -> ->. reflexivity.
Qed.
Lemma marker_setting v o b : ~ In (marker v, b) (settings v o).
Proof. unfold settings. destruct v; cbn; intro H; repeat (destruct H as [E|H]; [discriminate E|]); contradiction. Qed.

Lemma last_split {A} (l : list A) x l1 y l2 : l ++ [x] = l1 ++ y :: l2 -> (l1 = l /\ y = x /\ l2 = []) \/ (In y l /\ incl l1 l).
Proof.
  revert l1. induction l as [|a l IH]; intros l1 E.
  - destruct l1 as [|b l1]; [injection E as <- <-; left; auto|]. destruct l1; discriminate.
  - destruct l1 as [|b l1]; cbn [app] in E; injection E as <- E.
    + right. split; [left; reflexivity|intros z []].
    + destruct (IH _ E) as [(-> & -> & ->)|[H1 H2]]; [left; auto|right]. split; [right; exact H1|].
      intros z [->|Hz]; [left; reflexivity|right; apply H2, Hz].
Qed.

Lemma follows_mark v o pre a post g b : wf_options o -> follows (init_ops (version_of v) o) (pre ++ a :: post) g -> writes a (marker v) b ->
  b = set_mark /\ post = [] /\ Forall2 done (before_mark v o) pre.
Proof.
  intros Hwf H Hw. apply follows_split in H as (l1 & q & l2 & k & E & Hd & Hb & Hf). pose proof (begun_writes _ _ _ _ Hb Hw) as Hst.
  rewrite init_ops_last in E. apply last_split in E as [(-> & -> & ->)|[Hq _]].
  - rewrite mark_storage in Hst. injection Hst as <-. split; [reflexivity|]. split; [|exact Hd]. inversion Hf; reflexivity.
  - exfalso. eapply marker_setting, before_mark_writes; eassumption.
Qed.
Lemma before_mark_done v o pre : wf_options o -> Forall2 done (before_mark v o) pre ->
  forall i b, In (i, b) (settings v o) -> exists w, In w pre /\ acknowledged w /\ writes w i b.
Proof.
  intros Hwf H i b Hi. destruct (settings_before_mark v o i b Hwf Hi) as (q & Hq & Hs).
  destruct (forall2_in _ _ _ _ H Hq) as (w & Hw & Hd). exists w. split; [exact Hw|]. eapply done_writes; eassumption.
Qed.
Lemma complete_initialised v o tr : wf_options o -> follows (init_ops (version_of v) o) tr (Returned tt) -> initialised v o tr.
Proof.
  intros Hwf H. apply follows_complete in H. rewrite init_ops_last in H. apply Forall2_app_inv_l in H as (pre & l & H1 & H2 & ->).
  inversion H2; subst. inversion H5; subst. exists pre, y, []. split; [reflexivity|].
  destruct (done_writes _ _ _ _ H3 (mark_storage v)) as [K1 K2]. split; [exact K1|]. split; [exact K2|]. apply before_mark_done; assumption.
Qed.
Lemma initialised_app v o t1 t2 t3 : initialised v o t2 -> initialised v o (t1 ++ t2 ++ t3).
Proof.
  intros (pre & a & post & -> & H1 & H2 & H3). exists (t1 ++ pre), a, (post ++ t3).
  split; [rewrite <- !app_assoc; reflexivity|]. split; [exact H1|]. split; [exact H2|].
  intros i b Hi. destruct (H3 i b Hi) as (w & Hw & Hr). exists w. split; [apply in_or_app; right; exact Hw|exact Hr].
Qed.

Lemma app_split {A} (pre : list A) a post x y : pre ++ a :: post = x ++ y ->
  (exists p, x = pre ++ a :: p /\ post = p ++ y) \/ (exists p, pre = x ++ p /\ y = p ++ a :: post).
Proof.
  revert pre. induction x as [|b x IH]; intros pre E; [right; exists pre; auto|].
  destruct pre as [|c pre]; cbn [app] in E; injection E as -> E; [left; exists x; auto|].
  destruct (IH _ E) as [(p & -> & ->)|(p & -> & ->)]; [left|right]; exists p; auto.
Qed.
Lemma harmless_writes a i b : harmless a -> ~ writes a i b.
Proof. destruct a; cbn [harmless writes]; try tauto; intros H E; rewrite E in H; exact H. Qed.
Lemma channels_storage z : 0 <= z < 4294967296 -> storage_of SYS "osalNvWrite" (item_channels z) = Writes 132 (le4 z).
Proof. intro H. rewrite <- channel_bytes by exact H. reflexivity. Qed.
Lemma rewrite_channels_writes v o a i b : wf_options o -> rewrite_channels o a -> writes a i b -> i = 132 /\ b = le4 (o_channels o) /\ i <> marker v.
Proof.
  intros (_ & _ & _ & _ & _ & Hc) (r & ->) H. cbn [writes] in H. rewrite channels_storage in H by exact Hc. injection H as <- <-.
  split; [reflexivity|]. split; [reflexivity|]. destruct v; discriminate.
Qed.

Lemma mark_last v o g b pre a post f bs : wf_options o -> runs (start_znp (version_of v) o g b) (pre ++ a :: post) f ->
  writes a (marker v) bs ->
  bs = set_mark /\
  (forall i bs, In (i, bs) (settings v o) -> exists w, In w pre /\ acknowledged w /\ writes w i bs) /\
  (forall w i bs, In w pre -> writes w i bs -> acknowledged w /\ In (i, bs) (settings v o)) /\
  (forall w, In w post -> harmless w \/ writes w 132 (le4 (o_channels o))).
Proof.
  intros Hwf H Hw. apply start_course in H as (t1 & t2 & t3 & E & HC).
  assert (K1 : Forall harmless t1) by (inversion HC; assumption).
  apply app_split in E as [(p & -> & _)|(p & -> & E)].
  { exfalso. rewrite Forall_app in K1. destruct K1 as [_ K1]. inversion K1; subst. eapply harmless_writes; eassumption. }
  symmetry in E. apply app_split in E as [(p2 & -> & ->)|(p2 & -> & ->)].
  - assert (K2 : exists k, follows (init_ops (version_of v) o) (p ++ a :: p2) k).
    { inversion HC; subst; try (destruct p; discriminate); eexists; eassumption. }
    destruct K2 as (k & K2). destruct (follows_mark _ _ _ _ _ _ _ Hwf K2 Hw) as (-> & -> & Hd). split; [reflexivity|].
    split; [|split].
    + intros i bs Hi. destruct (before_mark_done v o p Hwf Hd i bs Hi) as (w & Hin & Hr). exists w. split; [apply in_or_app; right; exact Hin|exact Hr].
    + intros w i bs Hin Hww. apply in_app_or in Hin as [Hin|Hin].
      * exfalso. rewrite Forall_forall in K1. eapply harmless_writes; [apply K1, Hin|exact Hww].
      * destruct (forall2_in_r _ _ _ w Hd Hin) as (q & Hq & Hdq).
        pose proof (begun_writes _ _ _ _ (done_begun _ _ Hdq) Hww) as Hst. split; [apply (done_writes _ _ _ _ Hdq Hst)|].
        eapply before_mark_writes; eassumption.
    + cbn [app]. intros w Hin. inversion HC; subst; try contradiction.
      all: try (destruct p; discriminate).
      match goal with K : runs (rest _ _ _) t3 _ |- _ => apply rest_only in K; rewrite Forall_forall in K; destruct (K w Hin) as [Hh|[_ (r0 & ->)]] end; [left; exact Hh|right].
      cbn [writes]. destruct Hwf as (_ & _ & _ & _ & _ & Hc). apply channels_storage, Hc.
  - exfalso. assert (K3 : exists r, runs (rest o g r) (p2 ++ a :: post) f).
    { inversion HC; subst; try (destruct p2; discriminate); eexists; eassumption. }
    destruct K3 as (r & K3). apply rest_only in K3. rewrite Forall_app in K3. destruct K3 as [_ K3]. inversion K3; subst.
    destruct H1 as [C|[_ C]]; [eapply harmless_writes; eassumption|].
    destruct (rewrite_channels_writes v o a _ _ Hwf C Hw) as (_ & _ & N). contradiction.
Qed.
