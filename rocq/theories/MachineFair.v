(** * MachineFair: who waits for the link waits only for those ahead.  A measure that no later call can raise. *)
From Coq Require Import ZifyBool ZifyNat.
From Verif Require Import Base Types Uart Buffalo CmdTable Zpi Api App Machine Life World SpecMachine SpecTrace SpecProgress
  MachineBase MachineInv MachineInv2 MachineInv3 MachineInv4 MachineInv5 DispatchProofs MachineProofs MachineProofs2 MachineProofs4 MachineProofs11 MachineProofs12 MachineProgress MachineProgress2
  WorldInv WorldProgress.

(** ** those ahead in the queue *)
Fixpoint ahead (t : Z) (q : list Z) : list Z := match q with [] => [] | h :: r => if h =? t then [] else h :: ahead t r end.
Lemma ahead_snoc t q u : In t q -> ahead t (q ++ [u]) = ahead t q.
Proof.
  induction q as [|h q IH]; [intros []|]. cbn [app ahead In]. destruct (Z.eqb_spec h t) as [->|N]; [reflexivity|]. intros [E|H]; [contradiction|]. rewrite IH by exact H. reflexivity.
Qed.
Lemma ahead_split t q : In t q -> exists r, q = ahead t q ++ t :: r.
Proof.
  induction q as [|h q IH]; [intros []|]. cbn [ahead In]. destruct (Z.eqb_spec h t) as [->|N]; [exists q; reflexivity|]. intros [E|H]; [contradiction|].
  destruct (IH H) as (r & E). exists r. cbn [app]. congruence.
Qed.
Lemma ahead_app t a r : ~ In t a -> ahead t (a ++ t :: r) = a.
Proof.
  induction a as [|h a IH]; cbn [app ahead In]; intro H; [rewrite Z.eqb_refl; reflexivity|]. destruct (Z.eqb_spec h t) as [->|N]; [exfalso; tauto|]. rewrite IH by tauto. reflexivity.
Qed.
Lemma ahead_length t q : In t q -> (length (ahead t q) < length q)%nat.
Proof. intro H. destruct (ahead_split t q H) as (r & E). rewrite E at 2. rewrite app_length. cbn [length]. lia. Qed.
Lemma ahead_drop t u q : u <> t -> In t q ->
  (length (ahead t (filter (fun x => negb (x =? u)%Z) q)) < length (ahead t q))%nat \/ ahead t (filter (fun x => negb (x =? u)) q) = ahead t q.
Proof.
  intro N. induction q as [|h q IH]; [intros []|]. cbn [filter ahead In]. destruct (Z.eqb_spec h t) as [->|Nh].
  - intros _. right. destruct (Z.eqb_spec t u) as [->|_]; [contradiction|]. cbn [negb ahead]. rewrite Z.eqb_refl. reflexivity.
  - intros [E|H]; [contradiction|]. specialize (IH H). destruct (Z.eqb_spec h u) as [->|Nu]; cbn [negb].
    + left. cbn [length]. destruct IH as [L| ->]; lia.
    + cbn [ahead]. rewrite (proj2 (Z.eqb_neq h t) Nh). cbn [length]. destruct IH as [L| ->]; [left; lia|right; reflexivity].
Qed.

Definition held (s : st) : Z := match s_lock s with Some _ => 1 | None => 0 end.
Definition line (s : st) (t : Z) : Z := 2 * Z.of_nat (length (ahead t (s_queue s))) + held s.
Definition in_line (s : st) (t : Z) : Prop := exists k, get s t = Some k /\ t_phase k = PLock.

(** ** small steps *)
Inductive fprim : st -> st -> Prop := F_prim s s' : prim s s' -> fprim s s' | F_xprim s s' : xprim s s' -> fprim s s'.
Inductive fprims : st -> st -> Prop := fprims_nil s : fprims s s | fprims_cons s1 s2 s3 : fprim s1 s2 -> fprims s2 s3 -> fprims s1 s3.
Lemma fprims_prims s s' : prims s s' -> fprims s s'.
Proof. induction 1; [constructor|econstructor; [apply F_prim|]; eassumption]. Qed.
Lemma fprims_xprims s s' : xprims s s' -> fprims s s'.
Proof. induction 1; [constructor|econstructor; [apply F_xprim|]; eassumption]. Qed.
Lemma fprims_app a b c : fprims a b -> fprims b c -> fprims a c.
Proof. induction 1; [auto|]. intro. econstructor; eauto. Qed.

Definition Sound (s : st) : Prop := Tids s /\ Lock s /\ Queue s.
Lemma sound_prim s s' : prim s s' -> Sound s -> Sound s'.
Proof. intros H (A & B & C). split; [eapply tids_prim; eassumption|]. split; [eapply lock_prim; eassumption|]. eapply queue_prim; eassumption. Qed.
Lemma sound_x s s' : xprim s s' -> Sound s -> Sound s'.
Proof. intros H (A & B & C). split; [eapply tids_x; eassumption|]. split; [eapply lock_x; eassumption|]. eapply queue_x; eassumption. Qed.
Lemma sound_f s s' : fprim s s' -> Sound s -> Sound s'.
Proof. intros [x y H|x y H]; [apply sound_prim, H|apply sound_x, H]. Qed.

(** every coroutine stays where it is or comes nearer to its end *)
Definition nearer (k k' : task) : Prop := weight (t_phase k') < weight (t_phase k) \/ k' = k.
Lemma nearer_prim s s' t k : prim s s' -> Sound s -> get s t = Some k -> exists k', get s' t = Some k' /\ nearer k k'.
Proof.
  intros H S G. unfold nearer.
  assert (Id : forall x, Some k = x -> exists k', x = Some k' /\ (weight (t_phase k') < weight (t_phase k) \/ k' = k)) by (intros x <-; eauto).
  start_prim H;
    try (apply Id; symmetry; exact G; fail);
    try (rewrite assoc_snoc, G; apply Id; reflexivity);
    match goal with Hg : assoc ?u _ = Some ?ku |- _ => rewrite (assoc_put _ u _ ku _ Hg) end;
    match goal with |- context [if ?b then _ else _] => destruct b eqn:E end; try (apply Id; symmetry; exact G; fail);
    (eexists; split; [reflexivity|]); left; apply Z.eqb_eq in E; subst;
    match goal with Hg : assoc ?u _ = Some ?ku, Hp : t_phase ?ku = _ |- _ => assert (k = ku) by congruence; subst k; rewrite Hp end; cbn [t_phase weight]; lia.
Qed.
Lemma nearer_f s s' t k : fprim s s' -> Sound s -> get s t = Some k -> exists k', get s' t = Some k' /\ nearer k k'.
Proof.
  intros F S G; destruct F as [s s' H|s s' H]; [eapply nearer_prim; eassumption|]. start_x H; [eapply nearer_prim; eassumption|..]; exists k; (split; [|right; reflexivity]);
    unfold called; opn; try exact G; unfold get in G; rewrite assoc_snoc, G; reflexivity.
Qed.
(** in the queue one comes nearer or those ahead and the holder are the same *)
Lemma line_prim s s' t : prim s s' -> Sound s -> in_line s t -> in_line s' t ->
  line s' t < line s t \/ ahead t (s_queue s') = ahead t (s_queue s) /\ s_lock s' = s_lock s.
Proof.
  intros H (_ & (L1 & L2) & (Nd & Q1 & Q2)) (k & G & P) (k' & G' & P').
  assert (Hin : In t (s_queue s)) by (eapply Q2; [exact G|rewrite P; reflexivity]).
  assert (Hh : forall u ku, get s u = Some ku -> holds (t_phase ku) = true -> s_lock s = Some u) by exact L2.
  revert G'. unfold line, held. clear L1 L2 Q1 Q2.
  start_prim H; intro G'; try (right; split; reflexivity);
    try (match goal with Hg : assoc ?u _ = Some ?ku, Hp : t_phase ?ku = _ |- _ => rewrite (Hh u ku Hg) by (rewrite Hp; reflexivity) end; left; lia).
  - right. split; [|reflexivity]. apply ahead_snoc, Hin.
  - exfalso. rewrite H2 in Hin. exact Hin.
  - rewrite (assoc_put _ _ _ _ _ H) in G'. destruct (Z.eqb_spec t0 t) as [->|N]; [injection G' as <-; discriminate P'|].
    left. rewrite H1, H2. cbn [ahead]. rewrite (proj2 (Z.eqb_neq t0 t) N). cbn [length]. lia.
  - rewrite (assoc_put _ _ _ _ _ H) in G'. destruct (Z.eqb_spec t0 t) as [->|N]; [injection G' as <-; discriminate P'|].
    destruct (ahead_drop t t0 (s_queue s) N Hin) as [L| ->]; [left; lia|right; split; reflexivity].
Qed.
Lemma line_f s s' t : fprim s s' -> Sound s -> in_line s t -> in_line s' t ->
  line s' t < line s t \/ ahead t (s_queue s') = ahead t (s_queue s) /\ s_lock s' = s_lock s.
Proof.
  intros F S A B; destruct F as [s s' H|s s' H]; [eapply line_prim; eassumption|]. start_x H; [eapply line_prim; eassumption|..]; right; unfold called; opn; split; reflexivity.
Qed.

(** ** many small steps *)
Lemma sound_fs s s' : fprims s s' -> Sound s -> Sound s'.
Proof. induction 1; [auto|]. intro. eauto using sound_f. Qed.
Lemma nearer_trans a b c : nearer a b -> nearer b c -> nearer a c.
Proof. intros [A| ->] [B| ->]; unfold nearer; auto; lia. Qed.
Lemma nearer_fs s s' t k : fprims s s' -> Sound s -> get s t = Some k -> exists k', get s' t = Some k' /\ nearer k k'.
Proof.
  intro H. revert k. induction H as [s|s1 s2 s3 H Hs IH]; intros k S G; [exists k; split; [exact G|right; reflexivity]|].
  destruct (nearer_f _ _ _ _ H S G) as (k1 & G1 & N1). destruct (IH k1 (sound_f _ _ H S) G1) as (k2 & G2 & N2). exists k2. split; [exact G2|eapply nearer_trans; eassumption].
Qed.
Lemma nearer_same k k' : nearer k k' -> weight (t_phase k') = weight (t_phase k) -> k' = k.
Proof. intros [L|E] W; [lia|exact E]. Qed.
Lemma line_fs s s' t : fprims s s' -> Sound s -> in_line s t -> in_line s' t ->
  line s' t < line s t \/ ahead t (s_queue s') = ahead t (s_queue s) /\ s_lock s' = s_lock s.
Proof.
  induction 1 as [s|s1 s2 s3 H Hs IH]; intros S A B; [right; split; reflexivity|].
  pose proof (sound_f _ _ H S) as S2.
  assert (M : in_line s2 t).
  { destruct A as (k & G & P). destruct B as (k3 & G3 & P3). destruct (nearer_f _ _ _ _ H S G) as (k2 & G2 & N2). destruct (nearer_fs _ _ _ _ Hs S2 G2) as (k3' & G3' & N3).
    assert (k3' = k3) by congruence. subst k3'. exists k2. split; [exact G2|]. assert (k2 = k); [|congruence]. apply nearer_same; [exact N2|].
    destruct N2 as [L2|E2]; [|congruence]. destruct N3 as [L3|E3]; rewrite ?P, ?P3 in *; [lia|subst k3; rewrite P3 in L2; lia]. }
  destruct (line_f _ _ t H S A M) as [L|[E1 E2]]; destruct (IH S2 M B) as [L'|[E1' E2']]; try (left; lia).
  - left. unfold line, held in *. rewrite E1', E2'. exact L.
  - left. unfold line, held in *. rewrite <- E1, <- E2. exact L'.
  - right. split; congruence.
Qed.

(** ** how many rounds it takes, at most *)
Definition late (p : phase) : Prop := match p with PStart | PSem | PAdm => False | _ => True end.
Definition rounds (s : st) (t : Z) (k : task) : Z := match t_phase k with PLock => 3 + line s t | p => weight p end.
Lemma line_nonneg s t : 0 <= line s t.
Proof. unfold line, held. destruct (s_lock s); lia. Qed.
Lemma late_weight p : late p -> weight p <= 4 /\ (weight p = 4 -> p = PLock).
Proof. destruct p; cbn; intro; split; try lia; try reflexivity; try contradiction. Qed.
Lemma late_nearer k k' : late (t_phase k) -> nearer k k' -> late (t_phase k').
Proof. intros L [W| ->]; [|exact L]. apply late_weight in L as [L _]. destruct (t_phase k'); cbn [weight late] in *; try exact I; lia. Qed.
Lemma rounds_fs s s' t k : fprims s s' -> Sound s -> get s t = Some k -> late (t_phase k) ->
  exists k', get s' t = Some k' /\ nearer k k' /\ late (t_phase k') /\
    (rounds s' t k' < rounds s t k \/ rounds s' t k' = rounds s t k /\
      (t_phase k' = PLock -> k' = k /\ ahead t (s_queue s') = ahead t (s_queue s) /\ s_lock s' = s_lock s) /\ (t_phase k <> PLock -> k' = k)).
Proof.
  intros H S G L. destruct (nearer_fs _ _ _ _ H S G) as (k' & G' & N). exists k'. split; [exact G'|]. split; [exact N|]. pose proof (late_nearer _ _ L N) as L'. split; [exact L'|].
  assert (Dec : forall p, p = PLock \/ p <> PLock) by (intros []; auto; right; discriminate).
  destruct (Dec (t_phase k)) as [P|P]; destruct (Dec (t_phase k')) as [P'|P'].
  - assert (E : k' = k) by (apply nearer_same; [exact N|congruence]). subst k'.
    unfold rounds. rewrite P. destruct (line_fs s s' t H S) as [W|[E1 E2]]; [exists k; auto|exists k; auto|left; lia|right]. unfold line, held. rewrite E1, E2. repeat split; auto.
  - assert (W : weight (t_phase k') <= 3).
    { destruct (late_weight _ L') as [W1 W2]. destruct (Z.eq_dec (weight (t_phase k')) 4) as [E|E]; [exfalso; apply P', W2, E|lia]. }
    pose proof (line_nonneg s t). unfold rounds. rewrite P. destruct (t_phase k'); try contradiction; 
      match goal with |- ?a < ?b \/ _ => destruct (Z.eq_dec a b); [right; repeat split; auto; try discriminate; congruence|left; cbn [weight] in *; lia] end.
  - exfalso. destruct N as [W|E]; [|congruence]. rewrite P' in W. cbn [weight] in W. apply late_weight in L as [L _]. lia.
  - destruct N as [W| ->]; [left; unfold rounds; destruct (t_phase k); destruct (t_phase k'); try contradiction; exact W|].
    right. unfold rounds. destruct (t_phase k); try contradiction; repeat split; auto; congruence.
Qed.

(** ** between events *)
Definition objects (s : st) : Prop := forall t k, get s t = Some k -> match t_phase k with PSem | PLock | PWait _ _ => exists o, t_obj k = Some o | _ => True end.
Definition uncancelled (s : st) : Prop := forall t k, get s t = Some k -> match t_phase k with PWait i _ | PAwait i _ => s_futs s i <> FCancelled | _ => True end.
Record Fit (s : st) : Prop := mk_Fit { Fit_sound : Sound s; Fit_rest : At_rest s; Fit_due : Due s; Fit_objects : objects s; Fit_waits : uncancelled s; Fit_num : Numbered s }.

(** who has to go on first for [t] to come nearer *)
Definition keyed (s : st) (t : Z) (k : task) (u : Z) : Prop :=
  match t_phase k with
  | PLock => match s_lock s with Some h => h = u | None => exists q, s_queue s = u :: q end
  | PDone _ => False
  | _ => t = u
  end.
Lemma keyed_exists s t k : Fit s -> get s t = Some k -> late (t_phase k) -> ended (t_phase k) = false -> exists u ku, keyed s t k u /\ get s u = Some ku /\ ended (t_phase ku) = false.
Proof.
  intros F G L E. destruct (Fit_sound s F) as (_ & (L1 & _) & (_ & Q1 & Q2)). unfold keyed.
  destruct (t_phase k) eqn:P; try discriminate E; try contradiction; try (exists t, k; rewrite P; auto; fail).
  destruct (s_lock s) as [h|].
  - destruct (L1 h eq_refl) as (kh & Gh & Hh). exists h, kh. split; [reflexivity|]. split; [exact Gh|]. destruct (t_phase kh); try discriminate Hh; reflexivity.
  - assert (Hin : In t (s_queue s)) by (eapply Q2; [exact G|rewrite P; reflexivity]). destruct (s_queue s) as [|h q]; [destruct Hin|].
    destruct (Q1 h (or_introl eq_refl)) as (kh & Gh & Hh). exists h, kh. split; [eauto|]. split; [exact Gh|]. destruct (t_phase kh); try discriminate Hh; reflexivity.
Qed.
Lemma rest_holder s h : Fit s -> s_lock s = Some h -> exists k i d, get s h = Some k /\ t_phase k = PWait i d.
Proof.
  intros F E. destruct (Fit_sound s F) as (_ & (L1 & _) & _). destruct (L1 h E) as (k & G & H). pose proof (Fit_rest s F h k G) as R. exists k.
  destruct (t_phase k) eqn:P; try discriminate H; try discriminate R. eauto.
Qed.
Lemma queue_line s t : Sound s -> In t (s_queue s) -> exists k, get s t = Some k /\ t_phase k = PLock.
Proof. intros (_ & _ & (_ & Q1 & _)) H. destruct (Q1 t H) as (k & G & E). exists k. split; [exact G|]. destruct (t_phase k); try discriminate E. reflexivity. Qed.
Lemma line_queue s t k : Sound s -> get s t = Some k -> t_phase k = PLock -> In t (s_queue s).
Proof. intros (_ & _ & (_ & _ & Q2)) G P. eapply Q2; [exact G|rewrite P; reflexivity]. Qed.

Definition same_key (s s' : st) (t : Z) (k' : task) (u : Z) : Prop := keyed s' t k' u /\ get s' u = get s u.
Lemma key_stays s s' t k u : Fit s -> Fit s' -> fprims s s' -> get s t = Some k -> late (t_phase k) -> keyed s t k u ->
  exists k', get s' t = Some k' /\ late (t_phase k') /\ (rounds s' t k' < rounds s t k \/ rounds s' t k' = rounds s t k /\ k' = k /\ same_key s s' t k u).
Proof.
  intros F F' X G L K. destruct (rounds_fs s s' t k X (Fit_sound s F) G L) as (k' & G' & N & L' & D). exists k'. split; [exact G'|]. split; [exact L'|].
  destruct D as [W|[E [D1 D2]]]; [left; exact W|right]. split; [exact E|]. unfold same_key, keyed in *.
  destruct (t_phase k) eqn:P; try contradiction; try (rewrite (D2 ltac:(discriminate)) in *; subst u; split; [reflexivity|]; split; [reflexivity|congruence]).
  assert (P' : t_phase k' = PLock).
  { pose proof (Fit_rest s' F' t k' G') as R. pose proof (line_nonneg s t). unfold rounds in E. rewrite P in E. destruct (t_phase k'); try discriminate R; try contradiction; try reflexivity; cbn [weight] in E; lia. }
  destruct (D1 P') as (-> & Ea & El). split; [reflexivity|]. rewrite El.
  destruct (s_lock s) as [h|] eqn:Eh.
  - subst h. split; [reflexivity|]. destruct (rest_holder s u F Eh) as (ku & i & d & Gu & Pu). destruct (rest_holder s' u F' El) as (ku' & i' & d' & Gu' & Pu').
    destruct (nearer_fs s s' u ku X (Fit_sound s F) Gu) as (ku2 & Gu2 & Nu). assert (ku2 = ku') by congruence. subst ku2.
    rewrite Gu', Gu. f_equal. apply nearer_same; [exact Nu|rewrite Pu, Pu'; reflexivity].
  - destruct K as (q & Eq). pose proof (line_queue s t k (Fit_sound s F) G P) as Hin. pose proof (line_queue s' t k (Fit_sound s' F') G' P') as Hin'.
    destruct (ahead_split _ _ Hin') as (r' & Eq'). rewrite Ea in Eq'. destruct (ahead_split _ _ Hin) as (r & Er).
    assert (Hd : exists q', s_queue s' = u :: q').
    { rewrite Eq in Er, Eq'. cbn [ahead] in Er, Eq'. destruct (Z.eqb_spec u t) as [->|Nu]; [exists r'; exact Eq'|eexists; exact Eq']. }
    split; [exact Hd|]. destruct Hd as (q' & Eq2).
    destruct (queue_line s u (Fit_sound s F)) as (ku & Gu & Pu); [rewrite Eq; left; reflexivity|]. destruct (queue_line s' u (Fit_sound s' F')) as (ku' & Gu' & Pu'); [rewrite Eq2; left; reflexivity|].
    destruct (nearer_fs s s' u ku X (Fit_sound s F) Gu) as (ku2 & Gu2 & Nu). assert (ku2 = ku') by congruence. subst ku2.
    rewrite Gu', Gu. f_equal. apply nearer_same; [exact Nu|rewrite Pu, Pu'; reflexivity].
Qed.

(** ** who goes on moves *)
Lemma tasks_ext {A} (l l' : list (Z * A)) : map fst l = map fst l' -> NoDup (map fst l) -> (forall t, assoc t l = assoc t l') -> l = l'.
Proof.
  revert l'. induction l as [|[a x] l IH]; intros [|[b y] l']; cbn [map fst]; try discriminate; [reflexivity|]. intros E Nd H. injection E as <- E. inversion Nd as [|? ? Na Nd']; subst.
  pose proof (H a) as Ha. cbn [assoc] in Ha. rewrite Z.eqb_refl in Ha. injection Ha as <-. f_equal. apply IH; [exact E|exact Nd'|]. intro t. specialize (H t). cbn [assoc] in H.
  destruct (Z.eqb_spec a t) as [D|]; [|exact H]. subst t.
  assert (Out : forall m : list (Z * A), ~ In a (map fst m) -> assoc a m = None).
  { clear. induction m as [|[c z] m IH]; cbn [map fst assoc In]; intro N; [reflexivity|]. destruct (Z.eqb_spec c a); [exfalso; tauto|apply IH; tauto]. }
  rewrite !Out; [reflexivity|rewrite <- E; exact Na|exact Na].
Qed.
Lemma same_tasks s s' u : Numbered s -> Numbered s' -> s_ntid s' = s_ntid s -> others u s s' -> get s' u = get s u -> work s' = work s.
Proof.
  intros [_ N] [_ N'] E O G. apply work_tasks. apply tasks_ext; [rewrite N, N', E; reflexivity|rewrite N'; apply upto_nodup|].
  intro t. change (get s' t = get s t). destruct (Z.eq_dec t u) as [->|D]; [exact G|apply O, D].
Qed.
Lemma resume_others_k s t : objects s -> others t s (resume t s).
Proof.
  intros Hc. unfold resume. destruct (get s t) as [k|] eqn:G; [|apply others_refl]. pose proof (Hc t k G) as Hk.
  destruct (t_phase k) eqn:Hp; try apply others_refl.
  - apply rests_start.
  - destruct Hk as (o & Ho). unfold acquire_sem. destruct (uses_sem (t_job k)); [destruct (0 <? s_sem s); [|apply others_refl]|];
      (eapply others_trans; [|eapply rests_acquire_lock, Ho]); exact (others_goto t PAdm s).
  - destruct Hk as (o & Ho). destruct (s_lock s); [apply others_refl|]. destruct (s_queue s) as [|h q]; [apply others_refl|]. destruct (h =? t); [|apply others_refl].
    exact (proj1 (rests_granted t k o (set_queue q s) Ho)).
  - destruct (s_futs s i) as [|r|]; try apply others_refl. destruct (t_obj k) as [o|]; [|apply others_refl].
    unfold request_raw_resume. destruct (z_type o); try apply rests_raw_return.
    destruct (unexpected_status r (expected_of (t_job k))) as [c|]; [|apply rests_raw_return].
    destruct (t_wid k) as [j|]; [|apply rests_raw_raise]. destruct (registered s j); [|apply rests_raw_raise].
    rewrite complete_nf. eapply others_trans; [|apply rests_raw_raise]. intros u _. reflexivity.
  - destruct (until <=? s_now s); [|apply others_refl]. eapply others_trans; [apply (others_free_sem t (t_job k))|apply rests_finish].
  - apply others_goto.
  - destruct (s_futs s i); try apply others_refl. apply rests_finish.
Qed.
Lemma resume_moves s u : Fit s -> Fit (resume u s) -> run_ready s u = true -> get (resume u s) u <> get s u.
Proof.
  intros F F' R E. assert (W : work (resume u s) < work s).
  { apply run_lowers_k; [|exact R]. intros k G. pose proof (Fit_objects s F u k G) as O. destruct (t_phase k); auto. }
  rewrite (same_tasks s (resume u s) u) in W; [lia|apply F|apply F'|apply ntid_resume|apply resume_others_k, F|exact E].
Qed.
Lemma timeout_moves s u : Fit s -> Fit (wait_timeout u s) -> timeout_ready s u = true -> get (wait_timeout u s) u <> get s u.
Proof.
  intros F F' R E. pose proof (timeout_lowers s u R) as W.
  rewrite (same_tasks s (wait_timeout u s) u) in W; [lia|apply F|apply F'|apply ntid_timeout|apply timeout_others|exact E].
Qed.
Lemma key_ready s s' t k u T : Fit s -> Fit s' -> same_key s s' t k u -> keyed s t k u -> get s t = Some k -> late (t_phase k) -> 30000 <= T ->
  (forall m to, t_job k = JWaitFor m to -> to <= T) -> s_now s + T <= s_now s' -> xready s' u.
Proof.
  intros F F' [K' G'] K G L HT Hw Hn.
  assert (W : forall ku i d, get s u = Some ku -> t_phase ku = PWait i d -> xready s' u).
  { intros ku i d Gu Pu. pose proof (Fit_due s F u ku Gu) as D. rewrite Pu in D. rewrite Gu in G'. pose proof (Fit_waits s' F' u ku G') as C. rewrite Pu in C.
    unfold xready, run_ready, timeout_ready. rewrite G', Pu. destruct (s_futs s' i); [right; lia|left; reflexivity|congruence]. }
  unfold keyed in K, K'. destruct (t_phase k) eqn:P; try contradiction; try (subst u).
  - destruct (s_lock s) as [h|] eqn:Eh.
    + subst h. destruct (rest_holder s u F Eh) as (ku & i & d & Gu & Pu). eapply W; eassumption.
    + destruct K as (q & Eq). destruct (s_lock s') as [h|] eqn:Eh'.
      * subst h. destruct (rest_holder s' u F' Eh') as (ku & i & d & Gu & Pu). eapply W; [rewrite <- G'; exact Gu|exact Pu].
      * destruct K' as (q' & Eq'). destruct (queue_line s' u (Fit_sound s' F')) as (ku & Gu & Pu); [rewrite Eq'; left; reflexivity|].
        left. unfold run_ready. rewrite Gu, Pu, Eh', Eq'. apply Z.eqb_refl.
  - pose proof (Fit_rest s F t k G) as R. rewrite P in R. discriminate R.
  - eapply W; eassumption.
  - pose proof (Fit_rest s F t k G) as R. rewrite P in R. discriminate R.
  - pose proof (Fit_due s F t k G) as D. rewrite P in D. left. unfold run_ready. rewrite G', G, P. lia.
  - left. unfold run_ready. rewrite G', G, P. reflexivity.
  - pose proof (Fit_due s F t k G) as D. rewrite P in D. destruct D as (m & to & J & D). specialize (Hw m to J).
    rewrite G in G'. pose proof (Fit_waits s' F' t k G') as C. rewrite P in C.
    unfold xready, run_ready, timeout_ready. rewrite G', P. destruct (s_futs s' i); [right; lia|left; reflexivity|congruence].
Qed.
Lemma key_run_ready s s' t k u : Fit s -> Fit s' -> keyed s' t k u -> get s' u = get s u -> late (t_phase k) -> (t_phase k <> PLock -> get s t = Some k) ->
  (forall i r, s_futs s i = FDone r -> s_futs s' i = FDone r) -> s_now s <= s_now s' -> run_ready s u = true -> run_ready s' u = true.
Proof.
  intros F F' K G L Gt Hd Hn. unfold run_ready. rewrite G. destruct (get s u) as [ku|] eqn:Gu; [|discriminate]. destruct (t_phase ku) eqn:Pu; auto.
  - intros _. exfalso. unfold keyed in K. destruct (t_phase k) eqn:P; try contradiction; try (subst u; rewrite Gt in Gu by discriminate; injection Gu as <-; congruence).
    destruct (s_lock s') as [h|] eqn:Eh.
    + subst h. destruct (rest_holder s' u F' Eh) as (kx & i & d & Gx & Px). congruence.
    + destruct K as (q & Eq). destruct (queue_line s' u (Fit_sound s' F')) as (kx & Gx & Px); [rewrite Eq; left; reflexivity|]. congruence.
  - intros _. unfold keyed in K. destruct (t_phase k) eqn:P; try contradiction; try (subst u; rewrite Gt in Gu by discriminate; injection Gu as <-; congruence).
    destruct (s_lock s') as [h|] eqn:Eh.
    + subst h. destruct (rest_holder s' u F' Eh) as (kx & i & d & Gx & Px). congruence.
    + destruct K as (q & ->). apply Z.eqb_refl.
  - destruct (s_futs s i) eqn:Ef; try discriminate. rewrite (Hd _ _ Ef). reflexivity.
  - lia.
  - destruct (s_futs s i) eqn:Ef; try discriminate. rewrite (Hd _ _ Ef). reflexivity.
Qed.

(** ** a round *)
Lemma fit_round s t k u T : Fit s -> get s t = Some k -> late (t_phase k) -> keyed s t k u -> 30000 <= T -> (forall m to, t_job k = JWaitFor m to -> to <= T) ->
  forall s1 s2 s3, fprims s s1 -> s_now s + T <= s_now s1 -> Fit s1 ->
  fprims s1 (wait_timeout u s1) -> Fit (wait_timeout u s1) -> fprims (wait_timeout u s1) s2 -> Fit s2 ->
  (forall i r, s_futs s1 i = FDone r -> s_futs s2 i = FDone r) -> s_now s1 <= s_now s2 ->
  fprims s2 (resume u s2) -> Fit (resume u s2) -> fprims (resume u s2) s3 -> Fit s3 ->
  exists k3, get s3 t = Some k3 /\ late (t_phase k3) /\ rounds s3 t k3 < rounds s t k.
Proof.
  intros F G L K HT Hw s1 s2 s3 X1 Hn F1 XT FT X2 F2 Hd Hn2 XR FR X3 F3.
  assert (Fin : forall s' k', Fit s' -> get s' t = Some k' -> late (t_phase k') -> fprims s' s3 -> rounds s' t k' < rounds s t k ->
    exists k3, get s3 t = Some k3 /\ late (t_phase k3) /\ rounds s3 t k3 < rounds s t k).
  { intros s' k' F' G' L' X' W. destruct (rounds_fs s' s3 t k' X' (Fit_sound s' F') G' L') as (k3 & G3 & _ & L3 & [W3|[W3 _]]); exists k3; (split; [exact G3|split; [exact L3|lia]]). }
  destruct (key_stays s s1 t k u F F1 X1 G L K) as (k1 & G1 & L1 & [W|(E1 & -> & K1)]).
  { eapply (Fin s1); try eassumption. eapply fprims_app; [exact XT|]. eapply fprims_app; [exact X2|]. eapply fprims_app; [exact XR|exact X3]. }
  destruct (key_stays s1 (wait_timeout u s1) t k u F1 FT XT G1 L1 (proj1 K1)) as (kt & Gt & Lt & [W|(Et & -> & KT)]).
  { eapply (Fin _ kt FT Gt Lt); [|lia]. eapply fprims_app; [exact X2|]. eapply fprims_app; [exact XR|exact X3]. }
  destruct (key_ready s s1 t k u T F F1 K1 K G L HT Hw Hn) as [R|R]; [|exfalso; apply (timeout_moves s1 u F1 FT R), KT].
  destruct (key_stays (wait_timeout u s1) s2 t k u FT F2 X2 Gt Lt (proj1 KT)) as (k2 & G2 & L2 & [W|(E2 & -> & K2)]).
  { eapply (Fin s2); try eassumption; [|lia]. eapply fprims_app; [exact XR|exact X3]. }
  assert (R2 : run_ready s2 u = true).
  { apply (key_run_ready s1 s2 t k u F1 F2 (proj1 K2)); auto. rewrite (proj2 K2). apply KT. }
  destruct (key_stays s2 (resume u s2) t k u F2 FR XR G2 L2 (proj1 K2)) as (k3 & G3 & L3 & [W|(E3 & -> & K3)]).
  - eapply (Fin _ k3 FR G3 L3); [exact X3|lia].
  - exfalso. apply (resume_moves s2 u F2 FR R2), K3.
Qed.

(** ** what needs no slot comes to the queue, the link or its end at its first turn *)
Lemma lock_late s t k k0 : Sound s -> get s t = Some k0 -> t_phase k0 = PAdm -> t_job k0 = t_job k -> t_obj k0 = t_obj k -> At_rest (acquire_lock t k s) ->
  exists k', get (acquire_lock t k s) t = Some k' /\ late (t_phase k').
Proof.
  intros S G P J O R. destruct (nearer_fs s (acquire_lock t k s) t k0) as (k' & G' & N); [apply fprims_prims; eapply acquire_lock_prims; eassumption|exact S|exact G|].
  exists k'. split; [exact G'|]. pose proof (R t k' G') as Hr. destruct N as [W| ->]; [rewrite P in W; cbn [weight] in W|rewrite P in Hr; discriminate Hr].
  destruct (t_phase k'); try exact I; try discriminate Hr; cbn [weight] in W; lia.
Qed.
Lemma sem_late s t k : Sound s -> get s t = Some k -> t_phase k = PSem -> uses_sem (t_job k) = false -> At_rest (acquire_sem t k s) ->
  exists k', get (acquire_sem t k s) t = Some k' /\ late (t_phase k').
Proof.
  intros S G P U. unfold acquire_sem. rewrite U. rewrite (goto_some _ _ _ _ G). intro R.
  eapply lock_late; [|rewrite (get_put _ _ _ _ _ G), Z.eqb_refl; reflexivity|reflexivity..|exact R].
  eapply sound_prim; [|exact S]. pose proof (P_admit0 s t k G P U) as X. rewrite (goto_some _ _ _ _ G) in X. exact X.
Qed.
Lemma resume_late s t k : Sound s -> get s t = Some k -> uses_sem (t_job k) = false -> At_rest (resume t s) ->
  exists k', get (resume t s) t = Some k' /\ (t_phase k <> PAdm -> late (t_phase k')).
Proof.
  intros S G U R. assert (D : late (t_phase k) \/ t_phase k = PStart \/ t_phase k = PSem \/ t_phase k = PAdm) by (destruct (t_phase k); cbn; auto).
  destruct D as [L|D].
  { destruct (nearer_fs s (resume t s) t k) as (k' & G' & N); [apply fprims_prims, resume_prims|exact S|exact G|]. exists k'. split; [exact G'|]. intros _. eapply late_nearer; eassumption. }
  revert R. unfold resume. rewrite G. destruct D as [P|[P|P]]; rewrite P; [|intro R; destruct (sem_late s t k S G P U R) as (k' & G' & L); exists k'; auto|exists k; split; [exact G|contradiction]].
  unfold start.
  assert (Fi : forall r, exists k', get (finish t r s) t = Some k' /\ (PStart <> PAdm -> late (t_phase k'))).
  { intro r. rewrite (finish_nf s t k r G). unfold done, get. opn. rewrite (assoc_put _ _ _ _ _ G), Z.eqb_refl. eexists. split; [reflexivity|]. intros _. exact I. }
  assert (M : forall j, j = t_job k -> response_waiter j = (fun _ => Ok None) -> At_rest
     (match build j with
      | Err e => finish t (OExn e) s
      | Ok o =>
        match response_waiter j o with
        | Err e => finish t (OExn e) s
        | Ok None => let k := mk_task j PSem (Some o) None in acquire_sem t k (prepared t k s)
        | Ok (Some (m, sequence)) =>
            let k := mk_task j PSem (Some o) (Some (s_next s)) in
            acquire_sem t k (prepared t k (wait_for m Timeouts_default sequence s))
        end
      end) -> exists k', get
     (match build j with
      | Err e => finish t (OExn e) s
      | Ok o =>
        match response_waiter j o with
        | Err e => finish t (OExn e) s
        | Ok None => let k := mk_task j PSem (Some o) None in acquire_sem t k (prepared t k s)
        | Ok (Some (m, sequence)) =>
            let k := mk_task j PSem (Some o) (Some (s_next s)) in
            acquire_sem t k (prepared t k (wait_for m Timeouts_default sequence s))
        end
      end) t = Some k' /\ (PStart <> PAdm -> late (t_phase k'))).
  { intros j Ej Ew. destruct (build j) as [o|e] eqn:B; [|intros _; apply Fi]. rewrite Ew. cbv zeta. unfold prepared. intro R.
    edestruct (sem_late (put t (mk_task j PSem (Some o) None) s) t) as (k' & G' & L); [| | | |exact R|exists k'; auto].
    - eapply sound_prim; [|exact S]. subst j. apply (P_prepare s t k o G P B). rewrite Ew. reflexivity.
    - rewrite (get_put _ _ _ _ _ G), Z.eqb_refl. reflexivity.
    - reflexivity.
    - subst j. exact U. }
  destruct (t_job k) as [| | | |sub cmd d e|o e|m to] eqn:J; try discriminate U.
  - apply M; reflexivity.
  - apply M; reflexivity.
  - intros _. rewrite (goto_some _ _ k) by exact G. eexists. split; [rewrite (get_put _ _ _ k) by exact G; rewrite Z.eqb_refl; reflexivity|]. intros _. exact I.
Qed.
