(** * MachineInv5: completions, response waiters; the combined invariant *)
From Coq Require Import ZifyBool ZifyNat.
From Verif Require Import Base Types Uart Buffalo CmdTable Zpi Api App Machine SpecMachine MachineBase MachineInv MachineInv2 MachineInv3 MachineInv4.

(** ** a settled future stays as it is *)
Definition settled (f : fstate) : Prop := f <> FPending.
Lemma settled_upd f i x j : settled (f j) -> (i = j -> x = f j) -> upd f i x j = f j.
Proof. intros H E. unfold upd. destruct (Z.eqb_spec j i) as [->|]; [apply E; reflexivity|reflexivity]. Qed.
Lemma settled_cancelled f i j : settled (f j) -> cancelled f i j = f j.
Proof.
  intro H. unfold cancelled. destruct (f i) eqn:E; try reflexivity. apply upd_other. intros ->. apply H, E.
Qed.
Lemma settled_resulted f i o j : settled (f j) -> resulted f i o j = f j.
Proof.
  intro H. unfold resulted, upd. destruct (Z.eqb_spec j i) as [->|]; [|reflexivity]. destruct (f i); try reflexivity. exfalso. apply H. reflexivity.
Qed.
Lemma settled_prim s s' i : prim s s' -> Ids s -> settled (s_futs s i) -> s_futs s' i = s_futs s i.
Proof.
  intros H (Hn & _ & _ & Hf) Hs.
  assert (Hi : i <> s_next s) by (intros ->; apply Hs, Hf; lia).
  start_prim H; try reflexivity; try (apply upd_other; exact Hi); try (apply settled_cancelled; exact Hs); apply settled_resulted; exact Hs.
Qed.
Lemma settled_prims s s' i : prims s s' -> Core s -> settled (s_futs s i) -> s_futs s' i = s_futs s i.
Proof.
  induction 1 as [|s1 s2 s3 Hp Hps IH]; intros Hc Hs; [reflexivity|].
  pose proof (settled_prim _ _ i Hp (proj2 (proj2 (proj2 Hc))) Hs) as E. rewrite <- E. apply IH; [eapply core_prim; eassumption|].
  rewrite E. exact Hs.
Qed.

(** ** completions *)
Lemma completions_app a b : completions (a ++ b) = completions a ++ completions b.
Proof. unfold completions. apply flat_map_app. Qed.
Lemma completions_in l i : In i (completions l) <-> exists o, In (OCompleted i o) l.
Proof.
  unfold completions. rewrite in_flat_map. split.
  - intros (x & Hx & Hi). destruct x; try contradiction. destruct Hi as [<-|[]]. eauto.
  - intros (o & Hx). eexists. split; [exact Hx|]. left. reflexivity.
Qed.
Definition ComplP (lg : list obs) (next : Z) (ws : list waiter) (f : Z -> fstate) : Prop :=
  NoDup (completions lg) /\
  (forall i o, In (OCompleted i o) lg -> i < next /\ (forall w, In w ws -> w_id w <> i) /\ (f i = FDone o \/ f i = FCancelled)).
Definition Compl (s : st) : Prop := ComplP (s_log s) (s_next s) (s_waiters s) (s_futs s).

Lemma compl_keep lg next ws f lg' next' ws' f' l : ComplP lg next ws f -> lg' = lg ++ l ->
  (forall i o, ~ In (OCompleted i o) l) -> next <= next' ->
  (forall w, In w ws' -> In w ws \/ next <= w_id w) -> (forall i, i < next -> settled (f i) -> f' i = f i) ->
  ComplP lg' next' ws' f'.
Proof.
  intros [C1 C2] -> Hl Hn Hw Hf. split.
  - rewrite completions_app. destruct (completions l) as [|i r] eqn:E; [rewrite app_nil_r; exact C1|].
    assert (Hi : In i (completions l)) by (rewrite E; left; reflexivity). apply completions_in in Hi as (o & Ho). exfalso. eapply Hl, Ho.
  - intros i o Hin. apply in_app_or in Hin as [Hin|Hin]; [|exfalso; eapply Hl, Hin]. destruct (C2 i o Hin) as (H1 & H2 & H3).
    split; [lia|]. split.
    + intros w Hw'. destruct (Hw w Hw') as [Hin'|Hge]; [apply H2, Hin'|lia].
    + rewrite Hf; [exact H3|lia|]. destruct H3 as [->| ->]; discriminate.
Qed.
Lemma compl_new s i o l : Compl s -> Ids s -> Timed s -> (exists w, In w (s_waiters s) /\ w_id w = i) -> (forall j p, ~ In (OCompleted j p) l) ->
  ComplP (s_log s ++ OCompleted i o :: l) (s_next s) (filter (fun w => negb (w_id w =? i)) (s_waiters s)) (resulted (s_futs s) i o).
Proof.
  intros [C1 C2] (_ & _ & Hid & _) [_ T2] (w & Hw & Hi) Hl. destruct (T2 w Hw) as [Hu _]. rewrite Hi in Hu. split.
  - rewrite completions_app. change (OCompleted i o :: l) with ([OCompleted i o] ++ l). rewrite completions_app.
    assert (E : completions l = []).
    { destruct (completions l) as [|j r] eqn:E; [reflexivity|]. assert (Hj : In j (completions l)) by (rewrite E; left; reflexivity).
      apply completions_in in Hj as (p & Hp). exfalso. eapply Hl, Hp. }
    rewrite E, app_nil_r. change (completions [OCompleted i o]) with [i]. apply nodup_snoc; [exact C1|]. intro C.
    apply completions_in in C as (p & Hp). destruct (C2 i p Hp) as (_ & H2 & _). apply (H2 w Hw Hi).
  - intros j p Hin. apply in_app_or in Hin as [Hin|[Hin|Hin]]; [| |exfalso; eapply Hl, Hin].
    + destruct (C2 j p Hin) as (H1 & H2 & H3). split; [exact H1|]. split.
      * intros x Hx. apply filter_In in Hx as [Hx _]. apply H2, Hx.
      * rewrite settled_resulted; [exact H3|]. destruct H3 as [->| ->]; discriminate.
    + injection Hin as <- <-. split; [specialize (Hid w Hw); lia|]. split.
      * intros x Hx. apply filter_In in Hx as [_ Hx]. apply negb_true_iff, Z.eqb_neq in Hx. exact Hx.
      * unfold resulted. rewrite upd_same. destruct (s_futs s i); [left; reflexivity|destruct Hu|right; reflexivity].
Qed.
Lemma registered_in s i : registered s i = true -> exists w, In w (s_waiters s) /\ w_id w = i.
Proof. unfold registered. intro H. apply existsb_exists in H as (w & Hw & E). apply Z.eqb_eq in E. eauto. Qed.
Lemma registered_not s i : registered s i = false -> forall w, In w (s_waiters s) -> w_id w <> i.
Proof.
  intros H w Hw E. assert (registered s i = true); [|congruence]. apply existsb_exists. exists w. split; [exact Hw|]. apply Z.eqb_eq, E.
Qed.

Lemma compl_prim s s' : prim s s' -> Core s -> Timed s -> Compl s -> Compl s'.
Proof.
  intros H Hc T C. assert (Hid : Ids s) by apply Hc. pose proof (settled_prim s s') as Hset. specialize (fun i => Hset i H Hid).
  revert Hset. 
  destruct H; prim_nf; intro Hset; unfold Compl; opn; unfold Compl in C;
    try (eapply (compl_keep _ _ _ _ _ _ _ _ _ C);
      [first [symmetry; apply app_nil_r|repeat rewrite <- app_assoc; cbn [app]; reflexivity]
      |cbn [In]; intros ? ? Hin; repeat (destruct Hin as [Hin|Hin]); try discriminate Hin; try contradiction
      |lia
      |intros w0 Hw0; first [left; exact Hw0 | apply in_app_or in Hw0 as [Hw0|[<-|[]]]; [left; exact Hw0|right; fld; lia]]
      |intros i0 Hi0 Hs0; first [reflexivity|apply Hset; exact Hs0]]; fail).
  - repeat rewrite <- app_assoc. cbn [app]. apply compl_new; try assumption.
    + apply registered_in. assumption.
    + cbn [In]. intros ? ? Hin; repeat (destruct Hin as [Hin|Hin]); try discriminate Hin; contradiction.
  - eapply (compl_keep _ _ _ _ _ _ _ _ [] C); [symmetry; apply app_nil_r|intros ? ? []|lia| |auto].
    intros w0 Hw0. left. destruct (s_futs s i); try exact Hw0; apply filter_In in Hw0; apply Hw0.
  - apply compl_new; try assumption; [eauto|intros ? ? []].
Qed.

(** ** the waiter for the final reply is never cancelled, and asks for that reply *)
Definition RespP (s : st) (k : task) : Prop :=
  forall j, t_wid k = Some j ->
    s_futs s j <> FCancelled /\
    exists o m q, build (t_job k) = Ok o /\ response_waiter (t_job k) o = Ok (Some (m, q)) /\
      forall w, In w (s_waiters s) -> w_id w = j -> w_matcher w = m /\ w_seq w = q.
Definition Resp (s : st) : Prop := forall t k, get s t = Some k -> RespP s k.

Lemma resp_keep s s' k k' : RespP s k -> t_job k' = t_job k -> t_wid k' = t_wid k ->
  (forall j, t_wid k = Some j -> s_futs s' j <> FCancelled \/ s_futs s' j = s_futs s j) ->
  (forall w j, t_wid k = Some j -> w_id w = j -> In w (s_waiters s') -> In w (s_waiters s)) -> RespP s' k'.
Proof.
  intros H Hj Hw Hf Hws j Ej. rewrite Hj. rewrite Hw in Ej. destruct (H j Ej) as (H1 & o & m & q & Hb & Hr & Hm). split.
  - destruct (Hf j Ej) as [Hn|E]; [exact Hn|rewrite E; exact H1].
  - exists o, m, q. split; [exact Hb|]. split; [exact Hr|]. intros w Hin Hi. apply Hm; [eapply Hws; eassumption|exact Hi].
Qed.
Lemma resulted_not_cancelled f i o j : f j <> FCancelled -> resulted f i o j <> FCancelled.
Proof. intro H. unfold resulted, upd. destruct (Z.eqb_spec j i) as [->|]; [|exact H]. destruct (f i); congruence. Qed.
Lemma resp_prim s s' : prim s s' -> Core s -> Resp s -> Resp s'.
Proof.
  intros H Hc R.
  destruct Hc as (_ & Hok & (O1 & O2 & O3) & Hid).
  assert (Hlt : forall t k j, get s t = Some k -> t_wid k = Some j -> j < s_next s).
  { intros t k j G E. apply (O1 t k j G). unfold own. rewrite E. apply in_or_app. right. left. reflexivity. }
  assert (Hnot : forall t k j t2 k2 i, get s t = Some k -> t_wid k = Some j -> get s t2 = Some k2 -> In i (phase_id (t_phase k2)) -> i <> j).
  { intros t k j t2 k2 i G E G2 Hi ->.
    assert (Hj : In j (own k)) by (unfold own; rewrite E; apply in_or_app; right; left; reflexivity).
    pose proof (O2 _ _ _ _ _ G G2 Hj (phase_own _ _ Hi)) as <-. rewrite G in G2. injection G2 as <-.
    pose proof (O3 t k G) as Nd. unfold own in Nd. rewrite E in Nd. destruct (t_phase k); try contradiction;
      destruct Hi as [->|[]]; cbn [phase_id app] in Nd; inversion Nd as [|? ? C _]; apply C; left; reflexivity. }
  destruct H; prim_nf; intros t' k' G;
    try (eapply resp_keep; [apply (R t' k'); exact G|reflexivity|reflexivity|auto|auto]; fail).
  all: assert (G0 := G); opn_in G0; try unfold get in H; look G0.
  all: try (eapply resp_keep; [eapply (R t'); eassumption|reflexivity|reflexivity|auto|auto]; fail).
  all: try (eapply resp_keep; [eapply (R t); eassumption|reflexivity|reflexivity|auto|auto]; fail).
  all: try (eapply resp_keep; [first [eapply (R t'); eassumption|eapply (R t); eassumption]|reflexivity|reflexivity
       |intros j0 Ej0; opn; right; first [apply cancelled_other; apply not_eq_sym; eapply Hnot; [|exact Ej0|exact H|rewrite H0; left; reflexivity]; first [eassumption|exact H]
          |apply upd_other; assert (j0 < s_next s) by (eapply Hlt; [|exact Ej0]; eassumption); lia]
       |intros w0 j0 Ej0 Ew0 Hin0; opn_in Hin0; first [exact Hin0|apply in_app_or in Hin0 as [Hin0|[<-|[]]]; [exact Hin0|
          exfalso; fldin Ew0; assert (j0 < s_next s) by (eapply Hlt; [|exact Ej0]; eassumption); lia]]]; fail).
  - intros j0 C. discriminate C.
  - intros j0 C. discriminate C.
  - intros j0 C. injection C as <-. split; [opn; rewrite upd_same; discriminate|]. exists o, m, q.
    split; [assumption|]. split; [assumption|]. intros w Hw Hi. opn_in Hw. apply in_app_or in Hw as [Hw|[<-|[]]]; [|split; reflexivity].
    destruct Hid as (_ & _ & Hid & _). specialize (Hid w Hw). lia.
  - eapply resp_keep; [eapply (R t); exact H|reflexivity|reflexivity| |].
    + intros j0 Ej. left. opn. apply resulted_not_cancelled. apply (R t k H j0 Ej).
    + intros w j0 Ej Ew Hin. opn_in Hin. apply filter_In in Hin. apply Hin.
  - eapply resp_keep; [eapply (R t'); exact G0|reflexivity|reflexivity| |].
    + intros j0 Ej. left. opn. apply resulted_not_cancelled. apply (R t' k' G0 j0 Ej).
    + intros w j0 Ej Ew Hin. opn_in Hin. apply filter_In in Hin. apply Hin.
  - eapply resp_keep; [eapply (R t'); exact G0|reflexivity|reflexivity|auto|].
    intros w j0 Ej Ew Hin. opn_in Hin. destruct (s_futs s i); try exact Hin; apply filter_In in Hin; apply Hin.
  - eapply resp_keep; [eapply (R t'); exact G0|reflexivity|reflexivity| |].
    + intros j0 Ej. left. opn. apply resulted_not_cancelled. apply (R t' k' G0 j0 Ej).
    + intros x j0 Ej Ew Hin. opn_in Hin. apply filter_In in Hin. apply Hin.
Qed.

(** ** everything received was decoded from a frame *)
Definition Received (s : st) : Prop := forall r, In (OReceived r) (s_log s) -> exists f, from_unpi_frame f = Ok r.
Lemma received_prim s s' : prim s s' -> Received s -> Received s'.
Proof.
  intros H R r Hin. destruct H; revert Hin; prim_nf; intro Hin; opn_in Hin; repeat rewrite in_app_iff in Hin; cbn [In] in Hin;
    repeat (destruct Hin as [Hin|Hin]); try contradiction; try discriminate Hin; try (apply R; exact Hin).
  injection Hin as ->. eauto.
Qed.

(** ** a finished task stays as it is *)
Definition ended (p : phase) : bool := match p with PDone _ => true | _ => false end.
Lemma done_prim s s' t k : prim s s' -> get s t = Some k -> ended (t_phase k) = true -> get s' t = Some k.
Proof.
  intros H G He. unfold get in *.
  start_prim H; try exact G;
    try (match goal with Hg : assoc ?u (s_tasks s) = Some _ |- _ => rewrite (assoc_put _ _ _ _ _ Hg);
      destruct (Z.eqb_spec u t) as [->|]; [exfalso|exact G] end;
      match goal with Hg : assoc t (s_tasks s) = Some ?k0, Hp : t_phase ?k0 = _ |- _ =>
        rewrite G in Hg; injection Hg as <-; rewrite Hp in He; discriminate He end).
  rewrite assoc_snoc, G. reflexivity.
Qed.
Lemma done_prims s s' t k : prims s s' -> get s t = Some k -> ended (t_phase k) = true -> get s' t = Some k.
Proof. induction 1; [auto|]. intros G He. apply IHprims; [eapply done_prim; eassumption|exact He]. Qed.

(** ** all together *)
Record Inv (cap : Z) (s : st) : Prop := mk_Inv {
  I_core : Core s; I_lock : Lock s; I_queue : Queue s; I_sem : Sem cap s; I_regs : Regs s; I_timed : Timed s;
  I_link : Link s; I_waiting : Waiting s; I_life : Life s; I_active : Active cap s; I_waiters : Waiters s;
  I_ended : Ended s; I_wrote : Wrote s; I_compl : Compl s; I_resp : Resp s; I_received : Received s }.
Lemma inv_prim cap s s' : prim s s' -> Inv cap s -> Inv cap s'.
Proof.
  intros H []. constructor.
  - eapply core_prim; eassumption.
  - eapply lock_prim; eassumption.
  - eapply queue_prim; eassumption.
  - eapply sem_prim; eassumption.
  - eapply regs_prim; eassumption.
  - eapply timed_prim; eassumption.
  - eapply link_prim; eassumption.
  - eapply waiting_prim; eassumption.
  - eapply life_prim; eassumption.
  - eapply active_prim; eassumption.
  - eapply waiters_prim; eassumption.
  - eapply ended_prim; eassumption.
  - eapply wrote_prim; eassumption.
  - eapply compl_prim; eassumption.
  - eapply resp_prim; eassumption.
  - eapply received_prim; eassumption.
Qed.
Lemma inv_prims cap s s' : prims s s' -> Inv cap s -> Inv cap s'.
Proof. apply prims_inv, inv_prim. Qed.
Lemma inv_init cap v d a : 0 <= cap -> Inv cap (init cap v d a).
Proof.
  intro Hcap. constructor.
  - apply core_init.
  - split; discriminate.
  - split; [constructor|]. split; [intros t []|discriminate].
  - split; cbn; lia.
  - split; [cbn; lia|reflexivity].
  - split; [intros ? ? []|intros ? []].
  - split; [reflexivity|apply always_nil].
  - split; [reflexivity|apply always_nil].
  - split; [discriminate|reflexivity].
  - split; [constructor|]. split; [|cbn; lia]. intro t. split; [intros []|intros (k & C & _); discriminate C].
  - discriminate.
  - discriminate.
  - split; [reflexivity|intros ? ? ? []].
  - split; [constructor|intros ? ? []].
  - discriminate.
  - intros r [].
Qed.
Lemma inv_run cap es s : Inv cap s -> Inv cap (run es s).
Proof. intro H. eapply inv_prims; [apply run_prims, H|exact H]. Qed.
Lemma reachable_inv cap s : 0 <= cap -> reachable cap s -> Inv cap s.
Proof. intros Hc (v & d & a & es & ->). apply inv_run, inv_init, Hc. Qed.
Lemma reachable_run cap s es : reachable cap s -> reachable cap (run es s).
Proof. intros (v & d & a & es0 & ->). exists v, d, a, (es0 ++ es). unfold run. rewrite fold_left_app. reflexivity. Qed.
Lemma reachable_step cap s e : reachable cap s -> reachable cap (step e s).
Proof. apply (reachable_run cap s [e]). Qed.

