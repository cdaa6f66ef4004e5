(** * MachineProofs2: waiters and their timers; messages and waiters *)
From Coq Require Import ZifyBool ZifyNat.
From Verif Require Import Base Types Uart Buffalo CmdTable Zpi Api App Machine SpecCodec SpecApi SpecMachine CodecProofs ApiProofs AppProofs
  MachineBase MachineInv MachineInv2 MachineInv3 MachineInv4 MachineInv5 DispatchProofs MachineProofs.

(** ** completions *)
Lemma complete_ok i o s : snd (complete i o s) = Ok tt.
Proof. rewrite complete_nf. reflexivity. Qed.
Lemma registrations_nodup cap s : 0 <= cap -> reachable cap s -> NoDup (registrations (s_log s)).
Proof.
  intros Hc Hr. destruct (I_regs _ _ (reachable_inv cap s Hc Hr)) as [_ E]. change (registrations (s_log s)) with (regs (s_log s)).
  rewrite E. apply upto_nodup.
Qed.
Lemma completions_once cap s : 0 <= cap -> reachable cap s -> NoDup (completions (s_log s)) /\
  forall i o, In (OCompleted i o) (s_log s) ->
    In i (registrations (s_log s)) /\ (forall w, In w (s_waiters s) -> w_id w <> i) /\
    (s_futs s i = FDone o \/ s_futs s i = FCancelled).
Proof.
  intros Hc Hr. pose proof (reachable_inv cap s Hc Hr) as HI. destruct (I_compl _ _ HI) as [C1 C2]. split; [exact C1|].
  intros i o Hin. destruct (C2 i o Hin) as (H1 & H2 & H3). split; [|auto].
  destruct (I_regs _ _ HI) as [Hn E]. change (registrations (s_log s)) with (regs (s_log s)). rewrite E. apply upto_in; [exact Hn|].
  split; [|exact H1].
  destruct (I_core _ _ HI) as (_ & _ & _ & Hid). destruct (Z_lt_dec i 0) as [Hneg|]; [|lia]. exfalso.
  clear - Hc Hr Hin Hneg. destruct Hr as (v & d & a & es & ->).
  assert (H : forall s, Inv cap s -> (forall i o, In (OCompleted i o) (s_log s) -> 0 <= i) ->
    forall es, forall i o, In (OCompleted i o) (s_log (run es s)) -> 0 <= i).
  { clear. intros s HI H0 es. assert (Hp : prims s (run es s)) by apply run_prims, HI. revert HI H0.
    induction Hp as [|s1 s2 s3 Hp Hps IH]; intros HI H0; [exact H0|]. apply IH; [eapply inv_prim; eassumption|].
    intros i o Hin. pose proof (I_core _ _ HI) as (_ & _ & (O1 & _) & (_ & _ & Hw & _)).
    destruct Hp; revert Hin; prim_nf; intro Hin; opn_in Hin; repeat rewrite in_app_iff in Hin; cbn [In] in Hin;
      repeat (destruct Hin as [Hin|Hin]); try contradiction; try discriminate Hin; try (eapply H0; exact Hin).
    - injection Hin as <- <-. match goal with Hreg : registered _ _ = true |- _ => apply registered_in in Hreg as (w & Hin & <-) end. specialize (Hw w Hin). lia.
    - injection Hin as <- <-. specialize (Hw w H). lia. }
  specialize (H (init cap v d a) (inv_init cap v d a Hc)). specialize (H (fun i o (C : In _ []) => match C with end) es i o Hin). lia.
Qed.
Lemma done_stays cap s i o es : 0 <= cap -> reachable cap s -> s_futs s i = FDone o -> s_futs (run es s) i = FDone o.
Proof.
  intros Hc Hr E. pose proof (I_core _ _ (reachable_inv cap s Hc Hr)) as Hcore.
  rewrite (settled_prims s (run es s) i (run_prims es s Hcore) Hcore); [exact E|]. rewrite E. discriminate.
Qed.

(** ** one message and the waiters *)
Lemma no_raise_ok m o : has_fields m o -> forall e, waiter_match m o <> Err e.
Proof.
  intros H e. unfold waiter_match.
  destruct (ct_eqb_spec (m_type m) (z_type o)) as [E1|N1]; cbn [negb orb]; [|discriminate].
  destruct (sub_eqb_spec (m_sub m) (z_sub o)) as [E2|N2]; cbn [negb orb]; [|discriminate].
  destruct (String.eqb_spec (m_cmd m) (z_cmd o)) as [E3|N3]; cbn [negb orb]; [|discriminate].
  specialize (H E1 E2 E3). induction (m_payload m) as [|[f v] p IH]; cbn [match_payload]; [discriminate|].
  inversion H as [|? ? Hf Hp]; subst. cbn [fst] in Hf. unfold dict_getE. destruct (dict_get (z_payload o) f) as [x|]; [|congruence].
  cbn [bind]. destruct (value_eqb v x); [apply IH, Hp|discriminate].
Qed.
Lemma split_unique_last {A} (P : A -> Prop) pre (w : A) : Forall (fun x => ~ P x) pre ->
  forall a x b, pre ++ [w] = a ++ x :: b -> P x -> b = [].
Proof.
  intros Hp a x b E Hx. destruct b as [|y b] using rev_ind; [reflexivity|]. exfalso.
  rewrite app_comm_cons, app_assoc in E. apply app_inj_tail in E as [E _].
  rewrite Forall_forall in Hp. apply (Hp x); [rewrite E; apply in_or_app; right; left; reflexivity|exact Hx].
Qed.
Lemma stopped_offered o pre post o' r : stopped o pre post o' r ->
  (forall w e, In w (pre ++ post) -> waiter_match (w_matcher w) o <> Err e) -> offered o (pre ++ post) pre post.
Proof.
  assert (Hpass : forall l, Forall (passed o) l -> Forall (fun x => ~ (answers (w_matcher x) o /\ carries x)) l).
  { intro l. apply Forall_impl. intros w [_ Hw] [Ha Hc]. apply hit_answers, Hw in Ha. apply usable_carries in Hc. congruence. }
  intros [p Hp|p x q po Hp H1 H2 H3|p x e po Hp H1] Hno; (split; [reflexivity|]).
  - split; [|left; reflexivity]. intros a w b -> Ha Hc. exfalso. apply Hpass in Hp. apply Forall_app in Hp as [_ Hp].
    inversion Hp as [|? ? C _]; subst. apply C. auto.
  - split.
    + intros a w b E Ha Hc. eapply (split_unique_last (fun x => answers (w_matcher x) o /\ carries x)); [apply Hpass, Hp|exact E|auto].
    + right. exists p, x. split; [reflexivity|]. split; [apply hit_answers, H1|]. exists q. auto.
  - exfalso. apply (Hno x e); [apply in_or_app; right; left; reflexivity|exact H1].
Qed.

Lemma completions_entries l : Forall app_entry l -> completions l = [].
Proof.
  induction 1 as [|x l Hx Hl IH]; [reflexivity|]. destruct x; try contradiction; exact IH.
Qed.
Lemma completions_map ws o : completions (map (fun w => OCompleted (w_id w) o) ws) = map w_id ws.
Proof. induction ws as [|w ws IH]; [reflexivity|]. cbn. f_equal. exact IH. Qed.
Lemma increasing_front a b : increasing (a ++ b) -> increasing a.
Proof.
  induction a as [|x a IH]; [intros _; exact I|]. cbn [app increasing]. intros [H1 H2]. split; [|apply IH, H2].
  intros y Hy. apply H1, in_or_app. left. exact Hy.
Qed.

Lemma message_completes cap s f o : 0 <= cap -> reachable cap s -> from_unpi_frame f = Ok o ->
  (forall w, In w (s_waiters s) -> has_fields (w_matcher w) o) ->
  let s' := fst (data_received s f) in
  exists pre post keep, offered o (s_waiters s) pre post /\
    s_waiters s' = filter keep (s_waiters s) /\
    (forall w, In w (s_waiters s) -> keep w = false <-> In w pre /\ answers (w_matcher w) o) /\
    (forall w, In w pre -> answers (w_matcher w) o ->
      s_futs s' (w_id w) = match s_futs s (w_id w) with FPending => FDone o | x => x end) /\
    (forall i, (forall w, In w pre -> answers (w_matcher w) o -> w_id w <> i) -> s_futs s' i = s_futs s i) /\
    exists ids, completions (s_log s') = completions (s_log s) ++ ids /\ increasing ids /\
      (forall i, In i ids <-> exists w, In w pre /\ answers (w_matcher w) o /\ w_id w = i).
Proof.
  intros Hc Hr Hf Hno. pose proof (reachable_inv cap s Hc Hr) as HI. pose proof (I_core _ _ HI) as (_ & _ & _ & Hid).
  destruct (data_received_spec s f o Hf Hid) as (pre & post & o' & r & l & E & Hst & W & F & _ & L & Hl). cbv zeta in *.
  destruct Hid as (_ & Hinc & _ & _).
  assert (Nd : NoDup (map w_id (s_waiters s))) by apply increasing_nodup, Hinc.
  assert (Huniq : forall x y, In x (s_waiters s) -> In y (s_waiters s) -> w_id x = w_id y -> x = y).
  { clear - Nd. induction (s_waiters s) as [|a l IH]; [intros x y []|]. cbn [map] in Nd. inversion Nd as [|? ? Ha Nl]; subst.
    intros x y [->|Hx] [->|Hy] Ei; try reflexivity.
    - exfalso. apply Ha. rewrite Ei. apply in_map, Hy.
    - exfalso. apply Ha. rewrite <- Ei. apply in_map, Hx.
    - apply IH; assumption. }
  exists pre, post, (fun w => negb (with_id (filter (hit o) pre) (w_id w))).
  assert (Hoff : offered o (s_waiters s) pre post).
  { rewrite E. eapply stopped_offered; [exact Hst|]. rewrite <- E. intros w e Hw. apply no_raise_ok, Hno, Hw. }
  assert (Hkeep : forall w, In w (s_waiters s) -> with_id (filter (hit o) pre) (w_id w) = true <-> In w pre /\ answers (w_matcher w) o).
  { intros w Hw. split.
    - intro H. apply existsb_exists in H as (x & Hx & Ex). apply filter_In in Hx as [Hx Hh]. apply Z.eqb_eq in Ex.
      assert (x = w) as <- by (apply Huniq; [rewrite E; apply in_or_app; left; exact Hx|exact Hw|exact Ex]).
      split; [exact Hx|apply hit_answers, Hh].
    - intros [Hp Ha]. apply existsb_exists. exists w. split; [|apply Z.eqb_refl]. apply filter_In. split; [exact Hp|apply hit_answers, Ha]. }
  split; [exact Hoff|]. split.
  { rewrite W, E, filter_app. f_equal.
    - apply filter_ext_in. intros w Hw. f_equal. assert (Hw' : In w (s_waiters s)) by (rewrite E; apply in_or_app; left; exact Hw).
      destruct (hit o w) eqn:Eh.
      + symmetry. apply Hkeep; [exact Hw'|]. split; [exact Hw|apply hit_answers, Eh].
      + destruct (with_id (filter (hit o) pre) (w_id w)) eqn:Ew; [|reflexivity]. apply Hkeep in Ew as [_ Ha]; [|exact Hw'].
        apply hit_answers in Ha. congruence.
    - symmetry. assert (Hp : forall w, In w post -> with_id (filter (hit o) pre) (w_id w) = false).
      { intros w Hw. destruct (with_id (filter (hit o) pre) (w_id w)) eqn:Ew; [|reflexivity]. exfalso.
        apply Hkeep in Ew as [Hp _]; [|rewrite E; apply in_or_app; right; exact Hw].
        rewrite E, map_app in Nd. apply in_split in Hp as (p1 & p2 & ->). rewrite map_app in Nd. cbn [map] in Nd.
        rewrite <- app_assoc in Nd. cbn [app] in Nd. apply NoDup_remove_2 in Nd. apply Nd. apply in_or_app. right. apply in_or_app.
        right. apply in_map, Hw. }
      clear - Hp. induction post as [|a l IH]; [reflexivity|]. cbn [filter]. rewrite (Hp a) by (left; reflexivity). cbn [negb]. f_equal.
      apply IH. intros w Hw. apply Hp. right. exact Hw. }
  split. { intros w Hw. rewrite negb_false_iff. apply Hkeep, Hw. }
  split. { intros w Hw Ha. rewrite F. rewrite (proj2 (Hkeep w (eq_ind_r (fun l => In w l) (in_or_app _ _ _ (or_introl Hw)) E)) (conj Hw Ha)). reflexivity. }
  split.
  { intros i Hi. rewrite F. destruct (with_id (filter (hit o) pre) i) eqn:Ew; [|reflexivity]. exfalso.
    apply existsb_exists in Ew as (x & Hx & Ex). apply filter_In in Hx as [Hx Hh]. apply Z.eqb_eq in Ex.
    apply (Hi x Hx); [apply hit_answers, Hh|exact Ex]. }
  exists (map w_id (filter (hit o) pre)). split; [|split].
  - rewrite L, completions_app. change (OReceived o :: map (fun w => OCompleted (w_id w) o) (filter (hit o) pre) ++ l)
      with ([OReceived o] ++ (map (fun w => OCompleted (w_id w) o) (filter (hit o) pre) ++ l)).
    rewrite !completions_app, completions_map, (completions_entries l Hl), app_nil_r. reflexivity.
  - apply increasing_filter. rewrite E, map_app in Hinc. eapply increasing_front, Hinc.
  - intro i. rewrite in_map_iff. split.
    + intros (w & Ei & Hw). apply filter_In in Hw as [Hw Hh]. exists w. split; [exact Hw|]. split; [apply hit_answers, Hh|exact Ei].
    + intros (w & Hw & Ha & Ei). exists w. split; [exact Ei|]. apply filter_In. split; [exact Hw|apply hit_answers, Ha].
Qed.

(** ** timers *)
Lemma waiter_timer cap s w : 0 <= cap -> reachable cap s -> In w (s_waiters s) ->
  exists at_, In (ORegistered (w_id w) at_ (w_timeout w)) (s_log s) /\ at_ <= s_now s /\
    In (at_ + w_timeout w + 100, w_id w) (s_timers s).
Proof. intros Hc Hr Hw. apply (proj2 (I_timed _ _ (reachable_inv cap s Hc Hr)) w Hw). Qed.
Lemma cleanup_only i s : let s' := step (ECleanup i) s in
  (s_waiters s' = s_waiters s \/ s_waiters s' = filter (fun w => negb (w_id w =? i)) (s_waiters s)) /\
  s_futs s' = s_futs s /\ s_tasks s' = s_tasks s /\ s_log s' = s_log s /\ s_lock s' = s_lock s /\ s_queue s' = s_queue s /\
  s_sem s' = s_sem s /\ s_wire s' = s_wire s /\ s_now s' = s_now s /\
  (forall d j, j <> i -> In (d, j) (s_timers s) -> In (d, j) (s_timers s')).
Proof.
  cbv zeta. cbn [step]. destruct (cleanup_nf i s) as [->|[_ ->]].
  - split; [left; reflexivity|]. repeat (split; [reflexivity|]). auto.
  - unfold cleaned. fld. split; [destruct (s_futs s i); auto|]. repeat (split; [reflexivity|]). intros d j Hne Hin.
    apply filter_In. split; [exact Hin|]. cbn [snd]. apply negb_true_iff, Z.eqb_neq, Hne.
Qed.
(** running the clean-up of [i] when due leaves nothing of a waiter [i] that is not completed *)
Lemma cleanup_due s d i : In (d, i) (s_timers s) -> d <= s_now s -> cleanup i s = cleaned i s.
Proof.
  intros Hin Hd. unfold cleanup.
  destruct (find (fun x => (snd x =? i) && (fst x <=? s_now s)) (s_timers s)) as [x|] eqn:E.
  - unfold cleaned, unregister. fld. destruct (s_futs s i); reflexivity.
  - exfalso. eapply find_none in E; [|exact Hin]. cbn [fst snd] in E. rewrite Z.eqb_refl in E. cbn [andb] in E. lia.
Qed.
Lemma cleanups_run cap is : forall s, Inv cap s -> 
  let s' := run (map ECleanup is) s in
  s_now s' = s_now s /\ s_log s' = s_log s /\ (forall w, In w (s_waiters s') -> In w (s_waiters s)) /\
  (forall w d, In w (s_waiters s') -> In (d, w_id w) (s_timers s) -> In (w_id w) is -> s_now s < d).
Proof.
  induction is as [|i is IH]; intros s HI; cbn [map run fold_left]; cbv zeta.
  - repeat split; auto. intros w d _ _ [].
  - change (fold_left (fun s e => step e s) (map ECleanup is) (step (ECleanup i) s)) with (run (map ECleanup is) (step (ECleanup i) s)).
    assert (HI1 : Inv cap (step (ECleanup i) s)) by (apply (inv_run cap [ECleanup i]), HI).
    specialize (IH _ HI1). cbv zeta in IH. destruct IH as (N & L & W & D).
    destruct (cleanup_only i s) as (Hw & _ & _ & Hl & _ & _ & _ & _ & Hn & Ht).
    split; [congruence|]. split; [congruence|].
    assert (Hsub : forall w, In w (s_waiters (step (ECleanup i) s)) -> In w (s_waiters s)).
    { intros w Hin. destruct Hw as [E|E]; rewrite E in Hin; [exact Hin|]. apply filter_In in Hin. apply Hin. }
    split; [auto|]. intros w d Hin Hd Hi. destruct (Z.eq_dec (w_id w) i) as [Ei|Hne].
    + destruct (Z_lt_le_dec (s_now s) d) as [Hlt|Hle]; [exact Hlt|exfalso]. apply W in Hin. cbn [step] in Hin.
      rewrite Ei in Hd. rewrite (cleanup_due s d i Hd Hle) in Hin. unfold cleaned in Hin. fldin Hin.
      destruct (s_futs s i) eqn:Ef.
      * apply filter_In in Hin as [_ Hin]. apply negb_true_iff, Z.eqb_neq in Hin. contradiction.
      * destruct (proj2 (I_timed _ _ HI) w Hin) as [U _]. rewrite Ei, Ef in U. exact U.
      * apply filter_In in Hin as [_ Hin]. apply negb_true_iff, Z.eqb_neq in Hin. contradiction.
    + rewrite <- Hn. apply (D w d Hin); [apply Ht; assumption|]. destruct Hi as [C|Hi]; [congruence|exact Hi].
Qed.
Lemma no_leak cap s w at_ to : 0 <= cap -> reachable cap s ->
  In w (s_waiters (run (map ECleanup (map snd (s_timers s))) s)) -> In (ORegistered (w_id w) at_ to) (s_log s) ->
  s_now s < at_ + to + 100.
Proof.
  intros Hc Hr Hin Hreg. pose proof (reachable_inv cap s Hc Hr) as HI.
  destruct (cleanups_run cap (map snd (s_timers s)) s HI) as (_ & _ & W & D).
  destruct (proj2 (I_timed _ _ HI) w (W w Hin)) as (_ & a & Hr' & _ & Ht).
  destruct (registered_once s (I_regs _ _ HI) _ _ _ _ _ Hreg Hr') as [-> ->].
  apply (D w _ Hin Ht). apply in_map_iff. eexists. split; [|exact Ht]. reflexivity.
Qed.
