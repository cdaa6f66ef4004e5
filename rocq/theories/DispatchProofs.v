(** * DispatchProofs: what a received message does to the waiters *)
From Coq Require Import ZifyBool ZifyNat.
From Verif Require Import Base Types Uart Buffalo CmdTable Zpi Api App Machine SpecApi SpecMachine ApiProofs AppProofs
  MachineBase MachineInv MachineInv2 MachineInv3 MachineInv4 MachineInv5.

(** ** comparing values *)
Lemma list_eqb (a b : list Z) : (if list_eq_dec Z.eq_dec a b then true else false) = true <-> a = b.
Proof. destruct (list_eq_dec Z.eq_dec a b); split; congruence. Qed.
Lemma neighbor_same a b : neighbor_eqb a b = true <-> a = b.
Proof.
  unfold neighbor_eqb. rewrite !andb_true_iff, !list_eqb, !Z.eqb_eq. split; [|intros ->; repeat split].
  destruct a, b. cbn. intros ((((((((-> & ->) & ->) & ->) & ->) & ->) & ->) & ->) & ->). reflexivity.
Qed.
Lemma neighbors_same : forall a b, neighbors_eqb a b = true <-> a = b.
Proof.
  induction a as [|x a IH]; intros [|y b]; cbn [neighbors_eqb]; try (split; congruence).
  rewrite andb_true_iff, neighbor_same, IH. split; [intros [-> ->]; reflexivity|intros [= -> ->]; split; reflexivity].
Qed.
Lemma value_same a b : value_eqb a b = true <-> same_value a b.
Proof.
  split.
  - destruct a as [x|x|[|z x]|[|z x]|[|z x]], b as [y|y|[|u y]|[|u y]|[|u y]]; cbn [value_eqb]; try discriminate;
      try (rewrite Z.eqb_eq; intros ->; constructor); try (rewrite list_eqb; intros E; rewrite E; first [constructor|eapply same_list; constructor]);
      try (rewrite neighbors_same; intros E; rewrite E; constructor); intros _; apply (same_list _ _ []); constructor.
  - intros [z|l|a' b' l [q|q|] Hb|l]; cbn [value_eqb].
    + apply Z.eqb_refl.
    + apply list_eqb. reflexivity.
    + inversion Hb; subst; try destruct q; cbn [value_eqb]; try apply list_eqb; reflexivity.
    + inversion Hb; subst; try destruct q; cbn [value_eqb]; try apply list_eqb; reflexivity.
    + inversion Hb; reflexivity.
    + destruct l; apply neighbors_same; reflexivity.
Qed.

(** ** matching *)
Lemma match_payload_true e d : match_payload e d = Ok true <->
  Forall (fun fv => exists x, dict_get d (fst fv) = Some x /\ same_value (snd fv) x) e.
Proof.
  induction e as [|[f v] e IH]; cbn [match_payload].
  - split; [constructor|reflexivity].
  - unfold dict_getE. destruct (dict_get d f) as [x|] eqn:E; cbn [bind].
    + destruct (value_eqb v x) eqn:Ev.
      * rewrite IH. apply value_same in Ev. split; [intro H; constructor; [exists x; auto|exact H]|intro H; inversion H; assumption].
      * split; [discriminate|]. intro H. inversion H as [|? ? (y & Ey & Hy) _]; subst. cbn [fst snd] in *. apply value_same in Hy. congruence.
    + split; [discriminate|]. intro H. inversion H as [|? ? (y & Ey & Hy) _]; subst. cbn [fst snd] in *. congruence.
Qed.
Lemma match_answers m o : waiter_match m o = Ok true <-> answers m o.
Proof.
  unfold waiter_match, answers.
  destruct (ct_eqb_spec (m_type m) (z_type o)) as [E1|N1]; cbn [negb orb]; [|split; [discriminate|tauto]].
  destruct (sub_eqb_spec (m_sub m) (z_sub o)) as [E2|N2]; cbn [negb orb]; [|split; [discriminate|tauto]].
  destruct (String.eqb_spec (m_cmd m) (z_cmd o)) as [E3|N3]; cbn [negb orb]; [|split; [discriminate|tauto]].
  rewrite match_payload_true. tauto.
Qed.

(** ** several completions at once *)
Definition hit (o : zpi) (w : waiter) : bool := match waiter_match (w_matcher w) o with Ok b => b | Err _ => false end.
Lemma hit_answers o w : hit o w = true <-> answers (w_matcher w) o.
Proof.
  unfold hit. rewrite <- match_answers. destruct (waiter_match (w_matcher w) o) as [[]|]; split; congruence.
Qed.
Definition with_id (ws : list waiter) (i : Z) : bool := existsb (fun w => w_id w =? i) ws.
Definition completes (ws : list waiter) (o : zpi) (s : st) : st := fold_left (fun s w => completed (w_id w) o s) ws s.
Lemma completes_cons w ws o s : completes (w :: ws) o s = completes ws o (completed (w_id w) o s).
Proof. reflexivity. Qed.

Lemma filter_filter {A} (p q : A -> bool) l : filter p (filter q l) = filter (fun x => q x && p x) l.
Proof.
  induction l as [|a l IH]; cbn [filter]; [reflexivity|]. destruct (q a) eqn:E; cbn [filter andb]; [|exact IH].
  destruct (p a); [f_equal|]; exact IH.
Qed.
Lemma set3 a b f g w v s : set_log a (set_futs f (set_waiters w (set_log b (set_futs g (set_waiters v s))))) = set_log a (set_futs f (set_waiters w s)).
Proof. destruct s. reflexivity. Qed.
Lemma completes_nf ws o : forall s, completes ws o s =
  set_log (s_log s ++ map (fun w => OCompleted (w_id w) o) ws)
    (set_futs (s_futs (completes ws o s)) (set_waiters (filter (fun w => negb (with_id ws (w_id w))) (s_waiters s)) s)).
Proof.
  induction ws as [|w ws IH]; intro s.
  - cbn [map completes fold_left]. rewrite app_nil_r. unfold completes. cbn [fold_left].
    replace (filter (fun w => negb (with_id [] (w_id w))) (s_waiters s)) with (s_waiters s); [destruct s; reflexivity|].
    induction (s_waiters s) as [|a l IHl]; cbn [filter with_id existsb negb]; [reflexivity|]. f_equal. exact IHl.
  - rewrite completes_cons. specialize (IH (completed (w_id w) o s)).
    set (X := completes ws o (completed (w_id w) o s)) in *. clearbody X. generalize (s_futs X) IH. clear IH.
    intros F IH. rewrite IH. clear IH X. unfold completed, unregister, note. rewrite set3. fld. cbn [map].
    rewrite <- app_assoc. cbn [app].
    rewrite filter_filter. f_equal. f_equal. f_equal. apply filter_ext. intro a. cbn [with_id existsb].
    rewrite negb_orb, (Z.eqb_sym (w_id w)). reflexivity.
Qed.
Lemma completes_futs ws o : NoDup (map w_id ws) -> forall s i, s_futs (completes ws o s) i =
  if with_id ws i then match s_futs s i with FPending => FDone o | f => f end else s_futs s i.
Proof.
  induction ws as [|w ws IH]; intros Nd s i; [reflexivity|]. cbn [map] in Nd. inversion Nd as [|? ? Hw Nd']; subst.
  rewrite completes_cons, IH by exact Nd'. cbn [with_id existsb]. fold (with_id ws i).
  unfold completed, unregister, note. fld. unfold resulted, upd. rewrite (Z.eqb_sym i).
  destruct (Z.eqb_spec (w_id w) i) as [Ei|Hne]; cbn [orb]; [|reflexivity].
  destruct (with_id ws i) eqn:E; [|rewrite Ei; reflexivity]. exfalso. apply Hw. apply existsb_exists in E as (x & Hx & Ex).
  apply Z.eqb_eq in Ex. rewrite Ei, <- Ex. apply in_map, Hx.
Qed.

(** ** the loop over the waiters *)
Definition usable (w : waiter) : bool := match w_seq w with Some q => negb (q =? 0) | None => false end.
Lemma usable_carries w : usable w = true <-> carries w.
Proof.
  unfold usable, carries. destruct (w_seq w) as [q|].
  - rewrite negb_true_iff, Z.eqb_neq. split; [eauto|]. intros (x & [= ->] & H). exact H.
  - split; [discriminate|]. intros (x & C & _). discriminate C.
Qed.
Definition passed (o : zpi) (w : waiter) : Prop :=
  (exists b, waiter_match (w_matcher w) o = Ok b) /\ (hit o w = true -> usable w = false).
Inductive stopped (o : zpi) : list waiter -> list waiter -> zpi -> result unit -> Prop :=
| S_end pre : Forall (passed o) pre -> stopped o pre [] o (Ok tt)
| S_seq pre w q post : Forall (passed o) pre -> hit o w = true -> w_seq w = Some q -> q <> 0 ->
    stopped o (pre ++ [w]) post (with_seq o (Some q)) (Ok tt)
| S_raise pre w e post : Forall (passed o) pre -> waiter_match (w_matcher w) o = Err e -> stopped o pre (w :: post) o (Err e).
Lemma stopped_cons o w pre post o' r : passed o w -> stopped o pre post o' r -> stopped o (w :: pre) post o' r.
Proof.
  intros Hw [p Hp|p x q po Hp H1 H2 H3|p x e po Hp H1].
  - apply S_end. constructor; assumption.
  - apply (S_seq o (w :: p)); try assumption. constructor; assumption.
  - apply S_raise; [constructor; assumption|assumption].
Qed.
Lemma dispatch_spec o ws : forall s, exists pre post o' r,
  ws = pre ++ post /\ dispatch ws o s = (completes (filter (hit o) pre) o s, o', r) /\ stopped o pre post o' r.
Proof.
  induction ws as [|w ws IH]; intro s; cbn [dispatch].
  - exists [], [], o, (Ok tt). repeat split. apply S_end. constructor.
  - destruct (waiter_match (w_matcher w) o) as [[]|e] eqn:Hm.
    + rewrite complete_nf. assert (Hh : hit o w = true) by (unfold hit; rewrite Hm; reflexivity).
      assert (Hgo : usable w = false -> exists pre post o' r, w :: ws = pre ++ post /\
        dispatch ws o (completed (w_id w) o s) = (completes (filter (hit o) pre) o s, o', r) /\ stopped o pre post o' r).
      { intro Hu. destruct (IH (completed (w_id w) o s)) as (pre & post & o' & r & -> & E & Hst).
        exists (w :: pre), post, o', r. split; [reflexivity|]. split; [cbn [filter]; rewrite Hh; exact E|].
        apply stopped_cons; [split; [eauto|auto]|exact Hst]. }
      unfold usable in Hgo. destruct (w_seq w) as [q|] eqn:Eq; [|apply Hgo; reflexivity].
      destruct (Z.eqb_spec q 0) as [->|Hq]; [apply Hgo; reflexivity|].
      exists [w], ws, (with_seq o (Some q)), (Ok tt). split; [reflexivity|]. cbn [filter]. rewrite Hh. split; [reflexivity|].
      apply (S_seq o [] w q); auto.
    + destruct (IH s) as (pre & post & o' & r & -> & E & Hst). exists (w :: pre), post, o', r. split; [reflexivity|].
      assert (Hh : hit o w = false) by (unfold hit; rewrite Hm; reflexivity).
      cbn [filter]. rewrite Hh. split; [exact E|]. apply stopped_cons; [|exact Hst]. split; [eauto|congruence].
    + exists [], (w :: ws), o, (Err e). split; [reflexivity|]. split; [reflexivity|]. apply S_raise; [constructor|exact Hm].
Qed.

(** ** effects of the application *)
Definition app_entry (x : obs) : Prop := match x with OEffect _ | OCalled _ => True | _ => False end.
Lemma effects_keep es : forall s,
  let s' := fold_left (fun s e => do_effect e s) es s in
  s_waiters s' = s_waiters s /\ s_futs s' = s_futs s /\ s_now s' = s_now s /\ s_next s' = s_next s /\ s_timers s' = s_timers s /\
  s_devs s' = s_devs s /\ s_version s' = s_version s /\ s_app s' = s_app s /\ s_lock s' = s_lock s /\ s_queue s' = s_queue s /\
  s_sem s' = s_sem s /\ s_open s' = s_open s /\
  exists l, s_log s' = s_log s ++ l /\ Forall app_entry l /\
    messages l = flat_map (fun e => match e with EMsg _ _ _ _ _ _ _ d => [d] | _ => [] end) es /\
    (forall e, In e es -> In (OEffect e) l) /\ (forall e, In (OEffect e) l -> In e es).
Proof.
  induction es as [|e es IH]; intro s; cbn [fold_left]; cbv zeta.
  - repeat (split; [reflexivity|]). exists []. rewrite app_nil_r. repeat split; try constructor; intros ? [].
  - specialize (IH (do_effect e s)). cbv zeta in IH.
    destruct IH as (A1 & A2 & A3 & A4 & A5 & A6 & A7 & A8 & A9 & A10 & A11 & A12 & l & El & Fl & Ml & H1 & H2).
    rewrite A1, A2, A3, A4, A5, A6, A7, A8, A9, A10, A11, A12.
    destruct e; repeat (split; [reflexivity|]); rewrite El; unfold do_effect; unfold spawn, note; fld; repeat rewrite <- app_assoc; cbn [app];
      eexists; (split; [reflexivity|]); (split; [repeat constructor; exact Fl|]);
      (split; [cbn [messages flat_map app]; fold (messages l); rewrite Ml; reflexivity|]);
      (split; [intros e0 [<-|He]; cbn [In]; eauto|]); intros e0 He; cbn [In] in He;
      repeat (destruct He as [He|He]); try discriminate He; try (injection He as <-; left; reflexivity); right; apply H2, He.
Qed.
Lemma app_handle_keep o s : 
  let s' := fst (app_handle o s) in
  s_waiters s' = s_waiters s /\ s_futs s' = s_futs s /\ s_now s' = s_now s /\
  exists l, s_log s' = s_log s ++ l /\ Forall app_entry l.
Proof.
  unfold app_handle. destruct (s_app s); cbv zeta; cbn [fst].
  - destruct (handle_znp (s_version s) (s_devs s) o) as [[d es] r]. cbn [fst].
    destruct (effects_keep es (set_devs d s)) as (A1 & A2 & A3 & _ & _ & _ & _ & _ & _ & _ & _ & _ & l & El & Fl & _).
    rewrite A1, A2, A3, El. repeat (split; [reflexivity|]). exists l. auto.
  - repeat (split; [reflexivity|]). exists []. rewrite app_nil_r. split; [reflexivity|constructor].
Qed.

Lemma nodup_front {A} (a b : list A) : NoDup (a ++ b) -> NoDup a.
Proof.
  induction a as [|x a IH]; cbn [app]; intro H; [constructor|]. inversion H as [|? ? Hx Hn]; subst.
  constructor; [|apply IH, Hn]. intro C. apply Hx, in_or_app. left. exact C.
Qed.

(** ** one message *)
Lemma data_received_spec s f o : from_unpi_frame f = Ok o -> Ids s -> exists pre post o' r l,
  let s' := fst (data_received s f) in
  s_waiters s = pre ++ post /\ stopped o pre post o' r /\
  s_waiters s' = filter (fun w => negb (hit o w)) pre ++ post /\
  (forall i, s_futs s' i = if with_id (filter (hit o) pre) i then match s_futs s i with FPending => FDone o | x => x end else s_futs s i) /\
  s_now s' = s_now s /\
  s_log s' = s_log s ++ OReceived o :: map (fun w => OCompleted (w_id w) o) (filter (hit o) pre) ++ l /\ Forall app_entry l.
Proof.
  intros Hf (_ & Hinc & _ & _). unfold data_received. rewrite Hf. 
  destruct (dispatch_spec o (s_waiters (note (OReceived o) s)) (note (OReceived o) s)) as (pre & post & o' & r & E & Ed & Hst).
  change (s_waiters (note (OReceived o) s)) with (s_waiters s) in *.
  rewrite Ed. exists pre, post, o', r.
  assert (Nd : NoDup (map w_id pre ++ map w_id post)) by (rewrite <- map_app, <- E; apply increasing_nodup, Hinc).
  assert (Ndh : NoDup (map w_id (filter (hit o) pre))).
  { rewrite E, map_app in Hinc. assert (Hi : increasing (map w_id pre)).
    { clear - Hinc. induction (map w_id pre) as [|a l IH]; [exact I|]. cbn [app increasing] in *. destruct Hinc as [H1 H2].
      split; [intros y Hy; apply H1, in_or_app; left; exact Hy|apply IH, H2]. }
    apply increasing_nodup, increasing_filter, Hi. }
  set (s1 := completes (filter (hit o) pre) o (note (OReceived o) s)).
  assert (W1 : s_waiters s1 = filter (fun w => negb (hit o w)) pre ++ post).
  { unfold s1. rewrite completes_nf. fld. change (s_waiters (note (OReceived o) s)) with (s_waiters s). rewrite E, filter_app. f_equal.
    - apply filter_ext_in. intros w Hw. f_equal. destruct (hit o w) eqn:Eh.
      + apply existsb_exists. exists w. split; [apply filter_In; auto|apply Z.eqb_refl].
      + destruct (with_id (filter (hit o) pre) (w_id w)) eqn:Ew; [|reflexivity]. exfalso.
        apply existsb_exists in Ew as (x & Hx & Ex). apply filter_In in Hx as [Hx Hxh]. apply Z.eqb_eq in Ex.
        assert (x = w); [|congruence].
        assert (Np : NoDup (map w_id pre)) by (eapply nodup_front, Nd).
        clear - Hx Hw Ex Np. induction pre as [|a l IH]; [destruct Hx|]. cbn [map] in Np. inversion Np as [|? ? Ha Nl]; subst.
        destruct Hx as [->|Hx], Hw as [->|Hw]; try reflexivity.
        * exfalso. apply Ha. rewrite Ex. apply in_map, Hw.
        * exfalso. apply Ha. rewrite <- Ex. apply in_map, Hx.
        * apply IH; assumption.
    - assert (Hp : forall w, In w post -> with_id (filter (hit o) pre) (w_id w) = false).
      { intros w Hw. destruct (with_id (filter (hit o) pre) (w_id w)) eqn:Ew; [|reflexivity]. exfalso.
        apply existsb_exists in Ew as (x & Hx & Ex). apply filter_In in Hx as [Hx _]. apply Z.eqb_eq in Ex.
        apply in_split in Hx as (p1 & p2 & ->). rewrite map_app in Nd. cbn [map] in Nd. rewrite <- app_assoc in Nd. cbn [app] in Nd.
        apply NoDup_remove_2 in Nd. apply Nd. rewrite Ex. apply in_or_app. right. apply in_or_app. right. apply in_map, Hw. }
      clear - Hp. induction post as [|a l IH]; [reflexivity|]. cbn [filter]. rewrite (Hp a) by (left; reflexivity). cbn [negb]. f_equal.
      apply IH. intros w Hw. apply Hp. right. exact Hw. }
  assert (F1 : forall i, s_futs s1 i = if with_id (filter (hit o) pre) i then match s_futs s i with FPending => FDone o | x => x end else s_futs s i).
  { intro i. unfold s1. rewrite completes_futs by exact Ndh. reflexivity. }
  assert (L1 : s_log s1 = s_log s ++ OReceived o :: map (fun w => OCompleted (w_id w) o) (filter (hit o) pre)).
  { unfold s1. rewrite completes_nf. unfold note. fld. rewrite <- app_assoc. reflexivity. }
  assert (N1 : s_now s1 = s_now s) by (unfold s1; rewrite completes_nf; reflexivity).
  destruct r as [[]|e].
  - destruct (app_handle_keep o' s1) as (A1 & A2 & A3 & l & El & Fl). exists l. cbv zeta. rewrite A1, A2, A3, El, W1, N1, L1.
    split; [exact E|]. split; [exact Hst|]. split; [reflexivity|]. split; [exact F1|]. split; [reflexivity|].
    split; [|exact Fl]. repeat (rewrite <- app_assoc; cbn [app]). reflexivity.
  - exists []. cbv zeta. cbn [fst]. rewrite W1, N1, L1, app_nil_r.
    split; [exact E|]. split; [exact Hst|]. split; [reflexivity|]. split; [exact F1|]. split; [reflexivity|]. split; [reflexivity|constructor].
Qed.

(** ** who takes a waiter out of the table *)
Definition kept (w : waiter) (s : st) : Prop := In w (s_waiters s).
Lemma waiters_goto t p s : s_waiters (goto t p s) = s_waiters s.
Proof. unfold goto. destruct (get s t); reflexivity. Qed.
Lemma waiters_free_sem j s : s_waiters (free_sem j s) = s_waiters s.
Proof. rewrite free_sem_nf. reflexivity. Qed.
Lemma waiters_free_lock t s : s_waiters (free_lock t s) = s_waiters s.
Proof. unfold free_lock, note. fld. apply waiters_goto. Qed.
Lemma waiters_finish t r s : s_waiters (finish t r s) = s_waiters s.
Proof. unfold finish, note. fld. apply waiters_goto. Qed.
Lemma waiters_raw_raise t j e s : s_waiters (raw_raise t j e s) = s_waiters s.
Proof. unfold raw_raise. rewrite waiters_finish, waiters_free_sem. apply waiters_free_lock. Qed.
Lemma waiters_raw_return t j r s : s_waiters (raw_return t j r s) = s_waiters s.
Proof.
  unfold raw_return. destruct (settles j); [rewrite waiters_goto; apply waiters_free_lock|].
  rewrite waiters_finish, waiters_free_sem. apply waiters_free_lock.
Qed.
Lemma kept_wait_for w m to q s : kept w s -> kept w (wait_for m to q s).
Proof. intro H. unfold kept. fld. apply in_or_app. left. exact H. Qed.
Lemma waiters_uart_send t f s : s_waiters (fst (uart_send t f s)) = s_waiters s.
Proof.
  destruct (uart_send_cases t f s) as [[_ E]|[[_ (bs & _ & E)]|[_ (e & _ & E)]]]; rewrite E; reflexivity.
Qed.
Lemma kept_send_and_wait w t j f m to s : kept w s -> kept w (send_and_wait t j f m to s).
Proof.
  intro H. unfold send_and_wait. pose proof (waiters_uart_send t f (wait_for m to None s)) as E.
  destruct (uart_send t f (wait_for m to None s)) as [s1 [r|e]]; cbn [fst] in E; unfold kept.
  - rewrite waiters_goto, E. apply kept_wait_for, H.
  - rewrite waiters_raw_raise, E. apply kept_wait_for, H.
Qed.
Lemma kept_request_raw w t j o s : kept w s -> kept w (request_raw t j o s).
Proof.
  intro H. unfold request_raw. destruct (to_unpi_frame o) as [f|e]; [|unfold kept; rewrite waiters_raw_raise; exact H].
  destruct (z_type o); try (unfold kept; rewrite waiters_raw_raise; exact H); [apply kept_send_and_wait, H|].
  destruct (is_reset_command o); [apply kept_send_and_wait, H|]. pose proof (waiters_uart_send t f s) as E.
  destruct (uart_send t f s) as [s1 [r|e]]; cbn [fst] in E; unfold kept;
    [rewrite waiters_raw_return, E|rewrite waiters_raw_raise, E]; exact H.
Qed.
Lemma kept_granted w t k s : kept w s -> kept w (granted t k s).
Proof.
  intro H. unfold granted. destruct (t_obj k); [apply kept_request_raw|]; unfold kept, note; fld; rewrite waiters_goto; exact H.
Qed.
Lemma kept_acquire_lock w t k s : kept w s -> kept w (acquire_lock t k s).
Proof.
  intro H. unfold acquire_lock. destruct (s_lock s).
  - unfold kept, note. fld. rewrite waiters_goto. exact H.
  - destruct (s_queue s); [apply kept_granted, H|]. unfold kept, note. fld. rewrite waiters_goto. exact H.
Qed.
Lemma kept_acquire_sem w t k s : kept w s -> kept w (acquire_sem t k s).
Proof.
  intro H. unfold acquire_sem. destruct (uses_sem (t_job k)); [destruct (0 <? s_sem s); [|exact H]|];
    apply kept_acquire_lock; unfold kept, note; fld; rewrite waiters_goto; exact H.
Qed.
Lemma kept_start w t k s : kept w s -> kept w (start t k s).
Proof.
  intro H. unfold start.
  assert (Hmain : forall j, kept w
    (match build j with
     | Err e => finish t (OExn e) s
     | Ok o =>
       match response_waiter j o with
       | Err e => finish t (OExn e) s
       | Ok None => let k := mk_task j PSem (Some o) None in acquire_sem t k (prepared t k s)
       | Ok (Some (m, sequence)) =>
           let k := mk_task j PSem (Some o) (Some (s_next s)) in
           acquire_sem t k (prepared t k (wait_for m Timeouts_default sequence s))
       end
     end)).
  { intro j. destruct (build j) as [o|e]; [|unfold kept; rewrite waiters_finish; exact H].
    destruct (response_waiter j o) as [[[m q]|]|e]; cbv zeta; [| |unfold kept; rewrite waiters_finish; exact H].
    - apply kept_acquire_sem. apply (kept_wait_for w m Timeouts_default q s H).
    - apply kept_acquire_sem. exact H. }
  destruct (t_job k); try apply Hmain. unfold kept. rewrite waiters_goto. apply kept_wait_for, H.
Qed.

(** the only ways a waiter leaves the table within one step *)
Definition answered (w : waiter) (s s' : st) : Prop :=
  exists la r lb, s_log s' = s_log s ++ la ++ OCompleted (w_id w) r :: lb /\ In (OReceived r) la /\ answers (w_matcher w) r.
Definition refused (w : waiter) (s s' : st) : Prop :=
  exists t k c, get s' t = Some k /\ t_wid k = Some (w_id w) /\ t_phase k = PDone (outcome_of_exn (t_job k) (CommandError c)).
Lemma resume_gone s t w : kept w s -> kept w (resume t s) \/ refused w s (resume t s).
Proof.
  intro H. unfold resume. destruct (get s t) as [k|] eqn:G; [|left; exact H].
  destruct (t_phase k) eqn:Hp; try (left; exact H).
  - left. apply kept_start, H.
  - left. apply kept_acquire_sem, H.
  - left. destruct (s_lock s); [exact H|]. destruct (s_queue s); [exact H|]. destruct (z =? t); [|exact H]. apply kept_granted. exact H.
  - destruct (s_futs s i) as [|r|]; try (left; exact H). destruct (t_obj k) as [o|]; [|left; exact H].
    unfold request_raw_resume. destruct (z_type o); try (left; unfold kept; rewrite waiters_raw_return; exact H).
    destruct (unexpected_status r (expected_of (t_job k))) as [c|]; [|left; unfold kept; rewrite waiters_raw_return; exact H].
    destruct (t_wid k) as [j|] eqn:Ew; [|left; unfold kept; rewrite waiters_raw_raise; exact H].
    destruct (registered s j); [|left; unfold kept; rewrite waiters_raw_raise; exact H].
    rewrite complete_nf. destruct (Z.eq_dec j (w_id w)) as [->|Hne].
    + right. rewrite raw_raise_nf by exact G. 
      exists t, (mk_task (t_job k) (PDone (outcome_of_exn (t_job k) (CommandError c))) (t_obj k) (t_wid k)), c.
      split; [|split; [exact Ew|reflexivity]]. unfold done. 
      change (get (put t (mk_task (t_job k) (PDone (outcome_of_exn (t_job k) (CommandError c))) (t_obj k) (t_wid k)) (sem_back (t_job k) (freed t (completed (w_id w) r s)))) t =
        Some (mk_task (t_job k) (PDone (outcome_of_exn (t_job k) (CommandError c))) (t_obj k) (t_wid k))).
      rewrite (get_put _ _ _ k) by exact G. rewrite Z.eqb_refl. reflexivity.
    + left. unfold kept. rewrite waiters_raw_raise. unfold completed, unregister, note. fld. apply filter_In. split; [exact H|].
      apply negb_true_iff, Z.eqb_neq. congruence.
  - destruct (until <=? s_now s); left; [|exact H]. unfold kept. rewrite waiters_finish, waiters_free_sem. exact H.
  - left. unfold kept. rewrite waiters_goto. exact H.
  - left. destruct (s_futs s i); try exact H. unfold kept. rewrite waiters_finish. exact H.
Qed.
Lemma timeout_kept s t w : kept w s -> kept w (wait_timeout t s).
Proof.
  intro H. unfold wait_timeout. destruct (get s t) as [k|]; [|exact H].
  destruct (t_phase k); try exact H; destruct (s_futs s i); try exact H; destruct (deadline <=? s_now s); try exact H;
    rewrite cancel_fut_nf; unfold kept; [rewrite waiters_raw_raise|rewrite waiters_finish]; exact H.
Qed.
Lemma cancel_kept s t w : kept w s -> kept w (cancel t s).
Proof.
  intro H. unfold cancel. destruct (get s t) as [k|]; [|exact H].
  destruct (t_phase k); try exact H; try rewrite cancel_fut_nf; unfold kept;
    first [rewrite waiters_raw_raise|rewrite waiters_finish]; try rewrite waiters_free_sem; exact H.
Qed.
Lemma data_received_gone s f w : Ids s -> kept w s -> kept w (fst (data_received s f)) \/ answered w s (fst (data_received s f)).
Proof.
  intros Hid H. destruct (from_unpi_frame f) as [o|e] eqn:Hf; [|left; unfold data_received; rewrite Hf; exact H].
  destruct (data_received_spec s f o Hf Hid) as (pre & post & o' & r & l & E & Hst & W & _ & _ & L & _). cbv zeta in *.
  unfold kept in *. rewrite W. rewrite E in H. apply in_app_or in H as [H|H]; [|left; apply in_or_app; right; exact H].
  destruct (hit o w) eqn:Eh.
  - right. assert (Hw : In w (filter (hit o) pre)) by (apply filter_In; auto). apply in_split in Hw as (a & b & Ew).
    exists (OReceived o :: map (fun w => OCompleted (w_id w) o) a), o, (map (fun w => OCompleted (w_id w) o) b ++ l).
    rewrite L, Ew, map_app. cbn [map]. split; [f_equal; cbn [app]; f_equal; rewrite <- app_assoc; reflexivity|].
    split; [left; reflexivity|]. apply hit_answers, Eh.
  - left. apply in_or_app. left. apply filter_In. rewrite Eh. auto.
Qed.
Lemma gw_gone bs : forall s b w, Core s -> kept w s ->
  let s' := snd (fst (gw_data_received data_received b s bs)) in kept w s' \/ answered w s s'.
Proof.
  induction bs as [|x bs IH]; intros s b w Hc H; cbn [gw_data_received]; cbv zeta; [left; exact H|].
  destruct (parser_write b x) as [b1 [[f|]|e]]; [|apply IH; assumption|left; exact H].
  pose proof (data_received_gone s f w (proj2 (proj2 (proj2 Hc))) H) as Hg.
  pose proof (data_received_prims s f Hc) as Hp. destruct (data_received s f) as [s1 [[]|e]]; cbn [fst] in *; [|exact Hg].
  assert (Hc1 : Core s1) by (eapply core_prims; eassumption).
  destruct Hg as [Hk|(la & r & lb & L & Hr & Ha)].
  - destruct (IH s1 b1 w Hc1 Hk) as [Hk2|(la & r & lb & L & Hr & Ha)]; [left; exact Hk2|right].
    destruct (log_prims _ _ Hp) as [l0 E0]. exists (l0 ++ la), r, lb. rewrite L, E0. repeat rewrite <- app_assoc.
    split; [reflexivity|]. split; [apply in_or_app; right; exact Hr|exact Ha].
  - right. pose proof (gw_prims bs s1 b1 Hc1) as Hp2. destruct (log_prims _ _ Hp2) as [l0 E0].
    exists la, r, (lb ++ l0). rewrite E0, L. repeat (rewrite <- app_assoc; cbn [app]). auto.
Qed.

Definition expired (w : waiter) (s s' : st) : Prop :=
  forall at_ to, In (ORegistered (w_id w) at_ to) (s_log s) -> at_ + to + 100 <= s_now s'.
Lemma step_gone cap s e w : Inv cap s -> kept w s ->
  kept w (step e s) \/ answered w s (step e s) \/ expired w s (step e s) \/ refused w s (step e s).
Proof.
  intros HI H. assert (Hc : Core s) by apply HI. destruct e; cbn [step]; try (left; exact H).
  - destruct (resume_gone s t w H); auto.
  - left. apply timeout_kept, H.
  - left. apply cancel_kept, H.
  - destruct (cleanup_nf i s) as [->|[(d & Hd & Hle) ->]]; [left; exact H|]. destruct (Z.eq_dec (w_id w) i) as [Ei|Hne].
    + right. right. left. intros a to Hr. unfold cleaned. fld.
      eapply due_registered; [apply HI|apply HI|exact Hd|exact Hle|]. rewrite <- Ei. exact Hr.
    + left. unfold cleaned, kept. fld. assert (Hf : In w (filter (fun w => negb (w_id w =? i)) (s_waiters s))).
      { apply filter_In. split; [exact H|]. apply negb_true_iff, Z.eqb_neq, Hne. }
      destruct (s_futs s i); assumption.
  - destruct (0 <=? ms); left; exact H.
  - unfold receive. pose proof (gw_gone data s (s_buf s) w Hc H) as Hg. cbv zeta in Hg.
    destruct (gw_data_received data_received (s_buf s) s data) as [[b s1] r]. cbn [fst snd] in Hg.
    destruct Hg as [Hk|(la & x & lb & L & Hr & Ha)]; [left; destruct r; exact Hk|]. right. left. unfold answered.
    destruct r; unfold note; fld; rewrite L.
    + exists la, x, lb. auto.
    + exists la, x, (lb ++ [ORaised e]). repeat (rewrite <- app_assoc; cbn [app]). auto.
Qed.

(** over any number of steps *)
Lemma answered_later w s s1 s2 : answered w s s1 -> grows (s_log s1) (s_log s2) -> answered w s s2.
Proof.
  intros (la & r & lb & L & Hr & Ha) [x E]. exists la, r, (lb ++ x). rewrite E, L. repeat (rewrite <- app_assoc; cbn [app]). auto.
Qed.
Lemma answered_earlier w s s1 s2 : grows (s_log s) (s_log s1) -> answered w s1 s2 -> answered w s s2.
Proof.
  intros [x E] (la & r & lb & L & Hr & Ha). exists (x ++ la), r, lb. rewrite L, E. repeat rewrite <- app_assoc. split; [reflexivity|].
  split; [apply in_or_app; right; exact Hr|exact Ha].
Qed.
Lemma run_gone cap es : forall s w, Inv cap s -> kept w s ->
  kept w (run es s) \/ answered w s (run es s) \/ expired w s (run es s) \/ refused w s (run es s).
Proof.
  induction es as [|e es IH]; intros s w HI H; [left; exact H|]. cbn [run fold_left].
  change (fold_left (fun s e => step e s) es (step e s)) with (run es (step e s)).
  assert (Hc : Core s) by apply HI.
  pose proof (step_prims e s Hc) as Hp. assert (HI1 : Inv cap (step e s)) by (eapply inv_prims; eassumption).
  pose proof (run_prims es (step e s) (I_core _ _ HI1)) as Hp2.
  destruct (step_gone cap s e w HI H) as [Hk|[Ha|[He|(t & k & c & G & Ew & Ep)]]].
  - destruct (IH (step e s) w HI1 Hk) as [Hk2|[Ha|[He|Hr]]]; [left; exact Hk2|right; left|right; right; left|right; right; right].
    + eapply answered_earlier; [apply log_prims, Hp|exact Ha].
    + intros a to Hin. apply He. eapply grows_in; [apply log_prims, Hp|exact Hin].
    + exact Hr.
  - right. left. eapply answered_later; [exact Ha|apply log_prims, Hp2].
  - right. right. left. intros a to Hin. specialize (He a to Hin). apply now_prims in Hp2. lia.
  - right. right. right. exists t, k, c. split; [|auto]. eapply done_prims; [exact Hp2|exact G|]. rewrite Ep. reflexivity.
Qed.
