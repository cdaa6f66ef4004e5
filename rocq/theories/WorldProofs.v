(** * WorldProofs: operations, their slots and the requests they make *)
From Coq Require Import ZifyBool ZifyNat.
From Verif Require Import Base Types Uart Buffalo CmdTable Zpi Api App Machine Life World SpecMachine SpecWorld
  MachineBase MachineInv MachineInv2 MachineInv3 MachineInv4 MachineInv5 DispatchProofs MachineProofs MachineProofs4 MachineProgress
  LifeProofs2 WorldInv WorldBase.

(** ** lists *)
Lemma filter_all {A} (l : list A) : filter (fun _ => true) l = l.
Proof. induction l as [|x l IH]; cbn [filter]; [reflexivity|]. rewrite IH. reflexivity. Qed.
Definition key (x : nat * nat * nat) : nat := fst (fst x).
Lemma working_snoc l o : working (l ++ [o]) = work_step (working l) o.
Proof. unfold working. rewrite fold_left_app. reflexivity. Qed.
Definition drop (n : nat) (l : list (nat * nat * nat)) := filter (fun x => negb (Nat.eqb (key x) n)) l.
Lemma working_ended l n r : working (l ++ [WEnded n r]) = drop n (working l).
Proof. rewrite working_snoc. reflexivity. Qed.
Lemma drop_none n l : ~ In n (map key l) -> drop n l = l.
Proof.
  induction l as [|x l IH]; intro H; [reflexivity|]. cbn [drop filter map In] in *. destruct (Nat.eqb_spec (key x) n); [exfalso; auto|].
  cbn [negb]. f_equal. apply IH. auto.
Qed.
Lemma drop_one n q a l p : NoDup (map key l) -> In (n, q, a) l ->
  (length (filter p l) = length (filter p (drop n l)) + (if p (n, q, a) then 1 else 0))%nat.
Proof.
  induction l as [|x l IH]; [intros _ []|]. intros Hd [->|Hi]; inversion Hd as [|? ? Hx Hd']; subst; cbn [drop filter].
  - change (key (n, q, a)) with n. rewrite Nat.eqb_refl. cbn [negb]. fold (drop n l). rewrite (drop_none n l Hx). destruct (p (n, q, a)); cbn [length]; lia.
  - destruct (Nat.eqb_spec (key x) n) as [E|E].
    + exfalso. apply Hx. rewrite E. apply (in_map key) in Hi. exact Hi.
    + cbn [negb filter]. fold (drop n l). specialize (IH Hd' Hi). destruct (p x); cbn [length]; lia.
Qed.
Lemma drop_in n l x : In x (drop n l) <-> In x l /\ key x <> n.
Proof. unfold drop. rewrite filter_In. destruct (Nat.eqb_spec (key x) n); cbn [negb]; intuition congruence. Qed.
Lemma drop_nodup n l : NoDup (map key l) -> NoDup (map key (drop n l)).
Proof.
  induction l as [|x l IH]; intro H; [constructor|]. inversion H as [|? ? Hx Hd]; subst. cbn [drop filter]. destruct (negb _); [|apply IH, Hd].
  cbn [map]. constructor; [|apply IH, Hd]. intro X. apply Hx. apply in_map_iff in X. destruct X as (y & E & Y). apply drop_in in Y. rewrite <- E. apply in_map, Y.
Qed.

Lemma nodup_end {A} (l : list A) x : NoDup l -> ~ In x l -> NoDup (l ++ [x]).
Proof.
  induction l as [|y l IH]; intros H N; cbn [app]; [constructor; [intros []|constructor]|]. inversion H as [|? ? Hy Hd]; subst.
  constructor; [|apply IH; [exact Hd|intro; apply N; right; assumption]].
  intro X. apply in_app_or in X. destruct X as [X|[->|[]]]; [exact (Hy X)|]. apply N. left. reflexivity.
Qed.

(** ** who has a slot *)
Definition Work (w : world) : Prop :=
  NoDup (map key (working (w_log w))) /\
  (forall n q a, In (n, q, a) (working (w_log w)) ->
     exists o, the_op w n = Some o /\ ((exists t, op_at o = OInside q a t) \/ exists u, op_at o = OSettling q u)) /\
  (forall n o q, the_op w n = Some o ->
     (forall a t, op_at o = OInside q a t -> In (n, q, a) (working (w_log w))) /\
     (forall u, op_at o = OSettling q u -> exists a, In (n, q, a) (working (w_log w)))).
Lemma not_working w n o : Work w -> the_op w n = Some o -> op_at o = OBegin \/ (exists q, op_at o = OSlot q) \/ (exists r, op_at o = OOver r) ->
  ~ In n (map key (working (w_log w))).
Proof.
  intros (_ & W & _) G H X. apply in_map_iff in X. destruct X as ([[n' q] a] & E & X). change (key (n', q, a)) with n' in E. subst n'.
  destruct (W n q a X) as (o' & G' & [(t & E)|(u & E)]); rewrite G in G'; injection G' as <-; destruct H as [H|[(y & H)|(y & H)]]; congruence.
Qed.
Lemma work_same w w' : working (w_log w') = working (w_log w) -> (forall n o, the_op w' n = Some o ->
    (exists o0, the_op w n = Some o0 /\ op_at o0 = op_at o) \/ (~ in_place (op_at o)) \/ exists q, op_at o = OSlot q) ->
  (forall n o q, the_op w n = Some o -> (exists a t, op_at o = OInside q a t) \/ (exists u, op_at o = OSettling q u) ->
    exists o', the_op w' n = Some o' /\ op_at o' = op_at o) -> Work w -> Work w'.
Proof.
  intros E H1 H2 (W1 & W2 & W3). unfold Work. rewrite E. split; [exact W1|]. split.
  - intros n q a X. destruct (W2 n q a X) as (o & G & P). destruct (H2 n o q G) as (o' & G' & E'); [destruct P as [(t & P)|(u & P)]; eauto|].
    exists o'. split; [exact G'|]. rewrite E'. exact P.
  - intros n o q G. destruct (H1 n o G) as [(o0 & G0 & E0)|[Hn|(y & Hy)]].
    + rewrite <- E0. apply (W3 n o0 q G0).
    + split; [intros a t P|intros u P]; exfalso; apply Hn; rewrite P; exact I.
    + split; [intros a t P|intros u P]; congruence.
Qed.
Lemma the_op_eq w w' n : w_ops w' = w_ops w -> the_op w' n = the_op w n.
Proof. unfold the_op. intros ->. reflexivity. Qed.
Lemma the_op_set w w' n x m : w_ops w' = set_nth n x (w_ops w) -> the_op w' m = if Nat.eqb n m then (match the_op w n with Some _ => Some x | None => None end) else the_op w m.
Proof. intro E. unfold the_op. rewrite E, nth_set, (Nat.eqb_sym m n). reflexivity. Qed.
Lemma work_p w w' : wprim w w' -> Work w -> Work w'.
Proof.
  intros H W. destruct H.
  1,2,3: (apply (work_same w); [reflexivity| |intros n o q G _; eauto|exact W]; intros n o G; left; eauto).
  - apply (work_same w); [|intros n p G; left; eauto|intros n p q G _; eauto|exact W]. wfld. rewrite working_snoc. destruct o; try discriminate; reflexivity.
  - apply (work_same w); [reflexivity|intros n o G; left; eauto|intros n o q G _; eauto|exact W].
  - apply (work_same w); [|intros n o G; left; eauto|intros n o q G _; eauto|exact W]. unfold got_version. wfld. rewrite working_snoc. reflexivity.
  - apply (work_same w); [wfld; rewrite working_snoc; reflexivity| |  |exact W].
    + intros n o. unfold the_op. wfld. rewrite nth_snoc. destruct (Nat.eqb n (length (w_ops w))); [intros [= <-]; right; left; auto|eauto].
    + intros n o q G _. exists o. split; [|reflexivity]. unfold the_op in *. wfld. rewrite nth_snoc. destruct (Nat.eqb_spec n (length (w_ops w))) as [->|]; [apply nth_lt in G; lia|exact G].
  - assert (E : forall m, the_op (put_op n (with_obj o obj None) w) m = if Nat.eqb n m then Some (with_obj o obj None) else the_op w m) by (intro; rewrite the_op_put, H; reflexivity).
    apply (work_same w); [reflexivity| | |exact W].
    + intros m p G. rewrite E in G. destruct (Nat.eqb n m); [injection G as <-; right; left; auto|eauto].
    + intros m p q' G P. rewrite E. destruct (Nat.eqb_spec n m) as [->|]; [|eauto]. rewrite H in G. injection G as <-. destruct P as [(x & y & P)|(y & P)]; congruence.
  - assert (E : forall m', the_op (put_op n (with_obj o obj (Some (a, s_next s))) (wnote (WWaiter n a (s_next s)) (set_apis (set_nth a (wait_for m Timeouts_default q s) (w_apis w)) w))) m' = if Nat.eqb n m' then Some (with_obj o obj (Some (a, s_next s))) else the_op w m')
      by (intro; rewrite (the_op_set w _ n (with_obj o obj (Some (a, s_next s)))), H by reflexivity; reflexivity).
    apply (work_same w); [wfld; rewrite working_snoc; reflexivity| | |exact W].
    + intros m' p G. rewrite E in G. destruct (Nat.eqb n m'); [injection G as <-; right; left; auto|eauto].
    + intros m' p q' G P. rewrite E. destruct (Nat.eqb_spec n m') as [->|]; [|eauto]. rewrite H in G. injection G as <-. destruct P as [(x & y & P)|(y & P)]; congruence.
  - assert (E : forall m, the_op (put_op n (moved o (OSlot q)) w) m = if Nat.eqb n m then Some (moved o (OSlot q)) else the_op w m) by (intro; rewrite the_op_put, H; reflexivity).
    apply (work_same w); [reflexivity| | |exact W].
    + intros m p G. rewrite E in G. destruct (Nat.eqb n m); [injection G as <-; right; right; eexists; reflexivity|eauto].
    + intros m p q' G P. rewrite E. destruct (Nat.eqb_spec n m) as [->|]; [|eauto]. rewrite H in G. injection G as <-. destruct P as [(x & y & P)|(y & P)]; congruence.
  - (* admitted *)
    assert (N : ~ In n (map key (working (w_log w)))) by (apply (not_working w n o W H); destruct H1 as [[H1 _]|H1]; eauto).
    destruct W as (W1 & W2 & W3). unfold Work. wfld. rewrite working_snoc. cbn [work_step].
    assert (E : forall m, the_op (put_op n (moved o (OInside q a (s_ntid s))) (set_apis (set_nth a (call_raw obj (option_map snd (op_waiter o)) s) (w_apis w)) (wnote (WAdmitted n q a) (set_sems (set_nth q (v - 1) (w_sems w)) w)))) m
      = if Nat.eqb n m then Some (moved o (OInside q a (s_ntid s))) else the_op w m)
      by (intro; rewrite (the_op_set w _ n (moved o (OInside q a (s_ntid s)))), H by reflexivity; reflexivity).
    split; [|split].
    + rewrite map_app. cbn [map]. apply nodup_end; [exact W1|exact N].
    + intros m q' a' X. rewrite E. apply in_app_or in X. destruct X as [X|[[= <- <- <-]|[]]].
      * destruct (Nat.eqb_spec n m) as [->|]; [|apply W2, X]. exfalso. apply N. apply (in_map key) in X. exact X.
      * rewrite Nat.eqb_refl. eexists. split; [reflexivity|]. left. eexists. reflexivity.
    + intros m p q' G. rewrite E in G. destruct (Nat.eqb_spec n m) as [->|].
      * injection G as <-. wfld. split; [intros a' t' [= <- <- <-]; apply in_or_app; right; left; reflexivity|discriminate].
      * specialize (W3 m p q' G). split; [intros a' t' P; apply in_or_app; left; eapply W3, P|].
        intros u P. destruct (proj2 W3 u P) as [x X]. exists x. apply in_or_app. left. exact X.
  - (* failed *)
    assert (N : ~ In n (map key (working (w_log w)))).
    { apply (not_working w n o W H). destruct H0 as [[H0 _]|[[H0 _]|[[H0 _]|[[H0 _]|[[H0|H0] _]]]]]; eauto. }
    assert (E : forall m, the_op (wnote (WEnded n (OExn e)) (put_op n (moved o (OOver (OExn e))) w)) m = if Nat.eqb n m then Some (moved o (OOver (OExn e))) else the_op w m)
      by (intro; rewrite (the_op_set w _ n (moved o (OOver (OExn e)))), H by reflexivity; reflexivity).
    apply (work_same w); [| | |exact W].
    + wfld. rewrite working_snoc. cbn [work_step]. apply drop_none, N.
    + intros m p G. rewrite E in G. destruct (Nat.eqb n m); [injection G as <-; right; left; auto|eauto].
    + intros m p q' G P. rewrite E. destruct (Nat.eqb_spec n m) as [->|]; [|eauto]. rewrite H in G. injection G as <-.
      destruct H0 as [[H0 _]|[[H0 _]|[[H0 _]|[[[q0 H0] _]|[[H0|[q0 H0]] _]]]]]; destruct P as [(x & y & P)|(y & P)]; congruence.
  - (* settling *)
    assert (E : forall m, the_op (put_op n (moved o (OSettling q (w_now w + 200))) w) m = if Nat.eqb n m then Some (moved o (OSettling q (w_now w + 200))) else the_op w m) by (intro; rewrite the_op_put, H; reflexivity).
    destruct W as (W1 & W2 & W3). unfold Work. wfld. split; [exact W1|]. split.
    + intros m q' a' X. rewrite E. destruct (Nat.eqb_spec n m) as [->|]; [|apply W2, X]. eexists. split; [reflexivity|]. right. eexists. wfld. f_equal.
      destruct (W2 m q' a' X) as (o' & G & [(y & P)|(y & P)]); rewrite H in G; injection G as <-; congruence.
    + intros m p q' G. rewrite E in G. destruct (Nat.eqb_spec n m) as [->|]; [|apply W3, G]. injection G as <-. wfld. split; [discriminate|].
      intros u [= <- <-]. exists a. apply (proj1 (W3 m o q H) a t H0).
  - (* left *)
    destruct W as (W1 & W2 & W3). unfold Work. wfld. rewrite working_ended.
    assert (E : forall m, the_op (wnote (WEnded n r) (put_op n (moved o (OOver r)) (set_sems (set_nth q (v + 1) (w_sems w)) w))) m = if Nat.eqb n m then Some (moved o (OOver r)) else the_op w m)
      by (intro; rewrite (the_op_set w _ n (moved o (OOver r))), H by reflexivity; reflexivity).
    split; [apply drop_nodup, W1|]. split.
    + intros m q' a' X. apply drop_in in X. destruct X as [X K]. change (key (m, q', a')) with m in K. rewrite E. destruct (Nat.eqb_spec n m); [congruence|]. apply W2, X.
    + intros m p q' G. rewrite E in G. destruct (Nat.eqb_spec n m) as [->|Hne]; [injection G as <-; wfld; split; discriminate|].
      specialize (W3 m p q' G). split; [intros a' t' P; apply drop_in; split; [eapply W3, P|change (key (m, q', a')) with m; congruence]|].
      intros u P. destruct (proj2 W3 u P) as [x X]. exists x. apply drop_in. split; [exact X|change (key (m, q', x)) with m; congruence].
Qed.

(** ** slots *)
Fixpoint total_free (l : list Z) : Z := match l with [] => 0 | v :: r => v + total_free r end.
Lemma total_set l n v x : nth_error l n = Some v -> total_free (set_nth n x l) = total_free l - v + x.
Proof. revert n. induction l as [|y l IH]; intros [|n] H; cbn [nth_error set_nth total_free] in *; try discriminate; [injection H as <-; lia|]. rewrite (IH n H). lia. Qed.
Lemma total_app l x : total_free (l ++ [x]) = total_free l + x.
Proof. induction l as [|y l IH]; cbn [app total_free]; lia. Qed.
Lemma all_slots_snoc l o : all_slots (l ++ [o]) = all_slots l + (match o with WNewSem _ c => c | _ => 0 end).
Proof. induction l as [|y l IH]; cbn [app all_slots]; [destruct o; lia|]. destruct y; lia. Qed.
Definition Caps (w : world) : Prop :=
  (forall q v, nth_error (w_sems w) q = Some v -> 0 <= v /\ exists c, In (WNewSem q c) (w_log w) /\ with_slot q (w_log w) + v = c) /\
  (forall q c, In (WNewSem q c) (w_log w) -> (exists v, nth_error (w_sems w) q = Some v /\ with_slot q (w_log w) + v = c) /\ exists p, c = concurrent p) /\
  Z.of_nat (length (working (w_log w))) + total_free (w_sems w) = all_slots (w_log w).
Lemma caps_same w w' : w_sems w' = w_sems w -> w_log w' = w_log w -> Caps w -> Caps w'.
Proof. unfold Caps. intros -> ->. auto. Qed.
(** an observation that changes nothing about slots *)
Lemma caps_note w w' o : w_sems w' = w_sems w -> w_log w' = w_log w ++ [o] -> working (w_log w ++ [o]) = working (w_log w) ->
  (forall q c, o <> WNewSem q c) -> Caps w -> Caps w'.
Proof.
  unfold Caps. intros -> -> E N (C1 & C2 & C3).
  assert (S : forall q, with_slot q (w_log w ++ [o]) = with_slot q (w_log w)) by (intro; unfold with_slot; rewrite E; reflexivity).
  split; [|split].
  - intros q v G. rewrite S. destruct (C1 q v G) as (V & c & I1 & I2). split; [exact V|]. exists c. split; [apply in_or_app; left; exact I1|exact I2].
  - intros q c X. rewrite S. apply in_app_or in X. destruct X as [X|[X|[]]]; [apply C2, X|]. exfalso. exact (N q c X).
  - rewrite E, all_slots_snoc. destruct o; try lia. exfalso. eapply N. reflexivity.
Qed.
Lemma with_slot_grows q l n q' a : with_slot q (l ++ [WAdmitted n q' a]) = with_slot q l + (if Nat.eqb q' q then 1 else 0).
Proof. unfold with_slot. rewrite working_snoc. cbn [work_step]. rewrite filter_app, app_length. cbn [filter fst snd]. destruct (Nat.eqb q' q); cbn [length]; lia. Qed.
Lemma concurrent_pos p : 0 < concurrent p.
Proof. unfold concurrent. repeat match goal with |- context [if ?b then _ else _] => destruct b end; lia. Qed.
Lemma caps_p w w' : Good w -> wprim w w' -> Work w -> Caps w -> Caps w'.
Proof.
  intros G H W C. destruct H; try (apply (caps_same w); [reflexivity..|exact C]).
  - eapply (caps_note w _ o); [reflexivity..| | |exact C]; [rewrite working_snoc|intros ? ? ->; discriminate]. destruct o; try discriminate; reflexivity.
  - destruct C as (C1 & C2 & C3). unfold Caps, got_version. wfld.
    assert (E : working (w_log w ++ [WNewSem (length (w_sems w)) (concurrent p)]) = working (w_log w)) by (rewrite working_snoc; reflexivity).
    assert (S : forall q, with_slot q (w_log w ++ [WNewSem (length (w_sems w)) (concurrent p)]) = with_slot q (w_log w)) by (intro; unfold with_slot; rewrite E; reflexivity).
    assert (Z0 : with_slot (length (w_sems w)) (w_log w) = 0).
    { unfold with_slot. destruct (filter _ _) as [|[[n q] a] r] eqn:F; [reflexivity|]. exfalso.
      assert (X : In (n, q, a) (filter (fun x => Nat.eqb (snd (fst x)) (length (w_sems w))) (working (w_log w)))) by (rewrite F; left; reflexivity).
      apply filter_In in X. cbn [fst snd] in X. destruct X as [X Hq]. destruct (proj1 (proj2 W) n q a X) as (o & Go & P).
      assert (q < length (w_sems w))%nat by (apply (proj2 (proj1 G) n o q Go); right; destruct P as [(t & P)|(u & P)]; eauto). apply Nat.eqb_eq in Hq. lia. }
    split; [|split].
    + intros q v. rewrite nth_snoc, S. destruct (Nat.eqb_spec q (length (w_sems w))) as [->|].
      * intros [= <-]. pose proof (concurrent_pos p). split; [lia|]. eexists. split; [apply in_or_app; right; left; reflexivity|]. lia.
      * intro V. destruct (C1 q v V) as (V0 & c & I1 & I2). split; [exact V0|]. exists c. split; [apply in_or_app; left; exact I1|exact I2].
    + intros q c X. rewrite S, nth_snoc. apply in_app_or in X. destruct X as [X|[[= <- <-]|[]]].
      * destruct (C2 q c X) as ((v & V & Ec) & Hp). split; [|exact Hp]. exists v. split; [|exact Ec]. pose proof (nth_lt _ _ _ V). destruct (Nat.eqb_spec q (length (w_sems w))); [lia|exact V].
      * rewrite Nat.eqb_refl. split; [|eauto]. eexists. split; [reflexivity|]. lia.
    + rewrite E, total_app, all_slots_snoc. lia.
  - eapply (caps_note w _ (WCalled _)); [reflexivity..|rewrite working_snoc; reflexivity|discriminate|exact C].
  - eapply (caps_note w _ (WWaiter _ _ _)); [reflexivity..|rewrite working_snoc; reflexivity|discriminate|exact C].
  - destruct C as (C1 & C2 & C3). unfold Caps. wfld. split; [|split].
    + intros q' v' V. rewrite with_slot_grows. rewrite nth_set in V. destruct (Nat.eqb_spec q' q) as [->|Hq].
      * rewrite H2 in V. injection V as <-. rewrite Nat.eqb_refl. destruct (C1 q v H2) as (V0 & c & I1 & I2). split; [lia|]. exists c. split; [apply in_or_app; left; exact I1|lia].
      * destruct (Nat.eqb_spec q q') as [|_]; [congruence|]. destruct (C1 q' v' V) as (V0 & c & I1 & I2). split; [lia|]. exists c. split; [apply in_or_app; left; exact I1|lia].
    + intros q' c X. rewrite with_slot_grows, nth_set. apply in_app_or in X. destruct X as [X|[X|[]]]; [|discriminate]. destruct (C2 q' c X) as ((v' & V & Ec) & Hp).
      split; [|exact Hp]. destruct (Nat.eqb_spec q' q) as [->|Hq].
      * rewrite H2. rewrite H2 in V. injection V as <-. rewrite Nat.eqb_refl. eexists. split; [reflexivity|lia].
      * destruct (Nat.eqb_spec q q') as [|_]; [congruence|]. exists v'. split; [exact V|lia].
    + rewrite working_snoc. cbn [work_step]. rewrite app_length, all_slots_snoc, (total_set _ _ _ _ H2). cbn [length]. lia.
  - assert (N : ~ In n (map key (working (w_log w)))).
    { apply (not_working w n o W H). destruct H0 as [[H0 _]|[[H0 _]|[[H0 _]|[[H0 _]|[[H0|H0] _]]]]]; eauto. }
    eapply (caps_note w _ (WEnded n (OExn e))); [reflexivity..|rewrite working_snoc; apply drop_none, N|discriminate|exact C].
  - assert (K : exists a, In (n, q, a) (working (w_log w))).
    { destruct W as (_ & _ & W3). destruct (W3 n o q H) as [K1 K2].
      destruct H0 as [(a & t & k & x & M & _)|[(a & t & k & x & M & _)|[(a & t & k & x & M & _)|[(u & M & _)|(u & M & _)]]]]; eauto. }
    destruct K as [a K]. destruct C as (C1 & C2 & C3). unfold Caps. wfld.
    assert (S : forall q', with_slot q' (w_log w ++ [WEnded n r]) = with_slot q' (w_log w) - (if Nat.eqb q q' then 1 else 0)).
    { intro q'. unfold with_slot. rewrite working_ended.
      pose proof (drop_one n q a (working (w_log w)) (fun x => Nat.eqb (snd (fst x)) q') (proj1 W) K) as D. cbn [fst snd] in D. destruct (Nat.eqb q q'); lia. }
    split; [|split].
    + intros q' v' V. rewrite S. rewrite nth_set in V. destruct (Nat.eqb_spec q' q) as [->|Hq].
      * rewrite H1 in V. injection V as <-. rewrite Nat.eqb_refl. destruct (C1 q v H1) as (V0 & c & I1 & I2). split; [lia|]. exists c. split; [apply in_or_app; left; exact I1|lia].
      * destruct (Nat.eqb_spec q q') as [|_]; [congruence|]. destruct (C1 q' v' V) as (V0 & c & I1 & I2). split; [lia|]. exists c. split; [apply in_or_app; left; exact I1|lia].
    + intros q' c X. rewrite S, nth_set. apply in_app_or in X. destruct X as [X|[X|[]]]; [|discriminate]. destruct (C2 q' c X) as ((v' & V & Ec) & Hp).
      split; [|exact Hp]. destruct (Nat.eqb_spec q' q) as [->|Hq].
      * rewrite H1. rewrite H1 in V. injection V as <-. rewrite Nat.eqb_refl. eexists. split; [reflexivity|lia].
      * destruct (Nat.eqb_spec q q') as [|_]; [congruence|]. exists v'. split; [exact V|lia].
    + rewrite working_ended. rewrite all_slots_snoc, (total_set _ _ _ _ H1).
      pose proof (drop_one n q a (working (w_log w)) (fun _ => true) (proj1 W) K) as D. cbn [fst snd] in D.
      rewrite !filter_all in D. lia.
Qed.
Lemma wreach_slots w : wreachable w -> Work w /\ Caps w.
Proof.
  revert w. apply wreach_ind.
  - intros devs. split; [|split; [|split]].
    + split; [constructor|]. split; [intros n q a []|]. intros n o q G. unfold the_op in G. destruct n; discriminate.
    + intros q v G. destruct q; discriminate.
    + intros q c [].
    + reflexivity.
  - intros w w' G H [W C]. split; [eapply work_p; eassumption|eapply caps_p; eassumption].
Qed.
