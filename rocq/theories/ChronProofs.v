(** * ChronProofs: proofs for PropsChron *)
From Coq Require Import ZifyBool ZifyNat.
From Verif Require Import Base Types Uart Buffalo CmdTable Zpi Api App Machine Life World SpecMachine SpecLife SpecWorld
  LifeProofs2 LifeProofs3 WorldBase WorldLife WorldProofs2 Nv StartZnp AppStart SpecStart SpecAppStart StartProofs2 Host Whole WholeBase WholeProofs WholeProofs2 SpecWhole WholeProofs4 WholeTime WholeInd WholeParts
  SpecReal SpecLinkStart SpecHonest HonestProofs SpecSerial SerialProofs SpecChron.


(** ** one step of a start-up *)
Definition on_with (t : nat) (x x' : whole) (ext : list deed) : Prop :=
  (forall u, u <> t -> x_boots x' u = x_boots x u) /\ x_log x' = x_log x /\ b_deeds (x_boots x' t) = b_deeds (x_boots x t) ++ ext.
Definition moved (t : nat) (x x' : whole) (ext : list deed) : Prop :=
  on_with t x x' ext \/
  (forall u, u <> t -> x_boots x' u = x_boots x u) /\ b_deeds (x_boots x' t) = [] /\
  exists auto r at_, x_log x' = x_log x ++ [XOver t auto (b_deeds (x_boots x t) ++ ext) r at_].
Lemma on_refl t x x' : x_boots x' = x_boots x -> x_log x' = x_log x -> on_with t x x' [].
Proof. intros B L. split; [intros; rewrite B; reflexivity|]. split; [exact L|]. rewrite B, app_nil_r. reflexivity. Qed.
Lemma moved_over t r x x1 ext : on_with t x x1 ext -> moved t x (attempt_over t r x1) ext.
Proof.
  intros (O & L & D). right. split; [intros u N; rewrite over_boots, put_at_other by exact N; apply O, N|]. split; [rewrite over_boots, put_at_same; reflexivity|].
  unfold attempt_over. rewrite asleep_log. cbn [put_boot xnote happens x_log]. rewrite L, D. eauto.
Qed.
Lemma moved_next t q x x1 ext : on_with t x x1 ext -> moved t x (next_part t q x1) ext.
Proof.
  intro H. unfold next_part. destruct (y_cur _) as [a|]; [|apply moved_over, H]. destruct H as (O & L & D). left.
  split; [intros u N; cbn [put_boot x_boots]; rewrite put_at_other by exact N; apply O, N|]. split; [exact L|]. cbn [put_boot x_boots]. rewrite put_at_same. exact D.
Qed.
Lemma moved_boot_goes c t x : exists ext, moved t x (boot_goes c t x) ext.
Proof.
  unfold boot_goes. destruct (b_part (x_boots x t)) as [p|]; [|exists []; left; apply on_refl; reflexivity].
  assert (Rest : exists ext, moved t x (let '(w, p', ds) := part_goes p (x_world x) in
        put_boot t (mk_boot (b_auto (x_boots x t)) (Some p') (b_deeds (x_boots x t) ++ ds)) (mk_whole w (x_boots x) (x_until x) (x_log x))) ext).
  { destruct (part_goes p (x_world x)) as [[w' p'] ds]. exists ds. left. split; [intros u N; cbn [put_boot x_boots]; rewrite put_at_other by exact N; reflexivity|]. split; [reflexivity|].
    cbn [put_boot x_boots]. rewrite put_at_same. reflexivity. }
  destruct (r_place p) as [[v|e|sub cmd d x0 k|m to k|o k|sub cmd d k]|t0 sub cmd d x0 k|t0 m k]; try exact Rest; clear Rest.
  - destruct v as [|product|r|ieee nwk].
    + exists []. apply moved_next, on_refl; reflexivity.
    + exists []. cbv zeta. destruct (known_product product); [apply moved_next|apply moved_over]; apply on_refl; reflexivity.
    + destruct (set_led _ _) as [[|z zs]|e]; [exists []; apply moved_next, on_refl; reflexivity| |exists []; apply moved_over, on_refl; reflexivity].
      assert (K : exists ext, on_with t x (led_off t x) ext).
      { assert (Z : exists ext, on_with t x x ext) by (exists []; apply on_refl; reflexivity). unfold led_off. destruct (y_cur _) as [a|]; [|exact Z]. destruct (nth_error _ a) as [m|]; [|exact Z].
        eexists. split; [intros u N; cbn [put_boot x_boots happens]; rewrite put_at_other by exact N; reflexivity|]. split; [reflexivity|]. cbn [put_boot x_boots happens]. rewrite put_at_same. reflexivity. }
      destruct K as [ext K]. exists ext. apply moved_next, K.
    + exists []. apply moved_over, on_refl; reflexivity.
  - exists []. apply moved_over, on_refl; reflexivity.
Qed.
Lemma by_note x x' l : x_log x' = x_log x ++ l -> by_attempt x' = by_attempt x ++ concat (map over_deeds l).
Proof. intro E. unfold by_attempt. rewrite E, map_app, concat_app. reflexivity. Qed.
Lemma did_moved t x x' ext : moved t x x' ext -> skipn (length (did x t)) (did x' t) = ext.
Proof.
  assert (S : forall a b : list deed, skipn (length a) (a ++ b) = b) by (intros a b; rewrite skipn_app, skipn_all, Nat.sub_diag; reflexivity).
  intros [(_ & L & D)|(_ & D & auto & r & at_ & L)]; unfold did; rewrite L, D.
  - rewrite app_assoc. apply S.
  - rewrite map_app, concat_app. cbn [map concat]. rewrite Nat.eqb_refl, !app_nil_r, app_assoc. apply S.
Qed.
(** ** the other events *)
Lemma other_moves c e x : XInv c x -> (forall t, e <> XGo t) ->
  by_attempt (whole_step c e x) = by_attempt x /\ forall u, b_deeds (x_boots (whole_step c e x) u) = b_deeds (x_boots x u).
Proof.
  intros I N. assert (Z : by_attempt x = by_attempt x /\ forall u, b_deeds (x_boots x u) = b_deeds (x_boots x u)) by auto.
  destruct e as [auto r|t|e]; cbn [whole_step]; [|destruct (N t eq_refl)|].
  - split.
    + rewrite (by_note x _ [XTries (length (y_tasks (w_life (x_world x)))) (w_now (world_step (VLife (VStartup r)) (x_world x)))]); [cbn [map over_deeds concat app]; apply app_nil_r|]. rewrite asleep_log. reflexivity.
    + intro u. rewrite asleep_boots. cbn [put_boot x_boots tries xnote happens]. destruct (Nat.eq_dec u (length (y_tasks (w_life (x_world x))))) as [->|Nu]; [rewrite put_at_same|rewrite put_at_other by exact Nu; reflexivity].
      pose proof (I_boots c x I (length (y_tasks (w_life (x_world x))))) as B. unfold boot_ok in B. destruct (b_part _); [|destruct B as [-> _]; reflexivity].
      destruct B as [S _]. unfold starting in S. rewrite (proj2 (nth_error_None _ _)) in S by lia. discriminate S.
  - destruct (from_outside x e) eqn:O; [|exact Z].
    destruct e as [| | | | | | | | | |e| |]; try exact Z. destruct e as [r| |g|t r]; try exact Z. cbv zeta.
    set (x1 := match stage_of (x_world x) t with Some KSleep => _ | _ => _ end).
    assert (H1 : by_attempt x1 = by_attempt x /\ x_boots x1 = x_boots x).
    { assert (Y : by_attempt (tries t x) = by_attempt x /\ x_boots (tries t x) = x_boots x).
      { split; [|reflexivity]. unfold tries. rewrite (by_note x _ _ (eq_refl (x_log (xnote _ x)))). cbn [map over_deeds concat app]. apply app_nil_r. }
      unfold x1. destruct (stage_of (x_world x) t) as [[]|]; auto. destruct r as [v|[]]; auto. }
    destruct H1 as (L1 & B1). clearbody x1.
    assert (D : b_deeds (x_boots x t) = []).
    { assert (S : starting (x_world x) t = false).
      { cbn [from_outside] in O. unfold starting. unfold stage_of in O. destruct (nth_error (y_tasks (w_life (x_world x))) t) as [k|]; [|reflexivity]. cbn [option_map] in O. destruct (k_stage k); try reflexivity. discriminate O. }
      pose proof (I_boots c x I t) as B. unfold boot_ok in B. destruct (b_part (x_boots x t)); [destruct B; congruence|apply B]. }
    set (x2 := falls_asleep t (happens (VLife (VGo t r)) x1)).
    assert (L2 : by_attempt x2 = by_attempt x) by (unfold x2, by_attempt; rewrite asleep_log; exact L1).
    assert (B2 : x_boots x2 = x_boots x) by (unfold x2; rewrite asleep_boots; exact B1). clearbody x2.
    destruct (starting (x_world x2) t); [|rewrite L2, B2; auto].
    destruct (moved_next t part_ping x2 x2 [] (on_refl t x2 x2 eq_refl eq_refl)) as [(U & L & K)|(U & K & auto & r0 & at_ & L)].
    + split; [unfold by_attempt; rewrite L; exact L2|]. intro u. destruct (Nat.eq_dec u t) as [->|Nu]; [rewrite K, B2, D; reflexivity|rewrite U, B2 by exact Nu; reflexivity].
    + split; [rewrite (by_note x2 _ _ L); cbn [map over_deeds concat app]; rewrite B2, D, L2; cbn [app]; apply app_nil_r|].
      intro u. destruct (Nat.eq_dec u t) as [->|Nu]; [rewrite K, D; reflexivity|rewrite U, B2 by exact Nu; reflexivity].
Qed.
(** ** all that happened, in order *)
Definition tells (x : whole) (l : list deed) : Prop :=
  (forall t, b_deeds (x_boots x t) <> [] -> l = by_attempt x ++ b_deeds (x_boots x t)) /\ ((forall t, b_deeds (x_boots x t) = []) -> l = by_attempt x).
Lemma tells_step c e x l : XInv c x -> one_at_work (x_world x) -> tells x l ->
  tells (whole_step c e x) (l ++ match e with XGo t => skipn (length (did x t)) (did (whole_step c e x) t) | _ => [] end).
Proof.
  intros I W T. assert (O : (forall t, e <> XGo t) -> tells (whole_step c e x) (l ++ [])).
  { intro N. destruct (other_moves c e x I N) as [L B]. rewrite app_nil_r. unfold tells. rewrite L. split.
    - intros t Ht. rewrite B in *. apply T, Ht.
    - intro H. apply T. intro t. rewrite <- B. apply H. }
  destruct e as [auto r|t|e]; [apply O; discriminate| |apply O; discriminate]. clear O. cbn [whole_step].
  destruct (b_part (x_boots x t)) as [p|] eqn:Bp.
  - assert (Others : forall u, u <> t -> b_deeds (x_boots x u) = []).
    { intros u N. pose proof (I_boots c x I u) as B. pose proof (I_boots c x I t) as B'. unfold boot_ok in B, B'. rewrite Bp in B'. destruct (b_part (x_boots x u)); [|apply B].
      destruct (N (W u t (starting_work _ _ (proj1 B)) (starting_work _ _ (proj1 B')))). }
    assert (E : l = by_attempt x ++ b_deeds (x_boots x t)).
    { destruct (b_deeds (x_boots x t)) as [|d0 l0] eqn:D; [|rewrite <- D; apply T; rewrite D; discriminate]. rewrite app_nil_r. apply T. intro u. destruct (Nat.eq_dec u t) as [->|N]; [exact D|apply Others, N]. }
    destruct (moved_boot_goes c t x) as [ext M]. rewrite (did_moved _ _ _ _ M). set (x' := boot_goes c t x) in *. clearbody x'.
    assert (E' : l ++ ext = by_attempt x' ++ b_deeds (x_boots x' t) /\ forall u, u <> t -> b_deeds (x_boots x' u) = []).
    { destruct M as [(U & L & K)|(U & K & auto & r & at_ & L)]; (split; [|intros u N; rewrite U by exact N; apply Others, N]).
      - rewrite K, E. unfold by_attempt. rewrite L, app_assoc. reflexivity.
      - rewrite (by_note x x' _ L), K, E. cbn [map over_deeds concat]. rewrite !app_nil_r, app_assoc. reflexivity. }
    destruct E' as [E' Oth]. split.
    + intros u Hu. destruct (Nat.eq_dec u t) as [->|N]; [exact E'|destruct (Hu (Oth u N))].
    + intro H. rewrite E', (H t), app_nil_r. reflexivity.
  - assert (E : boot_goes c t x = x) by (unfold boot_goes; rewrite Bp; reflexivity). rewrite E, skipn_all, app_nil_r. exact T.
Qed.
Lemma tells_run c es x l : XInv c x -> one_at_work (x_world x) -> Solo x -> one_by_one c es x -> tells x l -> tells (whole_run c es x) (l ++ chronicle c es x).
Proof.
  revert x l. induction es as [|e es IH]; intros x l I W X H T; [cbn [chronicle]; rewrite app_nil_r; exact T|]. cbn [chronicle]. rewrite app_assoc.
  destruct (solo_run c [e] x I W X (conj (proj1 H) Logic.I)) as [W' X'].
  apply (IH (whole_step c e x)); [apply xinv_step, I|exact W'|exact X'|apply H|]. apply tells_step; assumption.
Qed.
Lemma chron_order c es devs : one_by_one c es (whole_init devs) -> let x := whole_run c es (whole_init devs) in let l := chronicle c es (whole_init devs) in
  (forall t p, b_part (x_boots x t) = Some p -> l = by_attempt x ++ b_deeds (x_boots x t)) /\ ((forall t, b_part (x_boots x t) = None) -> l = by_attempt x).
Proof.
  intros H x l.
  assert (T : tells x l).
  { apply (tells_run c es (whole_init devs) []); [apply xinv_init| | |exact H|].
    - intros t u (k & G & _). destruct t; discriminate G.
    - constructor; [discriminate|intros t auto ds r at_ []].
    - split; [intros t Ht; destruct (Ht eq_refl)|reflexivity]. }
  assert (I : XInv c x) by (apply xinv_run, xinv_init). destruct (solo_init c es devs H) as [W _]. fold x in W.
  assert (B : forall u, b_part (x_boots x u) = None -> b_deeds (x_boots x u) = []).
  { intros u E. pose proof (I_boots c x I u) as B. unfold boot_ok in B. rewrite E in B. apply B. }
  split.
  - intros t p Bp. destruct (b_deeds (x_boots x t)) as [|d l0] eqn:D; [|rewrite <- D; apply T; rewrite D; discriminate]. rewrite app_nil_r. apply T.
    intro u. destruct (Nat.eq_dec u t) as [->|N]; [exact D|]. apply B. destruct (b_part (x_boots x u)) as [q|] eqn:Bq; [|reflexivity].
    pose proof (I_boots c x I u) as B1. pose proof (I_boots c x I t) as B2. unfold boot_ok in B1, B2. rewrite Bp in B2. rewrite Bq in B1.
    destruct (N (W u t (starting_work _ _ (proj1 B1)) (starting_work _ _ (proj1 B2)))).
  - intro E. apply T. intro t. apply B, E.
Qed.
(** ** a stick that serves them *)
Lemma reports_part (l1 l2 l3 : list deed) p : reports (map snd l2) p -> reports (map snd (l1 ++ l2 ++ l3)) p.
Proof. intros (d & y & m & H & D). exists d, y, m. split; [|exact D]. rewrite !map_app. apply in_or_app. right. apply in_or_app. left. exact H. Qed.
Lemma serves_log c v x s l s' : xreachable c x -> (forall o, In o l -> In o (x_log x)) -> stick s (map snd (concat (map over_deeds l))) s' ->
  (forall p, reports (map snd (concat (map over_deeds l))) p -> p = version_of v) -> serves c v s s'.
Proof.
  intro R. revert s'. induction l as [|o l IH] using rev_ind; intros s' Hi S V.
  - inversion S; subst. constructor.
  - rewrite map_app, concat_app in S, V. cbn [map concat] in S, V. rewrite app_nil_r in S, V. rewrite map_app in S. apply stick_app in S as (s1 & S1 & S2).
    assert (H1 : serves c v s s1).
    { apply IH; [intros q Hq; apply Hi, in_or_app; left; exact Hq|exact S1|]. intros p Hp. apply V. apply (reports_part [] _ _ p Hp). }
    destruct o as [t at_|t auto ds r at_]; cbn [over_deeds] in S2.
    + inversion S2; subst. exact H1.
    + apply (serves_one c v s x t auto ds s1 s' H1 R); [left; exists r, at_; apply Hi, in_or_app; right; left; reflexivity|exact S2|].
      intros p Hp. apply V. cbn [over_deeds]. rewrite <- (app_nil_r ds). apply (reports_part _ ds [] p Hp).
Qed.
Lemma chron_serves c v es devs s s' l : one_by_one c es (whole_init devs) -> let x := whole_run c es (whole_init devs) in let h := chronicle c es (whole_init devs) ++ l in
  under_way x l -> stick s (map snd h) s' -> (forall p, reports (map snd h) p -> p = version_of v) -> serves c v s s'.
Proof.
  intros H x h U S V. assert (R : xreachable c x) by (exists devs, es; reflexivity). destruct (chron_order c es devs H) as [H1 H2]. fold x in H1, H2. unfold h in *. clear h.
  destruct U as [(t & p & B & E)|[-> N]].
  - rewrite (H1 t p B), <- app_assoc in S, V. rewrite map_app in S. apply stick_app in S as (s1 & S1 & S2).
    apply (serves_one c v s x t (b_auto (x_boots x t)) (b_deeds (x_boots x t) ++ l) s1 s'); [|exact R| |exact S2|].
    + apply (serves_log c v x s (x_log x) s1 R); [auto|exact S1|]. intros q Hq. apply V. apply (reports_part [] _ _ q Hq).
    + right. exists p. split; [exact B|]. split; [reflexivity|]. rewrite E. reflexivity.
    + intros q Hq. apply V. rewrite <- (app_nil_r (b_deeds (x_boots x t) ++ l)). apply (reports_part (by_attempt x) _ [] q Hq).
  - rewrite (H2 N), app_nil_r in S, V. apply (serves_log c v x s (x_log x) s' R); [auto|exact S|exact V].
Qed.
