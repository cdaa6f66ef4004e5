(** * MachineProofs7: from received bytes to the result of the request *)
From Verif Require Import Base Types Uart Buffalo CmdTable Zpi Api App Machine SpecWire SpecCodec SpecApi SpecMachine
  ApiProofs AppProofs MachineBase MachineInv MachineInv2 MachineInv3 MachineInv4 MachineInv5 DispatchProofs MachineProofs MachineProofs2 MachineProofs3 MachineProofs4 MachineProofs5 MachineProofs6.

(** the answer to a request that waits reaches it *)
Lemma answer_delivered cap s t k i d o f r : 0 <= cap -> reachable cap s ->
  get s t = Some k -> t_phase k = PWait i d -> t_obj k = Some o -> z_type o = SREQ ->
  s_futs s i = FPending -> s_now s < d + 100 ->
  sendable f -> f_data f <> [] -> s_buf s = [] -> from_unpi_frame (received f) = Ok r -> response_to o r ->
  nobody_waits_for SRSP (z_sub o) (z_cmd o) s ->
  let s1 := step (ERecv (wire_of f)) s in s_futs s1 i = FDone r /\ get s1 t = Some k.
Proof.
  intros Hc Hr G Hp Ho Ht Hf Hnow Hs Hne Hb Hfr (R1 & R2 & R3) Hno.
  destruct (waits_for cap s t k i d Hc Hr G Hp) as (o' & at_ & bs & la & lb & Ho' & _ & _ & _ & _ & _ & _ & _ & _ & Hm).
  rewrite Ho in Ho'. injection Ho' as <-. rewrite Hf in Hm. destruct (Hm Hnow) as (w & Hin & Hid & Hw). rewrite Ht in Hw.
  pose proof (receive_frame s f Hs Hne Hb) as E. cbv zeta. rewrite E.
  assert (A : answers (w_matcher w) r) by (rewrite Hw; repeat split; cbn; auto).
  assert (F : s_futs (fst (data_received s (received f))) i = FDone r).
  { rewrite <- Hid. apply (answer_arrives cap s (received f) r w Hc Hr Hfr); auto.
    - rewrite R1, R2, R3. exact Hno.
    - rewrite Hid. exact Hf. }
  assert (T : get (fst (data_received s (received f))) t = Some k) by (apply data_received_get; exact G).
  destruct (data_received s (received f)) as [s1 [u|e]]; split; assumption.
Qed.

(** the task of a refused request is at its end *)
Lemma refused_task s t k i d o r c : get s t = Some k -> t_phase k = PWait i d -> t_obj k = Some o -> z_type o = SREQ ->
  s_futs s i = FDone r -> status_of r = Some (VInt c) -> ~ expects (t_job k) c ->
  (forall w, t_wid k = Some w -> registered s w = true) ->
  get (step (ERun t) s) t = Some (at_end k (reported (t_job k) c)).
Proof.
  intros G Hp Ho Ht Hf Hst Hn Hw. cbn [step]. unfold resume. rewrite G, Hp, Hf, Ho. unfold request_raw_resume. rewrite Ht.
  assert (Hu : unexpected_status r (expected_of (t_job k)) = Some c) by (apply unexpected_some; auto). rewrite Hu.
  destruct (t_wid k) as [w|] eqn:Ew.
  - rewrite (Hw w eq_refl), complete_nf. destruct (raise_effect (completed w r s) t k (CommandError c) G) as (_ & _ & E & _). rewrite E, reported_exn. reflexivity.
  - destruct (raise_effect s t k (CommandError c) G) as (_ & _ & E & _). rewrite E, reported_exn. reflexivity.
Qed.
Lemma refused_reported s t k i d o r c :
  get s t = Some k -> t_phase k = PWait i d -> t_obj k = Some o -> z_type o = SREQ ->
  s_futs s i = FDone r -> status_of r = Some (VInt c) -> ~ expects (t_job k) c ->
  (forall w, t_wid k = Some w -> exists x, In x (s_waiters s) /\ w_id x = w) ->
  let s' := step (ERun t) s in
  In (OEnded t (reported (t_job k) c)) (s_log s') /\ get s' t = Some (at_end k (reported (t_job k) c)) /\
  forall w, t_wid k = Some w ->
    In (OCompleted w r) (s_log s') /\ (forall x, In x (s_waiters s') -> w_id x <> w) /\
    (s_futs s w = FPending -> s_futs s' w = FDone r).
Proof.
  intros G Hp Ho Ht Hf Hst Hn Hw. cbv zeta.
  assert (Hw' : forall w, t_wid k = Some w -> registered s w = true).
  { intros w E. unfold registered. destruct (Hw w E) as (x & H1 & H2). apply existsb_exists. exists x. split; [exact H1|lia]. }
  pose proof (refused_task s t k i d o r c G Hp Ho Ht Hf Hst Hn Hw') as T.
  pose proof (refused_step s t k i d o r c G Hp Ho Ht Hf Hst Hn) as H. cbv zeta in H. destruct H as [_ H].
  split; [|split; [exact T|]].
  - destruct (t_wid k) as [w|]; [rewrite (Hw' w eq_refl) in H|]; destruct H as (H & _); rewrite H, in_app_iff; cbn [In]; tauto.
  - intros w E. rewrite E, (Hw' w E) in H. destruct H as (H1 & H2 & H3). split; [|split].
    + rewrite H1, in_app_iff. cbn [In]. tauto.
    + intros x Hx. rewrite H2 in Hx. apply filter_In in Hx as [_ Hx]. lia.
    + intro P. rewrite H3. unfold resulted, upd. rewrite Z.eqb_refl, P. reflexivity.
Qed.
Lemma refused_lost s t k i d o r c w :
  get s t = Some k -> t_phase k = PWait i d -> t_obj k = Some o -> z_type o = SREQ ->
  s_futs s i = FDone r -> status_of r = Some (VInt c) -> ~ expects (t_job k) c ->
  t_wid k = Some w -> (forall x, In x (s_waiters s) -> w_id x <> w) ->
  s_log (step (ERun t) s) = s_log s ++ [OFreed t; OEnded t (OExn KeyError)].
Proof.
  intros G Hp Ho Ht Hf Hst Hn E Hw.
  pose proof (refused_step s t k i d o r c G Hp Ho Ht Hf Hst Hn) as H. cbv zeta in H. destruct H as [_ H]. rewrite E in H.
  destruct (registered s w) eqn:Er; [|apply H]. exfalso. apply registered_in in Er as (x & H1 & H2). exact (Hw x H1 H2).
Qed.

Lemma reset_completes cap s t k i d o f r : 0 <= cap -> reachable cap s ->
  get s t = Some k -> t_phase k = PWait i d -> t_obj k = Some o -> z_type o = AREQ ->
  s_futs s i = FPending -> s_now s < d + 100 ->
  sendable f -> f_data f <> [] -> s_buf s = [] -> from_unpi_frame (received f) = Ok r ->
  z_type r = AREQ -> z_sub r = SYS -> z_cmd r = "resetInd" -> nobody_waits_for AREQ SYS "resetInd" s ->
  ~ sends (t_job k) -> (forall z, t_job k <> JPermit z) ->
  let s1 := step (ERecv (wire_of f)) s in
  s_log (step (ERun t) s1) = s_log s1 ++ [OFreed t; OEnded t (ORet (Some r))].
Proof.
  intros Hc Hr G Hp Ho Ht Hf Hnow Hs Hne Hb Hfr R1 R2 R3 Hno Hse Hpe.
  destruct (waits_for cap s t k i d Hc Hr G Hp) as (o' & at_ & bs & la & lb & Ho' & _ & _ & _ & _ & _ & _ & _ & _ & Hm).
  rewrite Ho in Ho'. injection Ho' as <-. rewrite Hf in Hm. destruct (Hm Hnow) as (w & Hin & Hid & Hw). rewrite Ht in Hw.
  assert (A : answers (w_matcher w) r) by (rewrite Hw; repeat split; cbn; auto).
  assert (F : s_futs (fst (data_received s (received f))) i = FDone r).
  { rewrite <- Hid. apply (answer_arrives cap s (received f) r w Hc Hr Hfr); auto.
    - rewrite R1, R2, R3. exact Hno.
    - rewrite Hid. exact Hf. }
  assert (T : get (fst (data_received s (received f))) t = Some k) by (apply data_received_get; exact G).
  intro s1. assert (T1 : get s1 t = Some k /\ s_futs s1 i = FDone r).
  { unfold s1. rewrite (receive_frame s f Hs Hne Hb). destruct (data_received s (received f)) as [s2 [u|e]]; split; assumption. }
  destruct T1 as [T1 F1]. destruct (accepted_step s1 t k i d o r T1 Hp Ho F1) as (_ & _ & _ & H).
  - intro C. rewrite Ht in C. discriminate.
  - destruct (t_job k); cbn in Hse; try tauto; cbn [settles outcome_of_result] in H; try exact H. exfalso. eapply Hpe. reflexivity.
Qed.

(** the end of the 200 ms after a multicast or broadcast *)
Lemma settled_step s t k u : get s t = Some k -> t_phase k = PSleep u -> u <= s_now s ->
  s_log (step (ERun t) s) = s_log s ++ [OEnded t (outcome_of_result (t_job k) None)].
Proof.
  intros G Hp Hu. cbn [step]. unfold resume. rewrite G, Hp. replace (u <=? s_now s) with true by lia.
  unfold finish, goto. replace (get (free_sem (t_job k) s) t) with (Some k) by (unfold free_sem; destruct (uses_sem _); symmetry; exact G).
  unfold put, note, free_sem. destruct (uses_sem (t_job k)); reflexivity.
Qed.
(** whoever lets a send operation be accepted makes it report 0 *)
Lemma accepted_status s t k i d o r : get s t = Some k -> t_phase k = PWait i d -> t_obj k = Some o -> sends (t_job k) ->
  s_futs s i = FDone r -> (z_type o = SREQ -> forall v, status_of r = Some v -> v = VInt 0) ->
  exists s2, s2 = (if settles (t_job k) then run [ERun t; ETick 200; ERun t] s else run [ERun t] s) /\
    In (OEnded t (OStatus 0)) (s_log s2).
Proof.
  intros G Hp Ho Hs Hf Hst. eexists. split; [reflexivity|].
  destruct (accepted_step s t k i d o r G Hp Ho Hf) as (_ & _ & _ & H).
  { intros Ht v Hv. exists 0. split; [apply (Hst Ht v Hv)|]. destruct (t_job k); cbn in *; tauto. }
  assert (E : forall x, outcome_of_result (t_job k) x = OStatus 0) by (intro x; destruct (t_job k); cbn in Hs; try contradiction; reflexivity).
  destruct (settles (t_job k)) eqn:Es.
  - destruct H as [_ T]. unfold run. cbn [fold_left].
    set (s1 := step (ERun t) s) in *. change (step (ETick 200) s1) with (set_now (s_now s1 + 200) s1).
    assert (Hn : s_now s1 = s_now s).
    { unfold s1. cbn [step]. unfold resume. rewrite G, Hp, Hf, Ho.
      assert (Er : request_raw_resume t k o r s = raw_return t (t_job k) (Some r) s).
      { unfold request_raw_resume. destruct (z_type o) eqn:Ht; try reflexivity.
        destruct (unexpected_status r (expected_of (t_job k))) as [c|] eqn:Hu; [|reflexivity]. exfalso.
        apply unexpected_some in Hu as [H1 H2]. apply H2. specialize (Hst eq_refl _ H1). injection Hst as ->.
        destruct (t_job k); cbn in *; tauto. }
      rewrite Er. unfold raw_return, free_lock, goto, note. rewrite Es. rewrite G. 
      repeat match goal with |- context [match get ?s ?t with _ => _ end] => destruct (get s t) end; reflexivity. }
    rewrite (settled_step (set_now (s_now s1 + 200) s1) t _ (s_now s + 200) T eq_refl); [|fld; lia].
    apply in_or_app. right. left. cbn [t_job]. rewrite E. reflexivity.
  - unfold run. cbn [fold_left]. rewrite H, E. apply in_or_app. right. right. left. reflexivity.
Qed.

Lemma permit_outside cap s t k z at_ bs : 0 <= cap -> reachable cap s -> get s t = Some k -> t_job k = JPermit z ->
  ~ 0 <= z <= 254 ->
  ~ In (OWritten t at_ bs) (s_log s) /\
  (t_phase k = PStart -> s_log (step (ERun t) s) = s_log s ++ [OEnded t (OExn AssertionError)] /\ s_wire (step (ERun t) s) = s_wire s).
Proof.
  intros Hc Hr G Hj Hz. pose proof (permit_refused z Hz) as E. split.
  - intro Hin. destruct (proj2 (I_wrote _ _ (reachable_inv cap s Hc Hr)) t at_ bs Hin) as (_ & k' & o' & G' & Hb' & _).
    rewrite G in G'. injection G' as <-. rewrite Hj in Hb'. unfold build in Hb'. rewrite E in Hb'. discriminate.
  - intro Hp. cbn [step]. unfold resume. rewrite G, Hp. unfold start. rewrite Hj. unfold build. rewrite E.
    unfold finish, goto. rewrite G. split; reflexivity.
Qed.
Lemma permit_once cap s t k z : 0 <= cap -> reachable cap s -> get s t = Some k -> t_job k = JPermit z ->
  0 <= z <= 254 ->
  let bs := [254; 5; 37; 54; 15; 252; 255; z; 0; xor_all [5; 37; 54; 15; 252; 255; z; 0]] in
  (forall at_ bs', In (OWritten t at_ bs') (s_log s) -> bs' = bs) /\
  (forall a at1 b1 b at2 b2 c, s_log s <> a ++ OWritten t at1 b1 :: b ++ OWritten t at2 b2 :: c) /\
  (In (OEnded t (ORet None)) (s_log s) -> exists at_, In (OWritten t at_ bs) (s_log s)).
Proof.
  intros Hc Hr G Hj Hz bs. destruct (permit_bytes z Hz) as (o & Hb & Ht & f & F1 & F2). fold bs in F2.
  pose proof (reachable_inv cap s Hc Hr) as HI.
  assert (B : forall bs', frame_bytes o bs' -> bs' = bs) by (intros bs' (f' & F1' & F2'); congruence).
  split; [|split].
  - intros at_ bs' Hin. destruct (proj2 (I_wrote _ _ HI) t at_ bs' Hin) as (_ & k' & o' & G' & Hb' & _ & Hf).
    rewrite G in G'. injection G' as <-. rewrite Hj in Hb'. rewrite Hb in Hb'. injection Hb' as <-. apply B, Hf.
  - intros a at1 b1 b at2 b2 c E. eapply written_once; [exact (I_life _ _ HI)|exact E].
  - intro Hin. pose proof (get_job cap s t k _ Hc Hr G Hin) as HR. rewrite Hj in HR.
    assert (HA : exists x, Accepted (JPermit z) t (s_log s) x).
    { remember (ORet None) as out eqn:Eo. destruct HR; try discriminate Eo; try (destruct e; discriminate Eo). eauto. }
    assert (HO : exists at_ bs' lb, frame_bytes o bs' /\ outstanding t at_ bs' lb (s_log s)).
    { destruct HA as (x & HA). destruct HA as [o' at_ bs' Hb' _ _ Hf Ho|o' m to at_ bs' lb r Hb' _ Hf Ho _ _ _];
        rewrite Hb in Hb'; injection Hb' as <-; eauto. }
    destruct HO as (at_ & bs' & lb & Hf & la & lc & E & _). rewrite (B bs' Hf) in E. exists at_. rewrite E. apply in_or_app. right. left. reflexivity.
Qed.

Lemma acquire_lock_log t k k0 s : get s t = Some k0 -> mk_task (t_job k) PHold (t_obj k) (t_wid k) = mk_task (t_job k0) PHold (t_obj k0) (t_wid k0) ->
  (exists o, t_obj k = Some o) -> exists l, s_log (acquire_lock t k s) = s_log s ++ l.
Proof.
  intros G E [o Ho]. unfold acquire_lock.
  assert (Eg : granted t k s = granted t k0 s).
  { unfold granted. injection E as E1 E2 E3. rewrite E1, E2. reflexivity. }
  assert (Q : exists l, s_log (note (OQueued t) (set_queue (s_queue s ++ [t]) (goto t PLock s))) = s_log s ++ l).
  { exists [OQueued t]. unfold goto. rewrite G. reflexivity. }
  destruct (s_lock s); [exact Q|]. destruct (s_queue s); [|exact Q].
  rewrite Eg. destruct (granted_log s t k0) as [l El]; [injection E as E1 E2 E3; rewrite <- E2; eauto|exact G|]. eauto.
Qed.
Lemma admitted_when_free cap s t k : 0 <= cap -> reachable cap s -> get s t = Some k -> t_phase k = PSem ->
  uses_sem (t_job k) = true -> Z.of_nat (length (active (s_log s))) < cap ->
  exists l, s_log (step (ERun t) s) = s_log s ++ OAdmitted t :: l.
Proof.
  intros Hc Hr G Hp Hu Hl. pose proof (reachable_inv cap s Hc Hr) as HI. destruct (I_active _ _ HI) as (_ & _ & E).
  pose proof (proj1 (proj2 (I_core _ _ HI)) t k G) as Hk. unfold Task_ok in Hk. rewrite Hp in Hk.
  cbn [step]. unfold resume. rewrite G, Hp. unfold acquire_sem. rewrite Hu. replace (0 <? s_sem s) with true by lia.
  rewrite (goto_some _ _ _ _ G). set (k0 := mk_task (t_job k) PAdm (t_obj k) (t_wid k)).
  set (s1 := note (OAdmitted t) (set_sem (s_sem s - 1) (put t k0 s))).
  assert (G1 : get s1 t = Some k0) by (change (get (put t k0 s) t = Some k0); rewrite (get_put _ _ _ _ _ G), Z.eqb_refl; reflexivity).
  assert (L1 : s_log s1 = s_log s ++ [OAdmitted t]) by reflexivity.
  destruct (acquire_lock_log t k k0 s1 G1 eq_refl) as [l El]; [destruct Hk as (o & Ho & _); eauto|].
  exists l. rewrite El, L1, <- app_assoc. reflexivity.
Qed.
(** every task writes at most once *)
Lemma writers_nodup s : Life s -> NoDup (writers (s_log s)).
Proof.
  intro L. assert (H : forall l a, s_log s = a ++ l -> NoDup (writers l)).
  { induction l as [|x l IH]; intros a E; [constructor|].
    assert (IH' : NoDup (writers l)) by (apply (IH (a ++ [x])); rewrite E, <- app_assoc; reflexivity).
    destruct x; try exact IH'. cbn [writers flat_map app]. constructor; [|exact IH'].
    intro Hin. apply in_flat_map in Hin as (y & Hy & Hin). destruct y; try contradiction. destruct Hin as [->|[]].
    apply in_split in Hy as (b & c & ->). eapply written_once; [exact L|exact E]. }
  apply (H (s_log s) []). reflexivity.
Qed.
