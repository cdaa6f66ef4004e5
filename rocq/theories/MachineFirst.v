(** * MachineFirst: an operation is decided by the first answer that is received while its frame is outstanding *)
From Coq Require Import ZifyBool ZifyNat.
From Verif Require Import Base Types Uart Buffalo CmdTable Zpi Api App Machine SpecWire SpecCodec SpecApi SpecMachine SpecFirst UartProofs CodecProofs CodecProofs2
  ApiProofs AppProofs MachineBase MachineInv MachineInv2 MachineInv3 MachineInv4 MachineInv5 DispatchProofs MachineProofs MachineProofs2 MachineProofs3 MachineProofs4
  MachineProofs6 MachineProofs11 MachineProofs12.

Definition is_for (m : matcher) (r : zpi) : Prop := waiter_match m r = Ok true.
Definition none_of (m : matcher) (lb : list obs) : Prop := forall r, In (OReceived r) lb -> ~ is_for m r.
Lemma none_app m a b : none_of m a -> (forall r, In (OReceived r) b -> ~ is_for m r) -> none_of m (a ++ b).
Proof. intros Ha Hb r H. apply in_app_or in H as [H|H]; auto. Qed.
Lemma first_app P r lb l : first_in P r lb -> first_in P r (lb ++ l).
Proof. intros (a & b & -> & H). exists a, (b ++ l). split; [rewrite <- app_assoc; reflexivity|exact H]. Qed.
Definition told (j : job) (o r : zpi) (out : outcome) : Prop :=
  (out = outcome_of_result j (Some r) /\ (z_type o = SREQ -> unexpected_status r (expected_of j) = None)) \/
  exists c, z_type o = SREQ /\ unexpected_status r (expected_of j) = Some c /\ out = outcome_of_exn j (CommandError c).
Definition decided (j : job) (t : Z) (l : list obs) (o : zpi) (m : matcher) (r : zpi) : Prop :=
  exists at_ bs lb, frame_bytes o bs /\ outstanding t at_ bs lb l /\ first_in (is_for m) r lb.
Lemma decided_mono j t l l' o m r : grows l l' -> decided j t l o m r -> decided j t l' o m r.
Proof. intros G (a & bs & lb & H1 & H2 & H3). exists a, bs, lb. eauto using outstanding_mono. Qed.

Definition First1 (s : st) (t : Z) (k : task) : Prop :=
  match t_phase k with
  | PWait i d => exists o m to at_ bs la lb, t_obj k = Some o /\ build (t_job k) = Ok o /\ awaited o = Some (m, to) /\ frame_bytes o bs /\
      s_log s = la ++ OWritten t at_ bs :: lb /\ ~ In (OFreed t) lb /\ (forall w, In w (s_waiters s) -> w_id w = i -> w_matcher w = m) /\
      match s_futs s i with
      | FPending => (exists w, In w (s_waiters s) /\ w_id w = i) -> none_of m lb
      | FDone r => first_in (is_for m) r lb
      | FCancelled => True
      end
  | PSleep _ => settles (t_job k) = true /\ forall o m to, build (t_job k) = Ok o -> awaited o = Some (m, to) ->
      exists r, decided (t_job k) t (s_log s) o m r /\ (z_type o = SREQ -> unexpected_status r (expected_of (t_job k)) = None)
  | PDone out => by_answer out -> forall o m to, build (t_job k) = Ok o -> awaited o = Some (m, to) ->
      exists r, decided (t_job k) t (s_log s) o m r /\ told (t_job k) o r out
  | _ => True
  end.
Definition First (s : st) : Prop := forall t k, get s t = Some k -> First1 s t k.
Lemma first_none s t k : match t_phase k with PWait _ _ | PSleep _ | PDone _ => False | _ => True end -> First1 s t k.
Proof. unfold First1. destruct (t_phase k); tauto. Qed.
Lemma first_not_by s t k out : t_phase k = PDone out -> ~ by_answer out -> First1 s t k.
Proof. unfold First1. intros ->. tauto. Qed.

(** tasks that are not touched *)
Lemma first_quiet s s' j t k : Own s -> MachineInv4.quiet s s' j -> (forall l, s_log s' = s_log s ++ l -> forall r, ~ In (OReceived r) l) ->
  get s t = Some k -> j <> Some t -> First1 s t k -> First1 s' t k.
Proof.
  intros (O1 & O2 & O3) ((l & El & Hfr) & Hn & Hq) Hnr G Hj F. specialize (Hnr l El). assert (Gr : grows (s_log s) (s_log s')) by (exists l; exact El).
  unfold First1 in *. destruct (t_phase k) eqn:Hp; try exact I.
  - destruct F as (o & m & to & a & bs & la & lb & Ho & Hb & Ha & Hf & E & Hno & Hm & Hs).
    assert (Hi : In i (own k)) by (apply phase_own; rewrite Hp; left; reflexivity).
    destruct (Hq i) as (Q1 & Q2 & Q3); [eapply O1; eassumption| |].
    { intros t2 k2 Ej G2 Hi2. apply Hj. rewrite Ej. f_equal. eapply O2; eassumption. }
    exists o, m, to, a, bs, la, (lb ++ l). repeat (split; [assumption|]). split; [rewrite El, E, <- app_assoc; reflexivity|].
    split; [intro C; apply in_app_or in C as [C|C]; [exact (Hno C)|]; apply Hj; symmetry; apply Hfr, C|].
    split; [intros w Hw Hi2; apply Hm; [apply Q1; assumption|exact Hi2]|].
    destruct Q2 as [Q2|(r & w & Ef & Hw & Hi2 & Hmt & Hr & Ef2)].
    + rewrite Q2. destruct (s_futs s i); [|apply first_app, Hs|exact I]. intros (w & Hw & Hi2). apply none_app; [apply Hs; exists w; split; [apply Q1; assumption|exact Hi2]|].
      intros r Hr. exfalso. exact (Hnr r Hr).
    + exfalso. rewrite Ef in Hs. refine (Hs (ex_intro _ w (conj Hw Hi2)) r _ _).
      * eapply recent_after; [exact Hr|exact E| |]; intros; discriminate.
      * unfold is_for. rewrite <- (Hm w Hw Hi2). exact Hmt.
  - destruct F as [F1 F2]. split; [exact F1|]. intros o m to Hb Ha. destruct (F2 o m to Hb Ha) as (r & Hd & Hu). exists r. split; [eapply decided_mono; eassumption|exact Hu].
  - intros By o m to Hb Ha. destruct (F By o m to Hb Ha) as (x & Hd & Hu). exists x. split; [eapply decided_mono; eassumption|exact Hu].
Qed.

(** the task that holds the link leaves it with an answer *)
Lemma first_leaves s t k i d o r pre l : First s -> get s t = Some k -> t_phase k = PWait i d -> t_obj k = Some o -> s_futs s i = FDone r -> ~ In (OFreed t) pre ->
  exists m to, build (t_job k) = Ok o /\ awaited o = Some (m, to) /\ decided (t_job k) t (s_log s ++ pre ++ OFreed t :: l) o m r.
Proof.
  intros F G Hp Hobj Hr Hpre. specialize (F t k G). unfold First1 in F. rewrite Hp in F.
  destruct F as (o' & m & to & a & bs & la & lb & Ho & Hb & Ha & Hf & E & Hno & Hm & Hs). rewrite Hr in Hs. assert (o' = o) as -> by congruence.
  exists m, to. split; [exact Hb|]. split; [exact Ha|]. exists a, bs, (lb ++ pre). split; [exact Hf|]. split; [|apply first_app, Hs].
  exists la, l. split; [rewrite E; repeat (rewrite <- ?app_assoc; cbn [app]); reflexivity|]. intro C. apply in_app_or in C. tauto.
Qed.
Lemma not_by_exn j e : (forall c, e <> CommandError c) -> ~ by_answer (outcome_of_exn j e).
Proof. intros H. rewrite (outcome_exn j e H). unfold by_answer. destruct e; try tauto. intros _. eapply H. reflexivity. Qed.

Lemma waiter_no_cmd j o c : response_waiter j o <> Err (CommandError c).
Proof.
  assert (H : forall q, create_response_waiter o q <> Err (CommandError c)).
  { intro q. unfold create_response_waiter, dict_getE. destruct (ct_eqb (z_type o) SREQ && startswith (z_cmd o) "dataRequest").
    - destruct (dict_get _ _); cbn [bind]; discriminate.
    - destruct (ct_eqb (z_type o) SREQ && endswith (z_cmd o) "Req"); [|discriminate]. destruct (definition (z_sub o)) as [cs|e] eqn:E; cbn [bind].
      + destruct (find _ cs); [|discriminate]. destruct (dict_get _ _); cbn [bind]; discriminate.
      + destruct (z_sub o); vm_compute in E; congruence. }
  destruct j; cbn [response_waiter]; try discriminate; [destruct expect_reply; [apply H|discriminate]|apply H].
Qed.
Lemma first_prim cap s s' : prim s s' -> Inv cap s -> (forall l, s_log s' = s_log s ++ l -> forall r, ~ In (OReceived r) l) -> First s -> First s'.
Proof.
  intros H HI Hnr F. destruct (I_core _ _ HI) as (_ & Hok & Hown & Hid). pose proof (I_timed _ _ HI) as T. pose proof (I_regs _ _ HI) as R. pose proof (I_waiters _ _ HI) as Hw.
  assert (X : exists j, MachineInv4.quiet s s' j /\ (forall t k', get s' t = Some k' -> get s t = Some k' /\ j <> Some t \/ First1 s' t k')).
  2:{ destruct X as (j & Q & Hch). intros t k G. destruct (Hch t k G) as [[G0 Hj]|Hx]; [|exact Hx]. eapply first_quiet; try eassumption. apply F, G0. }
  clear Hnr. destruct H; prim_nf;
    match goal with
    | H : get ?s ?t = Some ?k |- _ => exists (Some t)
    | |- _ => exists (@None Z)
    end; split.
  all: match goal with
    | |- MachineInv4.quiet _ _ _ => unfold MachineInv4.quiet; opn_all; split; [quiet_log|]; split; [lia|];
         intros i' Hi' Hno; try (split; [auto|]; split; [left; reflexivity|]; auto; fail)
    | |- _ => intros t' k' G; try (left; split; [exact G|discriminate]; fail);
       try (opn_in G; unfold get in H; look G; [|left; split; [exact G|congruence]]; right; try (apply first_none; exact I); try (eapply first_not_by; [reflexivity|]; try (apply not_by_exn; discriminate); tauto))
    end.
  all: try (split; [intros w0 Hw0 Ei; apply in_app_or in Hw0 as [Hw0|[<-|[]]]; [exact Hw0|fldin Ei; lia]|];
            split; [left; apply upd_other; lia|]; intros _ w0 Hw0 _; left; apply in_or_app; left; exact Hw0).
  all: try (split; [auto|]; split; [|auto]; left; apply cancelled_other; intros ->; 
            eapply Hno; [reflexivity|eassumption|]; unfold own; match goal with Hp : t_phase _ = _ |- _ => rewrite Hp end; left; reflexivity).
  - opn_in G. look G; [left; split; [exact E|discriminate]|right; apply first_none; exact I].
  - unfold First1. fld. intros By o m to Hb Ha. exfalso. destruct H1 as [->|[Hb1|(o2 & Hb1 & Hr)]]; [exact By|congruence|].
    destruct e; try exact By. eapply waiter_no_cmd. exact Hr.
  - unfold get in *. change (assoc t' (s_tasks s) = Some k') in G. destruct (Z.eq_dec t t') as [<-|Hne].
    + right. rewrite G in H. injection H as ->. apply first_none. rewrite H0. exact I.
    + left. split; [exact G|congruence].
  - unfold First1, written. fld. pose proof (Hok _ _ H) as Hk. unfold Task_ok in Hk. rewrite H0 in Hk.
    destruct Hk as (o' & Ho & Hb & _). exists o, m, to, (s_now s), bs. eexists _, []. 
    split; [assumption|]. split; [congruence|]. split; [assumption|]. split; [exists f; auto|]. split; [reflexivity|]. split; [intros []|]. split.
    + intros w Hw1 Hi. destruct Hid as (_ & _ & Hlt & _). apply in_app_or in Hw1 as [Hw1|[<-|[]]]; [specialize (Hlt w Hw1); lia|reflexivity].
    + rewrite upd_same. intros _ r [].
  - unfold First1. fld. split; [assumption|]. intros o2 m to Hb Ha. exfalso. pose proof (Hok _ _ H) as Hk. unfold Task_ok in Hk. rewrite H0 in Hk.
    destruct Hk as (o' & Ho & Hb2 & _). congruence.
  - unfold First1. fld. intros _ o2 m to Hb Ha. exfalso. pose proof (Hok _ _ H) as Hk. unfold Task_ok in Hk. rewrite H0 in Hk.
    destruct Hk as (o' & Ho & Hb2 & _). congruence.
  - eapply first_not_by; [reflexivity|]. apply not_by_exn. intros c ->. destruct H2 as [E|[[_ [[E _]|(f & _ & E)]]|(_ & _ & E)]]; try discriminate E.
    + revert E. apply frame_no_cmd.
    + revert E. apply to_buffer_no_cmd.
  - destruct (first_leaves s t k i d o r [] [] F H H0 H1 H2 (fun x => x)) as (m & to & Hb & Ha & Hd).
    unfold First1. fld. split; [assumption|]. intros o2 m2 to2 Hb2 Ha2. assert (o2 = o) as -> by congruence. exists r.
    split; [|exact H3]. opn. cbn [app] in Hd. replace m2 with m by congruence. exact Hd.
  - destruct (first_leaves s t k i d o r [] [OEnded t (outcome_of_result (t_job k) (Some r))] F H H0 H1 H2 (fun x => x)) as (m & to & Hb & Ha & Hd).
    unfold First1. fld. intros _ o2 m2 to2 Hb2 Ha2. assert (o2 = o) as -> by congruence. exists r.
    split; [|left; split; [reflexivity|exact H3]]. opn; repeat (rewrite <- ?app_assoc; cbn [app]). replace m2 with m by congruence. exact Hd.
  - destruct (first_leaves s t k i d o r [] [OEnded t (outcome_of_exn (t_job k) (CommandError c))] F H H0 H1 H2 (fun x => x)) as (m & to & Hb & Ha & Hd).
    unfold First1. fld. intros _ o2 m2 to2 Hb2 Ha2. assert (o2 = o) as -> by congruence. exists r.
    split; [|right; exists c; auto]. opn; repeat (rewrite <- ?app_assoc; cbn [app]). replace m2 with m by congruence. exact Hd.
  - assert (Hne : i' <> j).
    { intros ->. eapply Hno; [reflexivity|eassumption|]. unfold own. apply in_or_app. right.
      match goal with Hw : t_wid _ = Some _ |- _ => rewrite Hw end. left. reflexivity. }
    split; [intros w0 Hw0 _; apply filter_In in Hw0; apply Hw0|]. split; [left; apply resulted_other; exact Hne|].
    intros _ w0 Hw0 Ei. left. apply filter_In. split; [exact Hw0|]. apply negb_true_iff, Z.eqb_neq. congruence.
  - destruct (first_leaves s t k i d o r [OCompleted j r] [OEnded t (outcome_of_exn (t_job k) (CommandError c))] F H H0 H1 H2) as (m & to & Hb & Ha & Hd).
    { intros [C|[]]; discriminate. }
    unfold First1. fld. intros _ o2 m2 to2 Hb2 Ha2. assert (o2 = o) as -> by congruence. exists r.
    split; [|right; exists c; auto]. opn; repeat (rewrite <- ?app_assoc; cbn [app]). replace m2 with m by congruence. exact Hd.
  - unfold First1. fld. intros _ o m to Hb Ha. pose proof (F _ _ H) as F1. unfold First1 in F1. rewrite H0 in F1. destruct F1 as [Hs F1].
    destruct (F1 o m to Hb Ha) as (r & Hd & Hu). exists r. split; [eapply decided_mono; [|exact Hd]; opn; eexists; reflexivity|].
    left. split; [apply settles_result, Hs|exact Hu].
  - unfold First1. fld. intros _ o m to Hb Ha. exfalso. pose proof (Hw _ _ H) as W. unfold Waits in W. rewrite H0 in W. destruct W as (m1 & to1 & a1 & Hj & _).
    rewrite Hj in Hb. discriminate.
  - split; [intros w0 Hw0 _; destruct (s_futs s i); try exact Hw0; apply filter_In in Hw0; apply Hw0|].
    split; [left; reflexivity|]. intros Hp w0 Hw0 Ei. destruct (Z.eq_dec i' i) as [->|Hne].
    + right. destruct Hdue as (d & Hd & Hle). eapply due_registered; eassumption.
    + left. assert (Hf : In w0 (filter (fun w0 => negb (w_id w0 =? i)) (s_waiters s))).
      { apply filter_In. split; [exact Hw0|]. apply negb_true_iff, Z.eqb_neq. congruence. }
      destruct (s_futs s i); assumption.
  - split; [intros w0 Hw0 _; apply filter_In in Hw0; apply Hw0|]. destruct (Z.eq_dec i' (w_id w)) as [->|Hne].
    + unfold resulted. destruct (s_futs s (w_id w)) eqn:Ef.
      * split; [right; exists o, w; repeat (split; [first [assumption|reflexivity]|]); apply upd_same|].
        rewrite upd_same. discriminate.
      * rewrite upd_same. split; [left; reflexivity|]. discriminate.
      * rewrite upd_same. split; [left; reflexivity|]. discriminate.
    + split; [left; apply resulted_other, Hne|]. intros _ w0 Hw0 Ei. left. apply filter_In. split; [exact Hw0|].
      apply negb_true_iff, Z.eqb_neq. congruence.
Qed.
Lemma first_prims cap s s' : prims s s' -> Inv cap s -> (forall l, s_log s' = s_log s ++ l -> forall r, ~ In (OReceived r) l) -> First s -> First s'.
Proof.
  induction 1 as [s|s1 s2 s3 H Hs IH]; intros HI Hn F; [exact F|]. destruct (log_prim s1 s2 H) as [l1 E1]. destruct (log_prims s2 s3 Hs) as [l2 E2].
  assert (N : forall r, ~ In (OReceived r) (l1 ++ l2)) by (apply Hn; rewrite E2, E1, <- app_assoc; reflexivity).
  apply IH; [eapply inv_prim; eassumption| |].
  - intros l E r C. rewrite E2 in E. apply app_inv_head in E. subst l. apply (N r), in_or_app. right. exact C.
  - eapply first_prim; [exact H|exact HI| |exact F]. intros l E r C. rewrite E1 in E. apply app_inv_head in E. subst l. apply (N r), in_or_app. left. exact C.
Qed.

(** ** a received message *)
Lemma wanted_kind m q sq : wanted m q sq -> m_type m = AREQ /\ (m_sub m = AF \/ m_sub m = ZDO).
Proof. intros [(v & -> & _)|(rsp & a & -> & _)]; auto. Qed.
Lemma awaited_kind o m to : awaited o = Some (m, to) -> m_type m = SRSP \/ m_sub m = SYS.
Proof. unfold awaited. destruct (z_type o); try discriminate; [|destruct (is_reset_command o); [|discriminate]]; intro H; injection H as <- _; cbn; auto. Qed.
Lemma first_received cap s f : Inv cap s -> Origin s ->
  (forall r, from_unpi_frame f = Ok r -> forall t k m to, get s t = Some k -> t_job k = JWaitFor m to -> has_fields m r) -> First s -> First (fst (data_received s f)).
Proof.
  intros HI O Hw F. destruct (from_unpi_frame f) as [r|e] eqn:Hf; [|unfold data_received; rewrite Hf; exact F].
  destruct (I_core _ _ HI) as (_ & Hok & Hown & Hid).
  destruct (receives_message s f) as [_ _ _ _ _ _ _ _ _ _ _ Rnew].
  destruct (data_received_spec s f r Hf Hid) as (pre & post & o' & x & l & E & Hst & W & Fut & _ & L & Hl). cbv zeta in *.
  set (s' := fst (data_received s f)) in *. clearbody s'.
  assert (Gr : grows (s_log s) (s_log s')) by (eexists; exact L).
  intros t k G. destruct (Rnew t k G) as [G0|(mode & ->)]; [|apply first_none; exact I]. specialize (F t k G0).
  unfold First1 in *. destruct (t_phase k) eqn:Hp; try exact I.
  2:{ destruct F as [F1 F2]. split; [exact F1|]. intros o m to Hb Ha. destruct (F2 o m to Hb Ha) as (y & Hd & Hu). exists y. split; [eapply decided_mono; eassumption|exact Hu]. }
  2:{ intros By o m to Hb Ha. destruct (F By o m to Hb Ha) as (y & Hd & Hu). exists y. split; [eapply decided_mono; eassumption|exact Hu]. }
  destruct F as (o & m & to & a & bs & la & lb & Ho & Hb & Ha & Hfb & El & Hno & Hm & Hs).
  set (news := OReceived r :: map (fun w => OCompleted (w_id w) r) (filter (hit r) pre) ++ l) in *.
  assert (Hnews : forall y, In (OReceived y) news -> y = r).
  { intros y [C|C]; [congruence|]. exfalso. apply in_app_or in C as [C|C]; [apply in_map_iff in C as (w & C & _); discriminate C|].
    rewrite Forall_forall in Hl. apply Hl in C. exact C. }
  assert (Hsub : forall w, In w (s_waiters s') -> In w (s_waiters s)).
  { intros w Hin. rewrite W in Hin. rewrite E. apply in_app_or in Hin as [Hin|Hin]; apply in_or_app; [left; apply filter_In in Hin; apply Hin|right; exact Hin]. }
  exists o, m, to, a, bs, la, (lb ++ news). repeat (split; [assumption|]). split; [rewrite L, El, <- app_assoc; reflexivity|].
  split. { intro C. apply in_app_or in C as [C|[C|C]]; [exact (Hno C)|discriminate|]. apply in_app_or in C as [C|C]; [apply in_map_iff in C as (w & C & _); discriminate C|].
    rewrite Forall_forall in Hl. apply Hl in C. exact C. }
  split; [intros w Hin; apply Hm, Hsub, Hin|].
  (* nothing before the waiter raises or stops a message it waits for *)
  assert (Hall : is_for m r -> post = []).
  { intro Hr. apply matched in Hr as (M1 & M2 & M3). pose proof (awaited_kind _ _ _ Ha) as Hk.
    assert (Hx : forall w, In w (s_waiters s) -> (forall sq, wanted (w_matcher w) (w_seq w) sq -> ~ (m_type (w_matcher w) = z_type r /\ m_sub (w_matcher w) = z_sub r))).
    { intros w _ sq Hwt [X1 X2]. apply wanted_kind in Hwt as [Y1 Y2]. destruct Hk as [Hk|Hk]; [congruence|]. destruct Y2; congruence. }
    destruct Hst as [p Hpa|p w q po Hpa H1 H2 H3|p w e po Hpa H1]; [reflexivity| |]; exfalso.
    - assert (Hin : In w (s_waiters s)) by (rewrite E; apply in_or_app; left; apply in_or_app; right; left; reflexivity).
      apply hit_answers in H1 as (A1 & A2 & A3 & _). destruct (O w Hin) as [(N & _)|[(N & _)|(sq & Hwt)]]; [congruence|congruence|]. exact (Hx w Hin sq Hwt (conj A1 A2)).
    - assert (Hin : In w (s_waiters s)) by (rewrite E; apply in_or_app; right; left; reflexivity).
      assert (Hh : has_fields (w_matcher w) r); [|exact (no_raise_ok _ _ Hh e H1)].
      destruct (O w Hin) as [(_ & o2 & to2 & A)|[(_ & t2 & k2 & to2 & G2 & Hj)|(sq & Hwt)]].
      + intros _ _ _. rewrite (awaited_payload _ _ _ A). constructor.
      + eapply (Hw r eq_refl); eassumption.
      + intros X1 X2 _. exfalso. exact (Hx w Hin sq Hwt (conj X1 X2)). }
  rewrite Fut. destruct (with_id (filter (hit r) pre) i) eqn:Ei.
  - apply existsb_exists in Ei as (w & Hin & Ew). apply filter_In in Hin as [Hin Hh]. apply Z.eqb_eq in Ew.
    assert (Hws : In w (s_waiters s)) by (rewrite E; apply in_or_app; left; exact Hin). pose proof (Hm w Hws Ew) as Em.
    assert (Hr : is_for m r) by (unfold is_for; rewrite <- Em; apply match_answers, hit_answers, Hh).
    destruct (s_futs s i); [|apply first_app, Hs|exact I].
    exists lb, (map (fun w => OCompleted (w_id w) r) (filter (hit r) pre) ++ l). split; [reflexivity|]. split; [exact Hr|]. apply Hs. eauto.
  - destruct (s_futs s i); [|apply first_app, Hs|exact I]. intros (w & Hin & Ew). apply none_app; [apply Hs; eauto|].
    intros y Hy Hr. apply Hnews in Hy as ->. pose proof (Hsub w Hin) as Hws. rewrite (Hall Hr), app_nil_r in *.
    rewrite E in Hws. assert (C : with_id (filter (hit r) pre) i = true); [|congruence]. apply existsb_exists. exists w. split; [|apply Z.eqb_eq, Ew].
    apply filter_In. split; [exact Hws|]. apply hit_answers, match_answers. rewrite (Hm w); [exact Hr| |exact Ew]. rewrite E. exact Hws.
Qed.

(** ** any event, any history *)
Lemma fields_before s s' : prims s s' -> fields_exist s' -> fields_exist s.
Proof.
  intros P H t k m to r G Hj Hin. destruct (same_job_prims s s' P t k G) as (k' & G' & Hj'). eapply H; [exact G'|rewrite Hj'; exact Hj|].
  eapply grows_in; [apply log_prims, P|exact Hin].
Qed.
Lemma first_gw cap bs : forall b s, Inv cap s -> Origin s -> First s -> fields_exist (snd (fst (gw_data_received data_received b s bs))) ->
  First (snd (fst (gw_data_received data_received b s bs))).
Proof.
  induction bs as [|x bs IH]; intros b s HI O F; cbn [gw_data_received]; [intros _; exact F|].
  destruct (parser_write b x) as [b1 [[f|]|e]]; [|apply IH; assumption|intros _; exact F].
  pose proof (data_received_prims s f (I_core _ _ HI)) as P. destruct (data_received s f) as [s1 r1] eqn:Ed. cbn [fst] in P.
  assert (HI1 : Inv cap s1) by (eapply inv_prims; eassumption). assert (O1 : Origin s1) by (eapply (prims_inv Origin origin_prim); eassumption).
  assert (F1 : fields_exist s1 -> First s1).
  { intro Hx. replace s1 with (fst (data_received s f)) by (rewrite Ed; reflexivity). eapply first_received; [exact HI|exact O| |exact F].
    intros r Hf t k m to G Hj. destruct (same_job_prims s s1 P t k G) as (k' & G' & Hj'). eapply Hx; [exact G'|rewrite Hj'; exact Hj|].
    destruct (I_core _ _ HI) as (_ & _ & _ & Hid).
    destruct (data_received_spec s f r Hf Hid) as (pre & post & o' & y & l & _ & _ & _ & _ & _ & L & _). cbv zeta in L. rewrite Ed in L. cbn [fst] in L. rewrite L.
    apply in_or_app. right. left. reflexivity. }
  destruct r1 as [[]|e]; [|cbn [fst snd]; exact F1]. intro Hx. apply IH; [exact HI1|exact O1| |exact Hx].
  apply F1. eapply fields_before; [apply gw_prims, HI1|exact Hx].
Qed.
(** only a chunk from the port brings messages *)
Definition recvs (l : list obs) : list zpi := flat_map (fun o => match o with OReceived r => [r] | _ => [] end) l.
Definition rc (s : st) : list zpi := recvs (s_log s).
Lemma recvs_app a b : recvs (a ++ b) = recvs a ++ recvs b.
Proof. unfold recvs. apply flat_map_app. Qed.
Lemma rc_note o s : (forall r, o <> OReceived r) -> rc (note o s) = rc s.
Proof. intro H. unfold rc. change (s_log (note o s)) with (s_log s ++ [o]). rewrite recvs_app. destruct o; try apply app_nil_r. destruct (H o eq_refl). Qed.
Lemma rc_goto t p s : rc (goto t p s) = rc s.
Proof. unfold goto. destruct (get s t); reflexivity. Qed.
Ltac rcn := rewrite rc_note by discriminate.
Lemma rc_finish t r s : rc (finish t r s) = rc s.
Proof. unfold finish. rcn. apply rc_goto. Qed.
Lemma rc_free_sem j s : rc (free_sem j s) = rc s.
Proof. unfold free_sem. destruct (uses_sem j); reflexivity. Qed.
Lemma rc_free_lock t s : rc (free_lock t s) = rc s.
Proof. unfold free_lock. rcn. change (rc (set_lock None (goto t PRel s))) with (rc (goto t PRel s)). apply rc_goto. Qed.
Lemma rc_raise t j e s : rc (raw_raise t j e s) = rc s.
Proof. unfold raw_raise. rewrite rc_finish, rc_free_sem. apply rc_free_lock. Qed.
Lemma rc_return t j r s : rc (raw_return t j r s) = rc s.
Proof. unfold raw_return. destruct (settles j); [rewrite rc_goto|rewrite rc_finish, rc_free_sem]; apply rc_free_lock. Qed.
Lemma rc_wait_for m to q s : rc (wait_for m to q s) = rc s.
Proof. unfold wait_for. rcn. reflexivity. Qed.
Lemma rc_send t f s : rc (fst (uart_send t f s)) = rc s.
Proof. unfold uart_send. destruct (s_open s); [|reflexivity]. destruct (gw_send [] f) as [w [u|e]]; cbn [fst]; [rcn|]; reflexivity. Qed.
Lemma rc_send_and_wait t j f m to s : rc (send_and_wait t j f m to s) = rc s.
Proof.
  unfold send_and_wait. pose proof (rc_send t f (wait_for m to None s)) as H. destruct (uart_send t f (wait_for m to None s)) as [s1 [u|e]]; cbn [fst] in H;
    [rewrite rc_goto|rewrite rc_raise]; rewrite H; apply rc_wait_for.
Qed.
Lemma rc_request_raw t j o s : rc (request_raw t j o s) = rc s.
Proof.
  unfold request_raw. destruct (to_unpi_frame o) as [f|e]; [|apply rc_raise]. destruct (z_type o); try apply rc_raise; [apply rc_send_and_wait|].
  destruct (is_reset_command o); [apply rc_send_and_wait|]. pose proof (rc_send t f s) as H. destruct (uart_send t f s) as [s1 [u|e]]; cbn [fst] in H;
    [rewrite rc_return|rewrite rc_raise]; exact H.
Qed.
Lemma rc_complete i o s : rc (fst (complete i o s)) = rc s.
Proof. unfold complete. cbv zeta. destruct (set_result _ o); cbn [fst]; [change (rc (note (OCompleted i o) (unregister i s)) = rc s)|]; rcn; reflexivity. Qed.
Lemma rc_resume_raw t k o r s : rc (request_raw_resume t k o r s) = rc s.
Proof.
  unfold request_raw_resume. destruct (z_type o); try apply rc_return. destruct (unexpected_status r (expected_of (t_job k))); [|apply rc_return].
  destruct (t_wid k) as [i|]; [|apply rc_raise]. destruct (registered s i); [|apply rc_raise]. pose proof (rc_complete i r s) as H. destruct (complete i r s) as [s1 x].
  cbn [fst] in H. rewrite rc_raise. exact H.
Qed.
Lemma rc_granted t k s : rc (granted t k s) = rc s.
Proof.
  assert (H : rc (note (OGranted t) (set_lock (Some t) (goto t PHold s))) = rc s).
  { rcn. change (rc (goto t PHold s) = rc s). apply rc_goto. }
  unfold granted. cbv zeta. destruct (t_obj k); [rewrite rc_request_raw|]; exact H.
Qed.
Lemma rc_acquire_lock t k s : rc (acquire_lock t k s) = rc s.
Proof.
  assert (H : rc (note (OQueued t) (set_queue (s_queue s ++ [t]) (goto t PLock s))) = rc s) by (rcn; apply rc_goto).
  unfold acquire_lock. destruct (s_lock s); [exact H|]. destruct (s_queue s); [apply rc_granted|exact H].
Qed.
Lemma rc_acquire_sem t k s : rc (acquire_sem t k s) = rc s.
Proof.
  unfold acquire_sem. destruct (uses_sem (t_job k)); [destruct (0 <? s_sem s); [|reflexivity]; rewrite rc_acquire_lock; rcn; apply rc_goto|rewrite rc_acquire_lock; apply rc_goto].
Qed.
Lemma rc_start t k s : rc (start t k s) = rc s.
Proof.
  unfold start. destruct (t_job k); try (rewrite rc_goto; apply rc_wait_for);
    (destruct (build _); [|apply rc_finish]; destruct (response_waiter _ _) as [[[m q]|]|e]; [| |apply rc_finish]; rewrite rc_acquire_sem; [apply rc_wait_for|reflexivity]).
Qed.
Lemma rc_cancel_fut i s : rc (cancel_fut i s) = rc s.
Proof. unfold cancel_fut. destruct (s_futs s i); reflexivity. Qed.
Lemma rc_step e s : match e with ERecv _ => False | _ => True end -> rc (step e s) = rc s.
Proof.
  destruct e; intro H; cbn [step]; try destruct H; try reflexivity.
  - unfold spawn. rcn. reflexivity.
  - unfold resume. destruct (get s t) as [k|]; [|reflexivity]. destruct (t_phase k); try reflexivity.
    + apply rc_start.
    + apply rc_acquire_sem.
    + destruct (s_lock s); [reflexivity|]. destruct (s_queue s); [reflexivity|]. destruct (_ =? t); [|reflexivity]. rewrite rc_granted. reflexivity.
    + destruct (s_futs s i); try reflexivity. destruct (t_obj k); [|reflexivity]. apply rc_resume_raw.
    + destruct (_ <=? _); [|reflexivity]. rewrite rc_finish. apply rc_free_sem.
    + apply rc_goto.
    + destruct (s_futs s i); try reflexivity. apply rc_finish.
  - unfold wait_timeout. destruct (get s t) as [k|]; [|reflexivity]. destruct (t_phase k); try reflexivity;
      destruct (s_futs s i); try reflexivity; (destruct (_ <=? _); [|reflexivity]); rewrite ?rc_raise, ?rc_finish; apply rc_cancel_fut.
  - unfold cancel. destruct (get s t) as [k|]; [|reflexivity]. destruct (t_phase k); try reflexivity; rewrite ?rc_raise, ?rc_finish, ?rc_free_sem, ?rc_cancel_fut; reflexivity.
  - unfold cleanup. destruct (find _ _); [|reflexivity]. cbv zeta. cbn [set_timers s_futs]. destruct (s_futs s i); reflexivity.
  - destruct (0 <=? ms); reflexivity.
Qed.
Lemma no_received s s' : rc s' = rc s -> forall l, s_log s' = s_log s ++ l -> forall r, ~ In (OReceived r) l.
Proof.
  unfold rc. intros H l E r Hin. rewrite E, recvs_app in H. assert (Hl : recvs l = []).
  { apply (app_inv_head (recvs (s_log s))). rewrite H. symmetry. apply app_nil_r. }
  assert (C : In r (recvs l)) by (apply in_flat_map; exists (OReceived r); split; [exact Hin|left; reflexivity]). rewrite Hl in C. exact C.
Qed.
Lemma first_step cap e s : Inv cap s -> Origin s -> First s -> fields_exist (step e s) -> First (step e s).
Proof.
  intros HI O F Hx. pose proof (step_prims e s (I_core _ _ HI)) as P.
  destruct e; try (eapply first_prims; [exact P|exact HI|apply no_received, rc_step; exact I|exact F]).
  cbn [step] in *. unfold receive in *. pose proof (gw_prims data s (s_buf s) (I_core _ _ HI)) as Pg.
  pose proof (first_gw cap data (s_buf s) s HI O F) as Fg. destruct (gw_data_received data_received (s_buf s) s data) as [[b s1] r]. cbn [fst snd] in *.
  assert (HI1 : Inv cap s1) by (eapply inv_prims; eassumption).
  assert (P2 : prims s1 (match r with Ok _ => set_buf b s1 | Err e => note (ORaised e) (set_buf b s1) end)).
  { destruct r; [apply prims_one, P_buf|eapply prims_cons; [apply P_buf|apply prims_one, P_raised]]. }
  eapply first_prims; [exact P2|exact HI1| |apply Fg; eapply fields_before; eassumption].
  apply no_received. destruct r; [reflexivity|]. rcn. reflexivity.
Qed.
Lemma first_run cap es : forall s, Inv cap s -> Origin s -> First s -> fields_exist (run es s) -> First (run es s).
Proof.
  induction es as [|e es IH]; intros s HI O F Hx; [exact F|]. change (run (e :: es) s) with (run es (step e s)) in *.
  pose proof (step_prims e s (I_core _ _ HI)) as P. assert (HI1 : Inv cap (step e s)) by (eapply inv_prims; eassumption).
  apply IH; [exact HI1|eapply (prims_inv Origin origin_prim); eassumption| |exact Hx].
  eapply first_step; [exact HI|exact O|exact F|]. eapply fields_before; [apply run_prims, (I_core _ _ HI1)|exact Hx].
Qed.

(** ** the theorems *)
Lemma first_ended cap s t k o m to out : 0 <= cap -> reachable cap s -> fields_exist s -> get s t = Some k -> build (t_job k) = Ok o ->
  awaited o = Some (m, to) -> In (OEnded t out) (s_log s) -> by_answer out ->
  exists r, decided (t_job k) t (s_log s) o m r /\ told (t_job k) o r out.
Proof.
  intros Hc Hr Hx G B A E By. destruct (ended_reason cap s t out Hc Hr E) as (k' & G' & Hp & _). assert (k' = k) as -> by congruence.
  assert (F : First s).
  { destruct Hr as (v & d & a & es & ->). eapply first_run; [apply inv_init, Hc|intros w []| |exact Hx]. intros t1 k1 C. discriminate C. }
  specialize (F t k G). unfold First1 in F. rewrite Hp in F. exact (F By o m to B A).
Qed.
Lemma first_equiv (P Q : zpi -> Prop) r lb : (forall x, P x <-> Q x) -> first_in P r lb -> first_in Q r lb.
Proof. intros H (a & b & E & Hp & Hn). exists a, b. split; [exact E|]. split; [apply H, Hp|]. intros x Hx C. apply (Hn x Hx), H, C. Qed.
Lemma first_answer cap s t k o out : 0 <= cap -> reachable cap s -> fields_exist s -> get s t = Some k -> build (t_job k) = Ok o ->
  z_type o = SREQ -> In (OEnded t out) (s_log s) -> by_answer out ->
  exists at_ bs lb r, frame_bytes o bs /\ outstanding t at_ bs lb (s_log s) /\ first_in (response_to o) r lb /\ tells (t_job k) r out.
Proof.
  intros Hc Hr Hx G B T E By. pose proof (MachineBase.awaited_sreq o T) as A.
  destruct (first_ended cap s t k o _ _ out Hc Hr Hx G B A E By) as (r & (a & bs & lb & Hf & Ho & H1) & Ht).
  exists a, bs, lb, r. split; [exact Hf|]. split; [exact Ho|]. split.
  { eapply first_equiv; [|exact H1]. intro x. unfold is_for, response_to. rewrite match_answers. unfold answers. cbn [m_type m_sub m_cmd m_payload].
    split; [intros (? & ? & ? & _); auto|intros (? & ? & ?); repeat (split; [congruence|]); constructor]. }
  assert (Hin : In (OReceived r) (s_log s)).
  { destruct H1 as (b & c & -> & _). destruct Ho as (la & lc & -> & _). apply in_or_app. right. right. apply in_or_app. left. apply in_or_app. right. left. reflexivity. }
  destruct (I_received _ _ (reachable_inv cap s Hc Hr) r Hin) as (f & Hd).
  destruct Ht as [(-> & Hu)|(c & _ & Hu & ->)]; [right|left].
  - split; [|destruct (t_job k); reflexivity]. intros v Hv. destruct (status_is_int f r v Hd Hv) as (c & ->). exists c. split; [reflexivity|]. eapply unexpected_none; [apply Hu, T|exact Hv].
  - apply unexpected_some in Hu as (H2 & H3). exists c. split; [exact H2|]. split; [exact H3|]. apply reported_exn.
Qed.
Lemma first_reset cap s t k o out : 0 <= cap -> reachable cap s -> fields_exist s -> get s t = Some k -> build (t_job k) = Ok o ->
  z_type o = AREQ -> resets o -> In (OEnded t out) (s_log s) -> by_answer out ->
  exists at_ bs lb r, frame_bytes o bs /\ outstanding t at_ bs lb (s_log s) /\ first_in reset_ind r lb /\ out = outcome_of_result (t_job k) (Some r).
Proof.
  intros Hc Hr Hx G B T R E By. assert (A : awaited o = Some (mk_matcher AREQ SYS "resetInd" [], Timeouts_reset)).
  { unfold awaited. rewrite T. apply is_reset in R. rewrite R. reflexivity. }
  destruct (first_ended cap s t k o _ _ out Hc Hr Hx G B A E By) as (r & (a & bs & lb & Hf & Ho & H1) & Ht).
  exists a, bs, lb, r. split; [exact Hf|]. split; [exact Ho|]. split.
  { eapply first_equiv; [|exact H1]. intro x. unfold is_for, reset_ind. rewrite match_answers. unfold answers. cbn [m_type m_sub m_cmd m_payload].
    split; [intros (? & ? & ? & _); auto|intros (? & ? & ?); repeat (split; [congruence|]); constructor]. }
  destruct Ht as [(-> & Hu)|(c & C & _)]; [reflexivity|congruence].
Qed.
