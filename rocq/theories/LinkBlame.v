(** * LinkBlame: one API object of the world: what its tasks may be told and what they have not been given *)
From Coq Require Import ZifyBool ZifyNat.
From Verif Require Import Base Types Uart Buffalo CmdTable Zpi Api App Machine Life World SpecWire SpecCodec SpecApi SpecMachine SpecFirst SpecBlame SpecWorld SpecWorldBlame
  UartProofs CodecProofs CodecProofs2 ApiProofs AppProofs MachineBase MachineInv MachineInv2 MachineInv3 MachineInv4 MachineInv5 DispatchProofs MachineProofs MachineProofs2
  MachineProofs3 MachineProofs4 MachineProofs6 MachineProofs11 MachineProofs12 MachineFirst MachineBlame MachineProgress WorldInv WorldFace WorldBase.

(** ** what a task may yet be told, as long as no time passes and the port stays as it is *)
Definition WhyW (Late Shut : Z -> Prop) (l : list obs) (t : Z) (k : task) (e : exn) : Prop :=
  e = CancelledError \/ unsendable (t_job k) e \/ (e = AttributeError /\ Shut t) \/ (e = TimeoutError /\ (Late t \/ impatient (t_job k))) \/
  (exists c, e = CommandError c /\ refusal (t_job k) t l c) \/
  (e = KeyError /\ exists c i, refusal (t_job k) t l c /\ t_wid k = Some i).
Definition NowW1 (Late Shut : Z -> Prop) (s : st) (t : Z) (k : task) : Prop :=
  match t_phase k with
  | PWait i d => s_futs s i = FPending -> s_now s < d \/ Late t
  | PReg i _ | PAwait i _ => s_futs s i = FPending -> (exists at_ to m, t_job k = JWaitFor m to /\ In (ORegistered i at_ to) (s_log s) /\ s_now s < at_ + to) \/ Late t \/ impatient (t_job k)
  | PDone (OExn e) => WhyW Late Shut (s_log s) t k e
  | _ => True
  end.
Definition NowW (Late Shut : Z -> Prop) (s : st) : Prop := forall t k, get s t = Some k -> NowW1 Late Shut s t k.
(** whoever has not ended may find the port closed *)
Definition may_find (Shut : Z -> Prop) (s : st) : Prop := s_open s = false -> forall t, (forall k, get s t = Some k -> ended (t_phase k) = false) -> Shut t.

Lemma whyW_mono (L L' S S' : Z -> Prop) l l' t k e : (L t -> L' t) -> (S t -> S' t) -> grows l l' -> WhyW L S l t k e -> WhyW L' S' l' t k e.
Proof.
  intros HL HS G [H|[H|[[H1 H2]|[[H1 H2]|[(c & H1 & H2)|(H & c & i & H1 & H2)]]]]]; unfold WhyW; auto 8.
  - do 3 right. left. split; [exact H1|]. destruct H2; auto.
  - do 4 right. left. exists c. split; [exact H1|eapply refusal_mono; eassumption].
  - do 5 right. split; [exact H|]. exists c, i. split; [eapply refusal_mono; eassumption|auto].
Qed.
Lemma nowW_mono L S s s' t k : s_now s' = s_now s -> grows (s_log s) (s_log s') ->
  (forall i, s_futs s' i = FPending -> s_futs s i = FPending) -> NowW1 L S s t k -> NowW1 L S s' t k.
Proof.
  intros En Gr Hf N. unfold NowW1 in *. destruct (t_phase k); try exact I.
  - rewrite En. intro H. apply N, Hf, H.
  - rewrite En. intro H. destruct N as [(a & to & m & H1 & H2 & H3)|H1]; [apply Hf, H| |right; exact H1]. left. exists a, to, m.
    split; [exact H1|]. split; [eapply grows_in; eassumption|exact H3].
  - rewrite En. intro H. destruct N as [(a & to & m & H1 & H2 & H3)|H1]; [apply Hf, H| |right; exact H1]. left. exists a, to, m.
    split; [exact H1|]. split; [eapply grows_in; eassumption|exact H3].
  - destruct r; auto. eapply whyW_mono; [| |exact Gr|exact N]; auto.
Qed.
Lemma nowW_weaken (L L' S S' : Z -> Prop) s : (forall t, L t -> L' t) -> (forall t, S t -> S' t) -> NowW L S s -> NowW L' S' s.
Proof.
  intros HL HS N t k G. specialize (N t k G). unfold NowW1 in *. destruct (t_phase k); try exact I.
  - intro H. destruct (N H); auto.
  - intro H. destruct (N H) as [X|[X|X]]; auto.
  - intro H. destruct (N H) as [X|[X|X]]; auto.
  - destruct r; auto. eapply whyW_mono; [apply HL|apply HS|apply grows_refl|exact N].
Qed.
Lemma whyW_exn L S s t k j e : t_phase k = PDone (outcome_of_exn j e) -> WhyW L S (s_log s) t k e -> NowW1 L S s t k.
Proof.
  intros Hp W. unfold NowW1. rewrite Hp. destruct (outcome_of_exn j e) as [r|c|e'] eqn:E; auto.
  assert (e' = e) as ->; [|exact W]. unfold outcome_of_exn in E. destruct e; try congruence. destruct (_ && _) in E; congruence.
Qed.
Lemma nowW_nothing L S s t k : match t_phase k with PWait _ _ | PReg _ _ | PAwait _ _ | PDone (OExn _) => False | _ => True end -> NowW1 L S s t k.
Proof. unfold NowW1. destruct (t_phase k); try tauto. destruct r; tauto. Qed.
Lemma nowW_result L S s t k j x : t_phase k = PDone (outcome_of_result j x) -> NowW1 L S s t k.
Proof. intros Hp. apply nowW_nothing. rewrite Hp. destruct j; exact I. Qed.
Lemma refused_hereW s t k i d o r c pre l : WaitersW s -> get s t = Some k -> t_phase k = PWait i d -> t_obj k = Some o -> s_futs s i = FDone r ->
  z_type o = SREQ -> unexpected_status r (expected_of (t_job k)) = Some c -> ~ In (OFreed t) pre -> refusal (t_job k) t (s_log s ++ pre ++ OFreed t :: l) c.
Proof.
  intros W G Hp Ho Hf Ht Hu Hpre. destruct (leavesW s t k i d pre l W G Hp Hpre) as (o' & m & to & a & bs & lb & Ho' & Hb & Ha & Hfb & Hd & Hout & Hr).
  assert (o' = o) as -> by congruence. destruct (Hr r Hf) as [R1 R2]. exists o, a, bs, lb, r. repeat (split; [assumption|]).
  rewrite (MachineBase.awaited_sreq _ Ht) in Ha. injection Ha as <- _. apply matched in R2. cbn [m_type m_sub m_cmd] in R2. destruct R2 as (M1 & M2 & M3).
  split; [split; [congruence|split; congruence]|]. apply unexpected_some in Hu. exact Hu.
Qed.
Lemma pend_prim s s' i : prim s s' -> Ids s -> s_futs s' i = FPending -> s_futs s i = FPending.
Proof.
  intros H Hid E. destruct (s_futs s i) eqn:Ei; [reflexivity| |]; rewrite (settled_prim s s' i H Hid) in E by (rewrite Ei; discriminate); congruence.
Qed.

(** ** what a waiting task has not been given.  [Sq]: the waiters made for the answer to an operation *)
Definition Heed (Sq : Z -> Prop) (s : st) (t : Z) (k : task) : Prop :=
  match t_phase k with
  | PWait i d => forall o m to, t_obj k = Some o -> awaited o = Some (m, to) -> s_futs s i = FPending -> (exists w, In w (s_waiters s) /\ w_id w = i) ->
      forall la lb at_ bs, s_log s = la ++ OWritten t at_ bs :: lb -> none_of m lb
  | PReg i x | PAwait i x => exists m to at_ la lb, t_job k = JWaitFor m to /\ s_log s = la ++ ORegistered i at_ to :: lb /\ at_ <= s_now s /\
      (match t_phase k with PReg _ _ => x = to | _ => at_ + to <= x end) /\
      (s_futs s i = FPending -> (exists w, In w (s_waiters s) /\ w_id w = i /\ w_matcher w = m) /\
         (forall r, In (OReceived r) lb -> is_for m r -> exists i', Sq i' /\ In (OCompleted i' r) lb) \/ at_ + to + 100 <= s_now s)
  | _ => True
  end.
Definition Heeds (Sq : Z -> Prop) (s : st) : Prop := forall t k, get s t = Some k -> Heed Sq s t k.
Lemma nowW_prim Sq L S s s' : prim s s' -> Winv s -> Heeds Sq s -> s_ntid s' = s_ntid s -> s_now s' = s_now s -> s_open s' = s_open s -> may_find S s ->
  NowW L S s -> NowW L S s'.
Proof.
  intros H V Hd Hnt En Eo MF N. clear Eo.
  pose proof (log_prim s s' H) as Gr. destruct V as [_ _ Hok _ Hid _ _ Hregs _ _ _ _ _ W _ _ _].
  assert (Hset : forall i, s_futs s' i = FPending -> s_futs s i = FPending) by (intros i; apply pend_prim; assumption).
  assert (Old : forall t k, get s t = Some k -> NowW1 L S s' t k).
  { intros t k G. eapply nowW_mono; [exact En|exact Gr|auto|]. apply N, G. }
  revert En Gr Hset Old Hnt. destruct H; prim_nf; intros En Gr Hset Old Hnt t' k' G; try (apply Old; exact G).
  all: opn_in G; try unfold get in H; look G; try (apply Old; assumption); try (apply nowW_nothing; exact I); try (eapply nowW_result; reflexivity).
  all: try (unfold NowW1; fld; left; reflexivity).
  all: try (eapply (whyW_exn _ _ _ _ _ (t_job k)); [reflexivity|left; reflexivity]).
  all: try (pose proof (Hok _ _ H) as [_ Hk]; rewrite H0 in Hk).
  - unfold NowW1. fld. destruct H1 as [->|[Hb|(o & Hb & Hr)]]; [left; reflexivity|right; left; left; exact Hb|right; left; right; exists o; auto].
  - unfold NowW1, wait_for, note. fld. intros _. destruct (Z_lt_le_dec 0 to) as [Hto|Hto].
    + left. exists (s_now s), to, m. split; [assumption|]. split; [apply in_or_app; right; left; reflexivity|]. lia.
    + right. right. exists m, to. auto.
  - unfold NowW1, written, wait_for, note. fld. intros _. left. pose proof (awaited_later _ _ _ H2). lia.
  - eapply (whyW_exn _ _ _ _ _ (t_job k)); [reflexivity|]. destruct Hk as (o' & Ho & Hb). assert (o' = o) as -> by congruence. unfold WhyW. fld.
    destruct H2 as [H2|[[Ht [[He Hop]|He]]|(X1 & X2 & X3)]].
    + right. left. right. exists o. auto.
    + right. right. left. split; [exact He|]. apply (MF Hop). intros k1 G1. unfold get in G1. rewrite H in G1. injection G1 as <-. rewrite H0. reflexivity.
    + right. left. right. exists o. auto 6.
    + right. left. right. exists o. split; [exact Hb|]. do 3 right. auto.
  - eapply (whyW_exn _ _ _ _ _ (t_job k) (CommandError c)); [reflexivity|]. do 4 right. left. exists c. split; [reflexivity|]. opn. rewrite <- app_assoc.
    eapply (refused_hereW s t k i d o r c []); try eassumption. intros [].
  - eapply (whyW_exn _ _ _ _ _ (t_job k) (CommandError c)); [reflexivity|]. do 4 right. left. exists c. split; [reflexivity|]. opn. repeat (rewrite <- ?app_assoc; cbn [app]).
    eapply (refused_hereW s t k i d o r c [OCompleted j r]); try eassumption. intros [C|[]]. discriminate C.
  - eapply (whyW_exn _ _ _ _ _ (t_job k) KeyError); [reflexivity|]. do 5 right. split; [reflexivity|]. exists c, j. split; [|fld; assumption]. opn. rewrite <- app_assoc.
    eapply (refused_hereW s t k i d o r c []); try eassumption. intros [].
  - eapply (whyW_exn _ _ _ _ _ (t_job k) TimeoutError); [reflexivity|]. do 3 right. left. split; [reflexivity|]. left.
    pose proof (N _ _ H) as N1. unfold NowW1 in N1. rewrite H0 in N1. destruct (N1 H1) as [C|C]; [lia|exact C].
  - pose proof (N _ _ H) as N1. unfold NowW1 in *. rewrite H0 in N1. fld. exact N1.
  - unfold NowW1. fld. do 3 right. left. split; [reflexivity|]. pose proof (N _ _ H) as N1. unfold NowW1 in N1. rewrite H0 in N1.
    destruct (N1 H1) as [(a & to & m & Hj & Hr & Ha)|C]; [|exact C]. exfalso.
    pose proof (Hd _ _ H) as W1. unfold Heed in W1. rewrite H0 in W1. destruct W1 as (m2 & to2 & a2 & la & lb & Hj2 & El & _ & Hle & _).
    destruct (registered_once s Hregs i a to a2 to2 Hr) as [-> ->]; [rewrite El; apply in_or_app; right; left; reflexivity|]. lia.
Qed.

Lemma stays_prim s s' w : prim s s' -> Timed s -> Regs s -> s_futs s' (w_id w) = FPending -> In w (s_waiters s) ->
  In w (s_waiters s') \/ forall at_ to, In (ORegistered (w_id w) at_ to) (s_log s) -> at_ + to + 100 <= s_now s'.
Proof.
  intros H T R. start_prim H; intros Hf Hw; auto; try (left; apply in_or_app; left; exact Hw).
  - destruct (Z.eq_dec (w_id w) j) as [E|E].
    + rewrite <- E in Hf. unfold resulted in Hf. rewrite upd_same in Hf. destruct (s_futs s (w_id w)); discriminate Hf.
    + left. apply filter_In. split; [exact Hw|]. apply negb_true_iff, Z.eqb_neq, E.
  - destruct (Z.eq_dec (w_id w) i) as [E|E].
    + right. destruct Hdue as (d & Hd & Hle). rewrite E. eapply due_registered; eassumption.
    + left. assert (Hx : In w (filter (fun w0 => negb (w_id w0 =? i)) (s_waiters s))) by (apply filter_In; split; [exact Hw|]; apply negb_true_iff, Z.eqb_neq, E).
      destruct (s_futs s i); assumption.
  - destruct (Z.eq_dec (w_id w) (w_id w0)) as [E|E].
    + unfold resulted in Hf. rewrite E, upd_same in Hf. destruct (s_futs s (w_id w0)); discriminate Hf.
    + left. apply filter_In. split; [exact Hw|]. apply negb_true_iff, Z.eqb_neq, E.
Qed.
Lemma cut_log {A} (l l' la lb : list A) x : l ++ l' = la ++ x :: lb -> (exists lb1, l = la ++ x :: lb1 /\ lb = lb1 ++ l') \/ exists l1, l' = l1 ++ x :: lb.
Proof.
  revert la. induction l as [|y l IH]; intros la E; cbn [app] in E; [right; exists la; exact E|].
  destruct la as [|z la]; cbn [app] in E; injection E as <- E.
  - left. exists l. auto.
  - destruct (IH la E) as [(lb1 & -> & ->)|H]; [left; exists lb1; auto|right; exact H].
Qed.
Definition soft (s s' : st) : Prop := forall l, s_log s' = s_log s ++ l -> forall r, ~ In (OReceived r) l.
(** a task that is not touched *)
Lemma heed_keep Sq s s' t k : Winv s -> get s t = Some k -> soft s s' -> grows (s_log s) (s_log s') -> s_now s <= s_now s' ->
  (forall i, s_futs s' i = FPending -> s_futs s i = FPending) -> (forall w, In w (s_waiters s') -> In w (s_waiters s) \/ s_next s <= w_id w) ->
  (forall w, s_futs s' (w_id w) = FPending -> In w (s_waiters s) -> In w (s_waiters s') \/ forall at_ to, In (ORegistered (w_id w) at_ to) (s_log s) -> at_ + to + 100 <= s_now s') ->
  Heed Sq s t k -> Heed Sq s' t k.
Proof.
  intros V G Hs [l El] En Hf Hw Hst H. specialize (Hs l El). unfold Heed in *.
  assert (Lt : forall i, In i (phase_id (t_phase k)) -> i < s_next s) by (intros i Hi; apply (proj1 (V_own s V) t k i G Hi)).
  assert (Rg : forall i x m to a la lb, s_log s = la ++ ORegistered i a to :: lb -> a <= s_now s ->
    (match t_phase k with PReg _ _ => x = to | _ => a + to <= x end) ->
    (s_futs s i = FPending -> (exists w, In w (s_waiters s) /\ w_id w = i /\ w_matcher w = m) /\
         (forall r, In (OReceived r) lb -> is_for m r -> exists i', Sq i' /\ In (OCompleted i' r) lb) \/ a + to + 100 <= s_now s) -> t_job k = JWaitFor m to ->
    exists m to at_ la lb, t_job k = JWaitFor m to /\ s_log s' = la ++ ORegistered i at_ to :: lb /\ at_ <= s_now s' /\
      (match t_phase k with PReg _ _ => x = to | _ => at_ + to <= x end) /\
      (s_futs s' i = FPending -> (exists w, In w (s_waiters s') /\ w_id w = i /\ w_matcher w = m) /\
         (forall r, In (OReceived r) lb -> is_for m r -> exists i', Sq i' /\ In (OCompleted i' r) lb) \/ at_ + to + 100 <= s_now s')).
  { intros i x m to a la lb E Ha Hx Hp Hj. exists m, to, a, la, (lb ++ l). split; [exact Hj|]. split; [rewrite El, E, <- app_assoc; reflexivity|].
    split; [lia|]. split; [exact Hx|]. intro P. destruct (Hp (Hf i P)) as [((w & H1 & H2 & H3) & H4)|C]; [|right; lia]. subst i.
    destruct (Hst w P H1) as [H5|H5].
    - left. split; [exists w; auto|]. intros r Hr Hm. apply in_app_or in Hr as [Hr|Hr]; [|exfalso; exact (Hs r Hr)].
      destruct (H4 r Hr Hm) as (i' & Hi & Hc). exists i'. split; [exact Hi|apply in_or_app; left; exact Hc].
    - right. apply H5. rewrite E. apply in_or_app. right. left. reflexivity. }
  destruct (t_phase k) eqn:Hp; try exact I.
  - intros o m to Ho Ha P (w & H1 & H2) la lb a bs E. rewrite El in E. destruct (cut_log _ _ _ _ _ E) as [(lb1 & E1 & ->)|(l1 & ->)].
    + apply none_app; [|intros r Hr; exfalso; exact (Hs r Hr)]. eapply H; try eassumption; [apply Hf, P|].
      destruct (Hw w H1) as [H3|H3]; [eauto|]. specialize (Lt i ltac:(left; reflexivity)). lia.
    + intros r Hr. exfalso. apply (Hs r), in_or_app. right. right. exact Hr.
  - destruct H as (m & to & a & la & lb & Hj & E & Ha & Hx & Hpe). eapply Rg; eassumption.
  - destruct H as (m & to & a & la & lb & Hj & E & Ha & Hx & Hpe). eapply Rg; eassumption.
Qed.
Lemma heeds_prim Sq s s' : prim s s' -> Winv s -> s_ntid s' = s_ntid s -> soft s s' -> Heeds Sq s -> Heeds Sq s'.
Proof.
  intros H V Hnt Hs Hh. pose proof (V_tasks s V) as Hok. pose proof (V_ids s V) as Hid. pose proof (V_regs s V) as Hregs. pose proof (V_timed s V) as Htimed.
  assert (Old : forall t k, get s t = Some k -> Heed Sq s' t k).
  { intros t k G. eapply heed_keep; [exact V|exact G|exact Hs|apply log_prim, H|apply clock_prim, H|intro; apply pend_prim; assumption|apply waiters_from, H| |apply Hh, G].
    intros w. apply stays_prim; assumption. }
  pose proof (winv_x s s' (X_prim s s' H Hnt) V) as V'. revert Old Hnt Hs V'. destruct H; prim_nf; intros Old Hnt Hs V' t' k' G; try (apply Old; exact G).
  all: opn_in G; try unfold get in H; look G; try (apply Old; assumption); try exact I.
  - unfold Heed, wait_for, note. opn. exists m, to, (s_now s), (s_log s), []. split; [assumption|]. split; [reflexivity|]. split; [lia|]. split; [reflexivity|].
    intros _. left. split; [eexists; split; [apply in_or_app; right; left; reflexivity|auto]|]. intros r [].
  - unfold Heed, written, wait_for, note. opn. intros o' m' to' Ho Ha _ _ la lb a' bs' E. 
    pose proof (V_life _ V') as HL. destruct (cut_log _ _ _ _ _ E) as [(lb1 & E1 & ->)|(l1 & E1)].
    + exfalso. eapply (written_once _ la t a' bs' lb1 (s_now s) bs [] HL). unfold written, wait_for, note, put. fld. rewrite E1, <- app_assoc. reflexivity.
    + intros r Hr. exfalso. destruct l1 as [|y l1]; cbn [app] in E1; injection E1 as _ E1; [subst lb; destruct Hr|destruct l1; discriminate E1].
  - pose proof (Hh _ _ H) as H1. unfold Heed in *. rewrite H0 in H1. fld. destruct H1 as (m & to' & a & la & lb & Hj & E & Ha & -> & Hpe).
    exists m, to', a, la, lb. unfold goto. repeat (split; [assumption|]). split; [lia|exact Hpe].
Qed.

(** ** small steps of an API object that take no time and leave the port alone *)
Definition received_here (r : zpi) (s : st) : st := fst (fst (dispatch (s_waiters (note (OReceived r) s)) r (note (OReceived r) s))).
(** who is cancelled is among [C]; a wait ends with no other exceptions *)
Definition sound_endW (C : Z -> Prop) (t : Z) (k : task) (x : exn) : Prop :=
  (x = CancelledError -> C t \/ unsendable (t_job k) x) /\ (forall m to, t_job k = JWaitFor m to -> x = CancelledError \/ x = TimeoutError).
Definition ends_ok (C : Z -> Prop) (s s' : st) : Prop :=
  forall t k x, get s' t = Some k -> t_phase k = PDone (OExn x) -> get s t = Some k \/ sound_endW C t k x.
Definition EndsW (C : Z -> Prop) (s : st) : Prop := forall t k x, get s t = Some k -> t_phase k = PDone (OExn x) -> sound_endW C t k x.
Inductive gentle (Sq C : Z -> Prop) : st -> st -> Prop :=
| G_prims s s' : prims s s' -> s_ntid s' = s_ntid s -> face s' = face s -> rc s' = rc s -> s_buf s' = s_buf s -> ends_ok C s s' -> gentle Sq C s s'
| G_spawn s j : uses_sem j = false -> gentle Sq C s (spawn j s)
| G_call s o wid : gentle Sq C s (called o wid s)
| G_wait s m q sq : Sq (s_next s) -> wanted m q sq -> gentle Sq C s (wait_for m Timeouts_default q s)
| G_buf s b : good_buffer b -> gentle Sq C s (set_buf b s)
| G_recv s f r : from_unpi_frame f = Ok r -> bytes_ok (f_data f) -> gentle Sq C s (received_here r s).
Lemma gentle_x Sq C s s' : gentle Sq C s s' -> Winv s -> xprims s s'.
Proof.
  intros [x x' H1 H2 _ _ _ _|x j Hj|x o wid|x m q sq _ _|x b _|x f r Hf _] V.
  - apply prims_x; assumption.
  - apply xprims_one, X_spawn, Hj.
  - apply xprims_one, X_call.
  - apply xprims_one, X_wait.
  - apply xprims_one, X_prim; [apply P_buf|reflexivity].
  - eapply received_dispatch_x; eassumption.
Qed.
Lemma gentle_face Sq C s s' : gentle Sq C s s' -> face s' = face s.
Proof. intros [x x' H1 H2 H3 _ _ _|x j Hj|x o wid|x m q sq _ _|x b _|x f r Hf _]; try reflexivity; [exact H3|]. unfold received_here. rewrite face_dispatch. reflexivity. Qed.
Lemma gentle_mono (P Q C : Z -> Prop) s s' : (forall i, P i -> Q i) -> gentle P C s s' -> gentle Q C s s'.
Proof. intros H [x x' H1 H2 H3 H4 H5 H6|x j Hj|x o wid|x m q sq H1 H2|x b Hb|x f r Hf Hb]; [apply G_prims|apply G_spawn|apply G_call|eapply G_wait|apply G_buf|eapply G_recv]; eauto. Qed.

(** what a received message does *)
Lemma received_parts s r : Ids s -> exists pre post o' x, s_waiters s = pre ++ post /\ stopped r pre post o' x /\
  s_waiters (received_here r s) = filter (fun w => negb (with_id (filter (hit r) pre) (w_id w))) (s_waiters s) /\
  s_log (received_here r s) = s_log s ++ OReceived r :: map (fun w => OCompleted (w_id w) r) (filter (hit r) pre) /\
  (forall i, s_futs (received_here r s) i = if with_id (filter (hit r) pre) i then match s_futs s i with FPending => FDone r | f => f end else s_futs s i) /\
  s_tasks (received_here r s) = s_tasks s /\ s_next (received_here r s) = s_next s /\ s_buf (received_here r s) = s_buf s.
Proof.
  intros (_ & Hinc & _). destruct (dispatch_spec r (s_waiters (note (OReceived r) s)) (note (OReceived r) s)) as (pre & post & o' & x & E & D & Hst).
  exists pre, post, o', x. unfold received_here. rewrite D. cbn [fst]. fldin E. split; [exact E|]. split; [exact Hst|].
  assert (Nd : NoDup (map w_id (filter (hit r) pre))).
  { apply increasing_nodup in Hinc. rewrite E, map_app in Hinc. apply nodup_front in Hinc. clear - Hinc. induction pre as [|w l IH]; [constructor|]. cbn [map] in Hinc.
    inversion Hinc as [|? ? H1 H2]; subst. cbn [filter]. destruct (hit r w); [|apply IH, H2]. cbn [map]. constructor; [|apply IH, H2].
    intro C. apply H1. apply in_map_iff in C as (y & Ey & Hy). apply in_map_iff. exists y. split; [exact Ey|]. apply filter_In in Hy. apply Hy. }
  pose proof (completes_futs (filter (hit r) pre) r Nd (note (OReceived r) s)) as Fu. rewrite completes_nf in *. 
  repeat split. 
  - change (s_log (note (OReceived r) s)) with (s_log s ++ [OReceived r]). fld. rewrite <- app_assoc. reflexivity.
  - exact Fu.
Qed.

(** ** the invariant of an API object *)
Definition ClaimsW (Sq : Z -> Prop) (s : st) : Prop := forall w q, In w (s_waiters s) -> w_seq w = Some q -> Sq (w_id w).
Record Link_ok (Sq L S : Z -> Prop) (s : st) : Prop := {
  K_winv : Winv s; K_origin : Origin s; K_claims : ClaimsW Sq s; K_buf : good_buffer (s_buf s); K_heeds : Heeds Sq s; K_now : NowW L S s }.
Lemma claimsW_prim Sq s s' : prim s s' -> TasksW s -> ClaimsW Sq s -> ClaimsW Sq s'.
Proof.
  intros H Hok C. unfold ClaimsW. destruct H; prim_nf; intros w0 q0 Hin Hq; opn_in Hin; try (eapply C; eassumption);
    try (apply in_app_or in Hin as [Hin|[<-|[]]]; [eapply C; eassumption|fldin Hq; try discriminate Hq]);
    try (apply filter_In in Hin as [Hin _]; eapply C; eassumption).
  - exfalso. destruct (Hok _ _ H) as [Hu _]. destruct (t_job k); cbn [response_waiter uses_sem] in *; try discriminate.
  - destruct (s_futs s i); try (eapply C; eassumption); apply filter_In in Hin as [Hin _]; eapply C; eassumption.
Qed.
Lemma heed_weaken (P Q : Z -> Prop) s t k : (forall i, P i -> Q i) -> Heed P s t k -> Heed Q s t k.
Proof.
  intros HP H. unfold Heed in *. destruct (t_phase k); auto; destruct H as (m & to & a & la & lb & H1 & H2 & H3 & H4 & H5); exists m, to, a, la, lb; repeat (split; [assumption|]);
    (intro Hf; destruct (H5 Hf) as [[H6 H7]|H6]; [left|right; exact H6]; split; [exact H6|]; intros r Hr Hm; destruct (H7 r Hr Hm) as (i' & Hi & Hc); eauto).
Qed.
Lemma link_weaken (P Q L L' S S' : Z -> Prop) s : (forall i, P i -> Q i) -> (forall i, L i -> L' i) -> (forall i, S i -> S' i) -> Link_ok P L S s -> Link_ok Q L' S' s.
Proof.
  intros HP HL HS [K1 K2 K3 K4 K5 K6]. constructor; auto.
  - intros w q Hw Hq. eapply HP, K3; eassumption.
  - intros t k G. eapply heed_weaken; [exact HP|apply K5, G].
  - eapply nowW_weaken; eassumption.
Qed.

(** ** the invariant is kept *)
Lemma face_parts s s' : face s' = face s -> s_now s' = s_now s /\ s_open s' = s_open s.
Proof. unfold face. intro H. injection H. auto. Qed.
Lemma find_prim S s s' : prim s s' -> s_open s' = s_open s -> s_ntid s' = s_ntid s -> may_find S s -> may_find S s'.
Proof.
  intros H Eo Hnt M O t Hn. rewrite Eo in O. apply (M O). intros k G. destruct (ended (t_phase k)) eqn:E; [|reflexivity].
  rewrite <- E. apply Hn. eapply done_prim; eassumption.
Qed.
(** the buffer apart *)
Lemma ok_buf Sq L S s b : good_buffer b -> Link_ok Sq L S s -> Link_ok Sq L S (set_buf b s).
Proof.
  intros Hb [K1 K2 K3 K4 K5 K6]. constructor; try assumption.
  eapply winv_x; [apply X_prim; [apply P_buf|reflexivity]|exact K1].
Qed.
Definition Link_part (Sq L S : Z -> Prop) (s : st) : Prop := Winv s /\ Origin s /\ ClaimsW Sq s /\ Heeds Sq s /\ NowW L S s.
Lemma part_ok Sq L S s : Link_ok Sq L S s <-> good_buffer (s_buf s) /\ Link_part Sq L S s.
Proof. split; [intros []; unfold Link_part; tauto|]. intros (B & H1 & H2 & H3 & H4 & H5). constructor; assumption. Qed.
Lemma part_prim Sq L S s s' : prim s s' -> s_ntid s' = s_ntid s -> s_now s' = s_now s -> s_open s' = s_open s -> soft s s' -> may_find S s ->
  Link_part Sq L S s -> Link_part Sq L S s'.
Proof.
  intros H Hnt En Eo Hs M (K1 & K2 & K3 & K5 & K6). split; [eapply winv_x; [apply X_prim; eassumption|exact K1]|]. split; [eapply origin_prim; eassumption|].
  split; [eapply claimsW_prim; [exact H|apply K1|exact K3]|]. split; [eapply heeds_prim; eassumption|]. eapply nowW_prim; eassumption.
Qed.
Lemma part_prims Sq L S s s' : prims s s' -> s_ntid s' = s_ntid s -> s_now s' = s_now s -> s_open s' = s_open s -> soft s s' -> may_find S s ->
  Link_part Sq L S s -> Link_part Sq L S s'.
Proof.
  induction 1 as [s|s1 s2 s3 H Hs IH]; intros Hnt En Eo Hn M K; [exact K|]. destruct (log_prim s1 s2 H) as [l1 E1]. destruct (log_prims s2 s3 Hs) as [l2 E2].
  assert (N : forall r, ~ In (OReceived r) (l1 ++ l2)) by (apply Hn; rewrite E2, E1, <- app_assoc; reflexivity).
  pose proof (proj1 (prims_work _ _ Hs)) as T2. pose proof (proj1 (prims_work _ _ (prims_one _ _ H))) as T1.
  pose proof (clock_prim _ _ H) as C1. pose proof (clock_prims _ _ Hs) as C2.
  assert (O2 : s_open s2 = s_open s1).
  { destruct (s_open s1) eqn:O1; [|eapply MachineBlame.shut_prim; eassumption]. destruct (s_open s2) eqn:O2; [reflexivity|]. rewrite (MachineBlame.shut_prims _ _ Hs O2) in Eo. discriminate. }
  assert (S1 : soft s1 s2). { intros l E r C. rewrite E1 in E. apply app_inv_head in E. subst l. apply (N r), in_or_app. left. exact C. }
  apply IH; try lia; try congruence.
  - intros l E r C. rewrite E2 in E. apply app_inv_head in E. subst l. apply (N r), in_or_app. right. exact C.
  - eapply find_prim; try eassumption. lia.
  - eapply part_prim; try eassumption; lia.
Qed.
(** steps that touch no task that there is *)
Lemma part_aside Sq L S s s' : xprim s s' -> Winv s -> s_now s' = s_now s -> soft s s' ->
  (forall i, s_futs s' i = FPending -> s_futs s i = FPending) -> (forall w, In w (s_waiters s') -> In w (s_waiters s) \/ s_next s <= w_id w) ->
  (forall w, In w (s_waiters s) -> In w (s_waiters s')) ->
  (forall t k, get s' t = Some k -> get s t = Some k \/ phase_id (t_phase k) = [] /\ ended (t_phase k) = false) ->
  Heeds Sq s -> NowW L S s -> Heeds Sq s' /\ NowW L S s'.
Proof.
  intros H V En Hs Hf Hw Hk Hn K5 K6. split; intros t k G; destruct (Hn t k G) as [G0|[Hp He]].
  - eapply heed_keep; [exact V|exact G0|exact Hs|apply log_x, H|lia|exact Hf|exact Hw|auto|apply K5, G0].
  - unfold Heed. destruct (t_phase k); try exact I; discriminate Hp.
  - eapply nowW_mono; [exact En|apply log_x, H|exact Hf|apply K6, G0].
  - unfold NowW1. destruct (t_phase k); try exact I; discriminate.
Qed.
Lemma link_gentle Sq Cn L S s s' : gentle Sq Cn s s' -> may_find S s -> fields_exist s' -> Link_ok Sq L S s -> Link_ok Sq L S s'.
Proof.
  intros Hg M F K. pose proof (gentle_x Sq Cn s s' Hg (K_winv _ _ _ _ K)) as X. destruct Hg as [s s' H1 H2 H3 H4 H5 _|s j Hj|s o wid|s m q sq Hq Hw|s b Hb|s f r Hf Hb].
  - apply part_ok. split; [rewrite H5; apply K|]. destruct (face_parts _ _ H3) as [En Eo]. eapply part_prims; try eassumption; [exact (no_received _ _ H4)|apply part_ok, K].
  - apply part_ok. destruct K as [K1 K2 K3 K4 K5 K6]. split; [exact K4|]. split; [eapply winv_xs; eassumption|].
    split; [eapply origin_prim; [apply P_spawn|exact K2]|]. split; [exact K3|]. eapply part_aside; try eassumption.
    + apply X_spawn, Hj. 
    + reflexivity.
    + intros l E r C. unfold spawn, note in E. fldin E. apply app_inv_head in E. subst l. destruct C as [C|[]]; discriminate C.
    + auto.
    + auto.
    + auto.
    + intros t k G. opn_in G. look G; [left; assumption|right; split; reflexivity].
  - apply part_ok. destruct K as [K1 K2 K3 K4 K5 K6]. split; [exact K4|]. split; [eapply winv_xs; eassumption|].
    split; [intros w Hw; eapply comes_keep; [eapply job_x, X_call|apply K2, Hw]|]. split; [exact K3|]. eapply part_aside; try eassumption.
    + apply X_call. 
    + reflexivity.
    + intros l E r C. unfold called, note in E. fldin E. apply app_inv_head in E. subst l. destruct C as [C|[]]; discriminate C.
    + auto.
    + auto.
    + auto.
    + intros t k G. unfold called in G. opn_in G. look G; [left; assumption|right; split; reflexivity].
  - apply part_ok. destruct K as [K1 K2 K3 K4 K5 K6]. split; [exact K4|]. split; [eapply winv_xs; eassumption|].
    split. { intros w Hin. unfold wait_for, note in Hin. opn_in Hin. apply in_app_or in Hin as [Hin|[<-|[]]]; [exact (K2 w Hin)|]. right. right. exists sq. exact Hw. }
    split. { intros w q' Hin E. unfold wait_for, note in Hin. opn_in Hin. apply in_app_or in Hin as [Hin|[<-|[]]]; [eapply K3; eassumption|exact Hq]. }
    eapply part_aside; try eassumption.
    + apply X_wait.
    + reflexivity.
    + intros l E r C. unfold wait_for, note in E. fldin E. apply app_inv_head in E. subst l. destruct C as [C|[]]; discriminate C.
    + intros i. unfold wait_for, note. fld. unfold upd. destruct (Z.eqb_spec i (s_next s)) as [->|]; [|auto]. intros _. apply (V_ids s K1). lia.
    + intros w Hin. unfold wait_for, note in Hin. fldin Hin. apply in_app_or in Hin as [Hin|[<-|[]]]; [left; exact Hin|right; fld; lia].
    + intros w Hin. unfold wait_for, note. fld. apply in_or_app. left. exact Hin.
    + intros t k G. left. exact G.
  - apply ok_buf; assumption.
  - destruct K as [K1 K2 K3 K4 K5 K6]. destruct (received_parts s r (V_ids s K1)) as (pre & post & o' & x & E & Hst & W & El & Fu & Et & En' & Eb).
    assert (G0 : forall t, get (received_here r s) t = get s t) by (intro t; unfold get; rewrite Et; reflexivity).
    assert (En : s_now (received_here r s) = s_now s). { assert (X1 : face (received_here r s) = face s) by (unfold received_here; rewrite face_dispatch; reflexivity). apply face_parts in X1. apply X1. }
    set (s' := received_here r s) in *. clearbody s'.
    assert (Sub : forall w, In w (s_waiters s') -> In w (s_waiters s)) by (intros w Hin; rewrite W in Hin; apply filter_In in Hin; apply Hin).
    assert (Gr : grows (s_log s) (s_log s')) by (eexists; exact El).
    assert (Pe : forall i, s_futs s' i = FPending -> s_futs s i = FPending) by (intros i Hp; rewrite Fu in Hp; destruct (with_id _ i); [destruct (s_futs s i); discriminate|exact Hp]).
    constructor.
    + eapply winv_xs; eassumption.
    + intros w Hin. eapply comes_keep; [|apply K2, Sub, Hin]. intros t k G. exists k. rewrite G0. auto.
    + intros w q Hin Hq. eapply K3; [apply Sub, Hin|exact Hq].
    + rewrite Eb. exact K4.
    + intros t k G. rewrite G0 in G. specialize (K5 t k G).
      assert (Raise : forall w e, In w (s_waiters s) -> waiter_match (w_matcher w) r = Err e -> False).
      { intros w e Hin He. refine (no_raise_ok _ _ (comes_fields s w f r Hb Hf (K2 w Hin) _) e He). intros t2 k2 m2 to2 G2 Hj2. eapply F; [rewrite G0; exact G2|exact Hj2|].
        rewrite El. apply in_or_app. right. left. reflexivity. }
      (* who is registered and still pending either does not want the message, or a reply waiter took it *)
      assert (Key : forall w, In w (s_waiters s) -> s_futs s' (w_id w) = FPending -> s_futs s (w_id w) = FPending ->
        In w (s_waiters s') /\ (is_for (w_matcher w) r -> exists w' q, In w' (s_waiters s) /\ w_seq w' = Some q /\ hit r w' = true /\ In (OCompleted (w_id w') r) (map (fun w => OCompleted (w_id w) r) (filter (hit r) pre)))).
      { intros w Hin Hp Hp0. rewrite Fu, Hp0 in Hp. destruct (with_id (filter (hit r) pre) (w_id w)) eqn:Ei; [discriminate Hp|]. split; [rewrite W; apply filter_In; rewrite Ei; auto|].
        intro Hm. destruct Hst as [p Hpa|p w' q po Hpa A1 A2 A3|p w' e po Hpa A1].
        - exfalso. rewrite app_nil_r in E. assert (Y : with_id (filter (hit r) p) (w_id w) = true); [|congruence]. apply existsb_exists. exists w. split; [|apply Z.eqb_refl].
          apply filter_In. split; [rewrite <- E; exact Hin|]. apply hit_answers, match_answers, Hm.
        - exists w', q. split; [rewrite E; apply in_or_app; left; apply in_or_app; right; left; reflexivity|]. split; [exact A2|]. split; [exact A1|].
          apply (in_map (fun w => OCompleted (w_id w) r)). apply filter_In. split; [apply in_or_app; right; left; reflexivity|exact A1].
        - exfalso. eapply (Raise w' e); [|exact A1]. rewrite E. apply in_or_app. right. left. reflexivity. }
      unfold Heed in *. destruct (t_phase k) eqn:Hp; try exact I.
      * intros o m to Ho Ha P (w & W1 & W2) la lb a bs Ela. specialize (Pe i P).
        assert (Em : w_matcher w = m).
        { pose proof (V_waiters s K1 t k G) as Wt. unfold WaitsW, Waits in Wt. rewrite Hp in Wt. destruct Wt as (o2 & m2 & to2 & a2 & f2 & bs2 & Ho2 & _ & Ha2 & _ & _ & _ & (_ & _ & _ & _ & _ & _ & Hm2 & _)).
          rewrite (Hm2 w (Sub w W1) W2). congruence. }
        rewrite El in Ela. destruct (cut_log _ _ _ _ _ Ela) as [(lb1 & E1 & ->)|(l1 & C)].
        2:{ exfalso. destruct l1 as [|? l1]; [discriminate C|]. cbn [app] in C. injection C as _ C. assert (C2 : In (OWritten t a bs) (map (fun w => OCompleted (w_id w) r) (filter (hit r) pre))) by (rewrite C; apply in_or_app; right; left; reflexivity).
            apply in_map_iff in C2 as (? & C2 & _). discriminate C2. }
        apply none_app; [eapply K5; try eassumption; eauto|]. intros y [Ey|Hy] Hm; [|apply in_map_iff in Hy as (? & Hy & _); discriminate Hy]. injection Ey as <-.
        subst i. destruct (Key w (Sub w W1) P Pe) as [_ H]. rewrite Em in H. destruct (H Hm) as (w' & q & Q1 & Q2 & Q3 & _).
        pose proof (awaited_kind _ _ _ Ha) as Hk. apply matched in Hm as (M1 & M2 & M3). apply hit_answers in Q3 as (A1 & A2 & A3 & _).
        destruct (K2 w' Q1) as [(C & _)|[(C & _)|(sq & Hwt)]]; [congruence|congruence|]. apply wanted_kind in Hwt as [Y1 Y2]. destruct Hk as [Hk|Hk]; [congruence|]. destruct Y2; congruence.
      * destruct K5 as (m & to & a & la & lb & Hj & E1 & Ha & Hx & H). exists m, to, a, la, (lb ++ OReceived r :: map (fun w => OCompleted (w_id w) r) (filter (hit r) pre)).
        split; [exact Hj|]. split; [rewrite El, E1, <- app_assoc; reflexivity|]. split; [lia|]. split; [exact Hx|]. intro P. rewrite En. destruct (H (Pe i P)) as [((w & W1 & W2 & W3) & H1)|H1]; [left|right; exact H1].
        subst i. destruct (Key w W1 P (Pe _ P)) as [Q1 Q2]. split; [exists w; auto|]. intros y Hy Hm. apply in_app_or in Hy as [Hy|[Hy|Hy]].
        -- destruct (H1 y Hy Hm) as (i' & I1 & I2). exists i'. split; [exact I1|apply in_or_app; left; exact I2].
        -- injection Hy as <-. rewrite W3 in Q2. destruct (Q2 Hm) as (w' & q & R1 & R2 & _ & R3). exists (w_id w'). split; [eapply K3; eassumption|apply in_or_app; right; right; exact R3].
        -- exfalso. apply in_map_iff in Hy as (? & Hy & _). discriminate Hy.
      * destruct K5 as (m & to & a & la & lb & Hj & E1 & Ha & Hx & H). exists m, to, a, la, (lb ++ OReceived r :: map (fun w => OCompleted (w_id w) r) (filter (hit r) pre)).
        split; [exact Hj|]. split; [rewrite El, E1, <- app_assoc; reflexivity|]. split; [lia|]. split; [exact Hx|]. intro P. rewrite En. destruct (H (Pe i P)) as [((w & W1 & W2 & W3) & H1)|H1]; [left|right; exact H1].
        subst i. destruct (Key w W1 P (Pe _ P)) as [Q1 Q2]. split; [exists w; auto|]. intros y Hy Hm. apply in_app_or in Hy as [Hy|[Hy|Hy]].
        -- destruct (H1 y Hy Hm) as (i' & I1 & I2). exists i'. split; [exact I1|apply in_or_app; left; exact I2].
        -- injection Hy as <-. rewrite W3 in Q2. destruct (Q2 Hm) as (w' & q & R1 & R2 & _ & R3). exists (w_id w'). split; [eapply K3; eassumption|apply in_or_app; right; right; exact R3].
        -- exfalso. apply in_map_iff in Hy as (? & Hy & _). discriminate Hy.
    + intros t k G. rewrite G0 in G. eapply nowW_mono; [exact En|exact Gr|exact Pe|apply K6, G].
Qed.
