(** * MachineBlame: why an operation or a wait ends with an exception *)
From Coq Require Import ZifyBool ZifyNat.
From Verif Require Import Base Types Uart Buffalo CmdTable Zpi Api App Machine SpecWire SpecCodec SpecApi SpecMachine SpecFirst SpecBlame UartProofs CodecProofs CodecProofs2
  ApiProofs AppProofs MachineBase MachineInv MachineInv2 MachineInv3 MachineInv4 MachineInv5 DispatchProofs MachineProofs MachineProofs2 MachineProofs3 MachineProofs4
  MachineProofs6 MachineProofs11 MachineProofs12 MachineFirst MachineFair WorldFace.

(** ** what a task may yet be told, as long as no time passes and the port stays as it is *)
Definition impatient (j : job) : Prop := exists m to, j = JWaitFor m to /\ to <= 0.
Definition Why (Late : Z -> Prop) (Shut : Prop) (l : list obs) (t : Z) (j : job) (e : exn) : Prop :=
  e = CancelledError \/ unsendable j e \/ (e = AttributeError /\ Shut) \/ (e = TimeoutError /\ (Late t \/ impatient j)) \/
  (exists c, e = CommandError c /\ refusal j t l c) \/
  (e = KeyError /\ exists c o mq, refusal j t l c /\ build j = Ok o /\ response_waiter j o = Ok (Some mq)).
Definition Now1 (Late : Z -> Prop) (Shut : Prop) (s : st) (t : Z) (k : task) : Prop :=
  match t_phase k with
  | PWait i d => s_futs s i = FPending -> s_now s < d \/ Late t
  | PReg i _ | PAwait i _ => s_futs s i = FPending -> (exists at_ to m, t_job k = JWaitFor m to /\ In (ORegistered i at_ to) (s_log s) /\ s_now s < at_ + to) \/ Late t \/ impatient (t_job k)
  | PDone (OExn e) => Why Late Shut (s_log s) t (t_job k) e
  | _ => True
  end.
Definition Now (Late : Z -> Prop) (Shut : Prop) (s : st) : Prop :=
  (s_open s = false -> Shut) /\ forall t k, get s t = Some k -> Now1 Late Shut s t k.

Lemma refusal_mono j t l l' c : grows l l' -> refusal j t l c -> refusal j t l' c.
Proof. intros G (o & a & bs & lb & r & H1 & H2 & H3 & H4 & H5). exists o, a, bs, lb, r. repeat (split; [first [assumption|eapply outstanding_mono; eassumption]|]). exact H5. Qed.
Lemma why_mono (L L' : Z -> Prop) (S S' : Prop) l l' t j e : (forall t, L t -> L' t) -> (S -> S') -> grows l l' -> Why L S l t j e -> Why L' S' l' t j e.
Proof.
  intros HL HS G [H|[H|[[H1 H2]|[[H1 H2]|[(c & H1 & H2)|(H & c & o & mq & H1 & H2 & H3)]]]]]; unfold Why; auto 8.
  - do 3 right. left. split; [exact H1|]. destruct H2; auto.
  - do 4 right. left. exists c. split; [exact H1|eapply refusal_mono; eassumption].
  - do 5 right. split; [exact H|]. exists c, o, mq. split; [eapply refusal_mono; eassumption|auto].
Qed.
(** a task that is not touched *)
Lemma now_mono L S s s' t k : s_now s' = s_now s -> grows (s_log s) (s_log s') ->
  (forall i, In i (phase_id (t_phase k)) -> s_futs s' i = FPending -> s_futs s i = FPending) -> Now1 L S s t k -> Now1 L S s' t k.
Proof.
  intros En Gr Hf N. unfold Now1 in *. destruct (t_phase k); try exact I.
  - rewrite En. intro H. apply N, Hf, H. left. reflexivity.
  - rewrite En. intro H. destruct N as [(a & to & m & H1 & H2 & H3)|H1]; [apply Hf, H; left; reflexivity| |right; exact H1]. left. exists a, to, m.
    split; [exact H1|]. split; [eapply grows_in; eassumption|exact H3].
  - rewrite En. intro H. destruct N as [(a & to & m & H1 & H2 & H3)|H1]; [apply Hf, H; left; reflexivity| |right; exact H1]. left. exists a, to, m.
    split; [exact H1|]. split; [eapply grows_in; eassumption|exact H3].
  - destruct r; auto. eapply why_mono; [| |exact Gr|exact N]; auto.
Qed.
Lemma why_exn L S s t k j e : t_phase k = PDone (outcome_of_exn j e) -> t_job k = j -> Why L S (s_log s) t j e -> Now1 L S s t k.
Proof.
  intros Hp Hj W. unfold Now1. rewrite Hp. destruct (outcome_of_exn j e) as [r|c|e'] eqn:E; auto. rewrite Hj.
  assert (e' = e) as ->; [|exact W]. unfold outcome_of_exn in E. destruct e; try congruence. destruct (_ && _) in E; congruence.
Qed.
Lemma now_nothing L S s t k : match t_phase k with PWait _ _ | PReg _ _ | PAwait _ _ | PDone (OExn _) => False | _ => True end -> Now1 L S s t k.
Proof. unfold Now1. destruct (t_phase k); try tauto. destruct r; tauto. Qed.
Lemma now_result L S s t k j x : t_phase k = PDone (outcome_of_result j x) -> Now1 L S s t k.
Proof. intros Hp. apply now_nothing. rewrite Hp. destruct j; exact I. Qed.
Lemma awaited_later o m to : awaited o = Some (m, to) -> 0 < to.
Proof.
  unfold awaited. destruct (z_type o); try discriminate; [|destruct (is_reset_command o); [|discriminate]]; intro H; injection H as _ <-; [|reflexivity].
  unfold sreq_timeout. destruct (_ || _); reflexivity.
Qed.
Lemma refused_here s t k i d o r c pre l : Waiters s -> get s t = Some k -> t_phase k = PWait i d -> t_obj k = Some o -> s_futs s i = FDone r ->
  z_type o = SREQ -> unexpected_status r (expected_of (t_job k)) = Some c -> ~ In (OFreed t) pre -> refusal (t_job k) t (s_log s ++ pre ++ OFreed t :: l) c.
Proof.
  intros W G Hp Ho Hf Ht Hu Hpre. destruct (leaves s t k i d pre l W G Hp Hpre) as (o' & m & to & a & bs & lb & Ho' & Hb & Ha & Hfb & Hd & Hout & Hr).
  assert (o' = o) as -> by congruence. destruct (Hr r Hf) as [R1 R2]. exists o, a, bs, lb, r. repeat (split; [assumption|]).
  rewrite (MachineBase.awaited_sreq _ Ht) in Ha. injection Ha as <- _. apply matched in R2. cbn [m_type m_sub m_cmd] in R2. destruct R2 as (M1 & M2 & M3).
  split; [split; [congruence|split; congruence]|]. apply unexpected_some in Hu. exact Hu.
Qed.
Lemma now_prim cap L S s s' : prim s s' -> Inv cap s -> s_now s' = s_now s -> s_open s' = s_open s -> Now L S s -> Now L S s'.
Proof.
  intros H HI En Eo [N0 N]. split; [rewrite Eo; exact N0|]. clear Eo.
  pose proof (log_prim s s' H) as Gr. destruct (I_core _ _ HI) as (_ & Hok & Hown & Hid). pose proof (I_waiters _ _ HI) as W.
  assert (Hset : forall i, s_futs s' i = FPending -> s_futs s i = FPending).
  { intros i E. destruct (s_futs s i) eqn:Ei; [reflexivity| |]; rewrite (settled_prim s s' i H Hid) in E by (rewrite Ei; discriminate); congruence. }
  assert (Old : forall t k, get s t = Some k -> Now1 L S s' t k).
  { intros t k G. eapply now_mono; [exact En|exact Gr|auto|]. apply N, G. }
  revert En Gr Hset Old. destruct H; prim_nf; intros En Gr Hset Old t' k' G; try (apply Old; exact G).
  all: opn_in G; try unfold get in H; look G; try (apply Old; assumption); try (apply now_nothing; exact I); try (eapply now_result; reflexivity).
  all: try (eapply why_exn; [reflexivity|reflexivity|left; reflexivity]).
  all: try (unfold Now1; fld; left; reflexivity).
  all: try (pose proof (Hok _ _ H) as Hk; unfold Task_ok in Hk; rewrite H0 in Hk).

  - unfold Now1. fld. destruct H1 as [->|[Hb|(o & Hb & Hr)]]; [left; reflexivity|right; left; left; exact Hb|right; left; right; exists o; auto].
  - unfold Now1, wait_for, note. fld. intros _. destruct (Z_lt_le_dec 0 to) as [Hto|Hto].
    + left. exists (s_now s), to, m. split; [assumption|]. split; [apply in_or_app; right; left; reflexivity|]. lia.
    + right. right. exists m, to. auto.
  - unfold Now1, written, wait_for, note. fld. intros _. left. pose proof (awaited_later _ _ _ H2). lia.
  - eapply why_exn; [reflexivity|reflexivity|]. destruct Hk as (o' & Ho & Hb & _). assert (o' = o) as -> by congruence.
    destruct H2 as [H2|[[Ht [[He Hop]|He]]|(X1 & X2 & X3)]].
    + right. left. right. exists o. auto.
    + right. right. left. auto.
    + right. left. right. exists o. auto 6.
    + right. left. right. exists o. split; [exact Hb|]. do 3 right. auto.
  - apply (why_exn _ _ _ _ _ (t_job k) (CommandError c)); [reflexivity|reflexivity|]. do 4 right. left. exists c. split; [reflexivity|]. opn. rewrite <- app_assoc.
    eapply (refused_here s t k i d o r c []); try eassumption. intros [].
  - apply (why_exn _ _ _ _ _ (t_job k) (CommandError c)); [reflexivity|reflexivity|]. do 4 right. left. exists c. split; [reflexivity|]. opn. repeat (rewrite <- ?app_assoc; cbn [app]).
    eapply (refused_here s t k i d o r c [OCompleted j r]); try eassumption. intros [C|[]]. discriminate C.
  - eapply (why_exn _ _ _ _ _ _ KeyError); [reflexivity|reflexivity|]. do 5 right. split; [reflexivity|]. destruct Hk as (o' & Ho & Hb & _ & Hw).
    destruct Hw as (m & q & Hw); [congruence|]. exists c, o', (m, q). split; [|auto]. opn. rewrite <- app_assoc.
    eapply (refused_here s t k i d o r c []); try eassumption. intros [].
  - eapply (why_exn _ _ _ _ _ _ TimeoutError); [reflexivity|reflexivity|]. do 3 right. left. split; [reflexivity|]. left.
    pose proof (N _ _ H) as N1. unfold Now1 in N1. rewrite H0 in N1. destruct (N1 H1) as [C|C]; [lia|exact C].
  - pose proof (N _ _ H) as N1. unfold Now1 in *. rewrite H0 in N1. fld. exact N1.
  - unfold Now1. fld. do 3 right. left. split; [reflexivity|]. pose proof (N _ _ H) as N1. unfold Now1 in N1. rewrite H0 in N1.
    destruct (N1 H1) as [(a & to & m & Hj & Hr & Ha)|C]; [|exact C]. exfalso.
    pose proof (W _ _ H) as W1. unfold Waits in W1. rewrite H0 in W1. destruct W1 as (m2 & to2 & a2 & Hj2 & Hd & (la & lb & _ & _ & Hr2 & _)).
    destruct (registered_once s (I_regs _ _ HI) _ _ _ _ _ Hr Hr2) as [-> ->]. lia.
Qed.
Lemma clock_prim s s' : prim s s' -> s_now s <= s_now s'.
Proof. intro H. start_prim H; lia. Qed.
Lemma clock_prims s s' : prims s s' -> s_now s <= s_now s'.
Proof. induction 1 as [|? ? ? H _ IH]; [lia|]. apply clock_prim in H. lia. Qed.
Lemma shut_prim s s' : prim s s' -> s_open s = false -> s_open s' = false.
Proof. intro H. start_prim H; auto. Qed.
Lemma shut_prims s s' : prims s s' -> s_open s = false -> s_open s' = false.
Proof. induction 1 as [|? ? ? H _ IH]; [auto|]. intro E. apply IH. eapply shut_prim; eassumption. Qed.
Lemma now_prims cap L S s s' : prims s s' -> Inv cap s -> s_now s' = s_now s -> s_open s' = s_open s -> Now L S s -> Now L S s'.
Proof.
  induction 1 as [s|s1 s2 s3 H Hs IH]; intros HI En Eo N; [exact N|]. pose proof (clock_prim _ _ H) as C1. pose proof (clock_prims _ _ Hs) as C2.
  assert (E2 : s_open s2 = s_open s1).
  { destruct (s_open s1) eqn:O1; [|eapply shut_prim; eassumption]. destruct (s_open s2) eqn:O2; [reflexivity|]. rewrite (shut_prims _ _ Hs O2) in Eo. discriminate. }
  apply IH; [eapply inv_prim; eassumption|lia|congruence|]. eapply now_prim; [exact H|exact HI|lia|exact E2|exact N].
Qed.
Lemma now_weaken (L L' : Z -> Prop) (S S' : Prop) s : (forall t, L t -> L' t) -> (S -> S') -> Now L S s -> Now L' S' s.
Proof.
  intros HL HS [N0 N]. split; [auto|]. intros t k G. specialize (N t k G). unfold Now1 in *. destruct (t_phase k); try exact I.
  - intro H. destruct (N H); auto.
  - intro H. destruct (N H) as [X|[X|X]]; auto.
  - intro H. destruct (N H) as [X|[X|X]]; auto.
  - destruct r; auto. eapply why_mono; [exact HL|exact HS|apply grows_refl|exact N].
Qed.

(** ** waiters that keep a message from the waiters behind them belong to requests *)
Definition Claims (s : st) : Prop := forall w q, In w (s_waiters s) -> w_seq w = Some q -> exists t k, get s t = Some k /\ t_wid k = Some (w_id w).
Lemma wid_prim s s' t k i : prim s s' -> Tasks_ok s -> get s t = Some k -> t_wid k = Some i -> exists k', get s' t = Some k' /\ t_wid k' = Some i.
Proof.
  intros H Hok G Hw. revert G. unfold get. start_prim H; intro G;
    try (match goal with Hg : assoc ?u (s_tasks s) = Some ?k0 |- _ => 
      match goal with |- context [assoc_set u _ _] => rewrite (assoc_put _ _ _ _ _ Hg) end;
      destruct (Z.eqb_spec u t) as [->|]; [rewrite Hg in G; injection G as <-; eexists; split; [reflexivity|]; try exact Hw|eauto] end);
    try (eexists; split; [exact G|exact Hw]).
  - rewrite assoc_snoc, G. eauto.
  - exfalso. pose proof (Hok _ _ H) as Hk. unfold Task_ok in Hk. rewrite H0 in Hk. destruct Hk. congruence.
  - exfalso. pose proof (Hok _ _ H) as Hk. unfold Task_ok in Hk. rewrite H0 in Hk. destruct Hk. congruence.
Qed.
Lemma waiters_from s s' : prim s s' -> forall w, In w (s_waiters s') -> In w (s_waiters s) \/ s_next s <= w_id w.
Proof.
  intro H. start_prim H; intros w0 Hw0; auto.
  all: try (apply in_app_or in Hw0 as [Hw0|[<-|[]]]; [left; exact Hw0|right; fld; lia]).
  all: try (left; apply filter_In in Hw0; apply Hw0).
  all: left; destruct (s_futs s i); try exact Hw0; apply filter_In in Hw0; apply Hw0.
Qed.
Lemma claims_prim s s' : prim s s' -> Tasks_ok s -> Claims s -> Claims s'.
Proof.
  intros H Hok C. 
  assert (Old : forall w q, In w (s_waiters s) -> w_seq w = Some q -> exists t k, get s' t = Some k /\ t_wid k = Some (w_id w)).
  { intros w q Hin Hq. destruct (C w q Hin Hq) as (t & k & G & E). destruct (wid_prim _ _ _ _ _ H Hok G E) as (k' & G' & E'). eauto. }
  revert Old. unfold Claims. destruct H; prim_nf; intros Old w0 q0 Hin Hq; opn_in Hin; try (eapply Old; eassumption);
    try (apply in_app_or in Hin as [Hin|[<-|[]]]; [eapply Old; eassumption|fldin Hq; try discriminate Hq]);
    try (apply filter_In in Hin as [Hin _]; eapply Old; eassumption).
  - exists t. eexists. split; [opn; unfold get in H; rewrite (assoc_put _ _ _ _ _ H), Z.eqb_refl; reflexivity|reflexivity].
  - destruct (s_futs s i); try (eapply Old; eassumption); apply filter_In in Hin as [Hin _]; eapply Old; eassumption.
Qed.

(** ** what a coroutine that waits with wait_for has not been given *)
Definition taken (s : st) (r : zpi) (lb : list obs) : Prop := exists t k i, get s t = Some k /\ t_wid k = Some i /\ In (OCompleted i r) lb.
Definition Hears (s : st) (i : Z) (m : matcher) (to : Z) : Prop :=
  exists at_ la lb, s_log s = la ++ ORegistered i at_ to :: lb /\
    (s_futs s i = FPending -> (exists w, In w (s_waiters s) /\ w_id w = i) -> forall r, In (OReceived r) lb -> is_for m r -> taken s r lb).
Definition Hear (s : st) : Prop := forall t k i, get s t = Some k -> (exists x, t_phase k = PReg i x \/ t_phase k = PAwait i x) ->
  exists m to, t_job k = JWaitFor m to /\ Hears s i m to.
Lemma taken_mono s s' r lb l : prim s s' -> Tasks_ok s -> taken s r lb -> taken s' r (lb ++ l).
Proof.
  intros H Hok (t & k & i & G & E & Hin). destruct (wid_prim _ _ _ _ _ H Hok G E) as (k' & G' & E'). exists t, k', i.
  repeat (split; [assumption|]). apply in_or_app. left. exact Hin.
Qed.
Lemma hears_prim s s' i m to : prim s s' -> Core s -> i < s_next s -> (forall l, s_log s' = s_log s ++ l -> forall r, ~ In (OReceived r) l) ->
  Hears s i m to -> Hears s' i m to.
Proof.
  intros H (_ & Hok & _ & Hid) Hi Hn (a & la & lb & E & Hh). destruct (log_prim s s' H) as [l El]. exists a, la, (lb ++ l).
  split; [rewrite El, E, <- app_assoc; reflexivity|]. intros Hf (w & Hw & Ew) r Hr Hm. 
  apply in_app_or in Hr as [Hr|Hr]; [|exfalso; exact (Hn l El r Hr)]. apply (taken_mono s); [exact H|exact Hok|]. apply Hh; try assumption.
  - destruct (s_futs s i) eqn:Ei; [reflexivity| |]; rewrite (settled_prim s s' i H Hid) in Hf by (rewrite Ei; discriminate); congruence.
  - destruct (waiters_from _ _ H w Hw) as [Hw0|C]; [eauto|lia].
Qed.
Lemma hear_prim s s' : prim s s' -> Core s -> (forall l, s_log s' = s_log s ++ l -> forall r, ~ In (OReceived r) l) -> Hear s -> Hear s'.
Proof.
  intros H Hc Hn Hh.
  assert (Lt : forall t k i, get s t = Some k -> (exists x, t_phase k = PReg i x \/ t_phase k = PAwait i x) -> i < s_next s).
  { intros t k i G (x & Hp). destruct Hc as (_ & _ & (O1 & _) & _). apply (O1 t k i G). apply phase_own. destruct Hp as [-> | ->]; left; reflexivity. }
  assert (Old : forall t k i, get s t = Some k -> (exists x, t_phase k = PReg i x \/ t_phase k = PAwait i x) -> exists m to, t_job k = JWaitFor m to /\ Hears s' i m to).
  { intros t k i G Hp. destruct (Hh t k i G Hp) as (m & to & Hj & H1). exists m, to. split; [exact Hj|]. eapply hears_prim; try eassumption. eapply Lt; eassumption. }
  clear Hn. revert Old. unfold Hear. destruct H; prim_nf; intros Old t' k' i' G Hp; try (eapply Old; eassumption).
  all: opn_in G; try unfold get in H; look G; try (eapply Old; eassumption).
  all: destruct Hp as (x & Hp); fldin Hp; try (destruct Hp as [Hp|Hp]; discriminate Hp).
  - destruct Hp as [Hp|Hp]; [|discriminate Hp]. injection Hp as <- <-. fld. exists m, to. split; [assumption|]. unfold Hears, wait_for, note. opn.
    exists (s_now s), (s_log s), []. split; [reflexivity|]. intros _ _ r [].
  - destruct Hp as [Hp|Hp]; [discriminate Hp|]. injection Hp as <- <-. fld. destruct (Old t k i H) as (m & to' & Hj & H1); [eauto|]. exists m, to'. auto.
Qed.
Lemma hear_prims s s' : prims s s' -> Core s -> (forall l, s_log s' = s_log s ++ l -> forall r, ~ In (OReceived r) l) -> Hear s -> Hear s'.
Proof.
  induction 1 as [s|s1 s2 s3 H Hs IH]; intros HI Hn F; [exact F|]. destruct (log_prim s1 s2 H) as [l1 E1]. destruct (log_prims s2 s3 Hs) as [l2 E2].
  assert (N : forall r, ~ In (OReceived r) (l1 ++ l2)) by (apply Hn; rewrite E2, E1, <- app_assoc; reflexivity).
  apply IH; [eapply core_prim; eassumption| |].
  - intros l E r C. rewrite E2 in E. apply app_inv_head in E. subst l. apply (N r), in_or_app. right. exact C.
  - eapply hear_prim; [exact H|exact HI| |exact F]. intros l E r C. rewrite E1 in E. apply app_inv_head in E. subst l. apply (N r), in_or_app. left. exact C.
Qed.
Lemma wid_prims s s' t k i : prims s s' -> Core s -> get s t = Some k -> t_wid k = Some i -> exists k', get s' t = Some k' /\ t_wid k' = Some i.
Proof.
  intro H. revert k. induction H as [|? ? ? H _ IH]; intros k Hc G E; [eauto|]. destruct (wid_prim _ _ _ _ _ H (proj1 (proj2 Hc)) G E) as (k1 & G1 & E1).
  eapply IH; [eapply core_prim; eassumption|exact G1|exact E1].
Qed.
(** a received message *)
Lemma hear_received cap s f : Inv cap s -> Origin s -> Claims s -> bytes_ok (f_data f) ->
  (forall r, from_unpi_frame f = Ok r -> forall t k m to, get s t = Some k -> t_job k = JWaitFor m to -> has_fields m r) -> Hear s -> Hear (fst (data_received s f)).
Proof.
  intros HI O C Hby Hw F. destruct (from_unpi_frame f) as [r|e] eqn:Hf; [|unfold data_received; rewrite Hf; exact F].
  destruct (I_core _ _ HI) as (_ & Hok & Hown & Hid). pose proof (data_received_prims s f (I_core _ _ HI)) as P.
  destruct (receives_message s f) as [_ _ _ _ _ _ _ _ _ _ _ Rnew].
  destruct (data_received_spec s f r Hf Hid) as (pre & post & o' & x & l & E & Hst & W & Fut & _ & L & Hl). cbv zeta in *.
  set (s' := fst (data_received s f)) in *. clearbody s'.
  intros t k i G Hp. destruct (Rnew t k G) as [G0|(mode & ->)]; [|destruct Hp as (y & [Hp|Hp]); discriminate Hp].
  destruct (F t k i G0 Hp) as (m & to & Hj & (a & la & lb & El & Hh)). exists m, to. split; [exact Hj|].
  set (news := OReceived r :: map (fun w => OCompleted (w_id w) r) (filter (hit r) pre) ++ l) in *.
  assert (Hnews : forall y, In (OReceived y) news -> y = r).
  { intros y [X|X]; [congruence|]. exfalso. apply in_app_or in X as [X|X]; [apply in_map_iff in X as (w & X & _); discriminate X|].
    rewrite Forall_forall in Hl. apply Hl in X. exact X. }
  exists a, la, (lb ++ news). split; [rewrite L, El, <- app_assoc; reflexivity|]. rewrite Fut.
  destruct (with_id (filter (hit r) pre) i) eqn:Ei; [destruct (s_futs s i); discriminate|]. intros Hpe (w & Hin & Ew).
  assert (Hws : In w (s_waiters s)).
  { rewrite W in Hin. rewrite E. apply in_app_or in Hin as [Hin|Hin]; apply in_or_app; [left; apply filter_In in Hin; apply Hin|right; exact Hin]. }
  intros y Hy Hm. apply in_app_or in Hy as [Hy|Hy].
  - destruct (Hh Hpe (ex_intro _ w (conj Hws Ew)) y Hy Hm) as (t2 & k2 & i2 & G2 & E2 & In2). destruct (wid_prims _ _ _ _ _ P (I_core _ _ HI) G2 E2) as (k3 & G3 & E3).
    exists t2, k3, i2. repeat (split; [assumption|]). apply in_or_app. left. exact In2.
  - apply Hnews in Hy as ->. destruct Hst as [p Hpa|p w' q po Hpa H1 H2 H3|p w' e po Hpa H1].
    + exfalso. rewrite app_nil_r in E, W. assert (X : with_id (filter (hit r) p) i = true); [|congruence]. apply existsb_exists. exists w. split; [|apply Z.eqb_eq, Ew].
      apply filter_In. split; [rewrite <- E; exact Hws|]. apply hit_answers, match_answers.
      pose proof (I_waiters _ _ HI t k G0) as Wt. unfold Waits in Wt.
      assert (Em : w_matcher w = m); [|rewrite Em; exact Hm].
      destruct Hp as (z & [Hp|Hp]); rewrite Hp in Wt.
      * destruct Wt as (m2 & a2 & Hj2 & (_ & _ & _ & _ & _ & _ & Hm2 & _)). rewrite (Hm2 w Hws Ew). congruence.
      * destruct Wt as (m2 & to2 & a2 & Hj2 & _ & (_ & _ & _ & _ & _ & _ & Hm2 & _)). rewrite (Hm2 w Hws Ew). congruence.
    + assert (Hin' : In w' (s_waiters s)) by (rewrite E; apply in_or_app; left; apply in_or_app; right; left; reflexivity).
      destruct (C w' q Hin' H2) as (t2 & k2 & G2 & E2). destruct (wid_prims _ _ _ _ _ P (I_core _ _ HI) G2 E2) as (k3 & G3 & E3).
      exists t2, k3, (w_id w'). repeat (split; [assumption|]). apply in_or_app. right. right. apply in_or_app. left.
      apply (in_map (fun w => OCompleted (w_id w) r)). apply filter_In. split; [apply in_or_app; right; left; reflexivity|exact H1].
    + exfalso. assert (Hin' : In w' (s_waiters s)) by (rewrite E; apply in_or_app; right; left; reflexivity).
      exact (no_raise_ok _ _ (comes_fields s w' f r Hby Hf (O w' Hin') (Hw r eq_refl)) e H1).
Qed.
Lemma claims_prims s s' : prims s s' -> Core s -> Claims s -> Claims s'.
Proof. induction 1 as [|? ? ? H _ IH]; [auto|]. intros Hc C. apply IH; [eapply core_prim; eassumption|]. eapply claims_prim; [exact H|apply Hc|exact C]. Qed.
Lemma hear_gw cap bs : forall b s, Inv cap s -> Origin s -> Claims s -> good_buffer b -> Hear s -> fields_exist (snd (fst (gw_data_received data_received b s bs))) ->
  Hear (snd (fst (gw_data_received data_received b s bs))).
Proof.
  induction bs as [|x bs IH]; intros b s HI O C Hb F; cbn [gw_data_received]; [intros _; exact F|].
  destruct (parser_write b x) as [b1 r0] eqn:Ew. destruct (write_bytes b x b1 r0 Hb Ew) as [Hb1 Hby].
  destruct r0 as [[f|]|e]; [|apply IH; assumption|intros _; exact F].
  pose proof (data_received_prims s f (I_core _ _ HI)) as P. destruct (data_received s f) as [s1 r1] eqn:Ed. cbn [fst] in P.
  assert (HI1 : Inv cap s1) by (eapply inv_prims; eassumption). assert (O1 : Origin s1) by (eapply (prims_inv Origin origin_prim); eassumption).
  assert (C1 : Claims s1) by (eapply claims_prims; [exact P|apply HI|exact C]).
  assert (F1 : fields_exist s1 -> Hear s1).
  { intro Hx. replace s1 with (fst (data_received s f)) by (rewrite Ed; reflexivity). eapply hear_received; [exact HI|exact O|exact C|apply Hby; reflexivity| |exact F].
    intros r Hf t k m to G Hj. destruct (same_job_prims s s1 P t k G) as (k' & G' & Hj'). eapply Hx; [exact G'|rewrite Hj'; exact Hj|].
    destruct (I_core _ _ HI) as (_ & _ & _ & Hid).
    destruct (data_received_spec s f r Hf Hid) as (pre & post & o' & y & l & _ & _ & _ & _ & _ & L & _). cbv zeta in L. rewrite Ed in L. cbn [fst] in L. rewrite L.
    apply in_or_app. right. left. reflexivity. }
  destruct r1 as [[]|e]; [|cbn [fst snd]; exact F1]. intro Hx. apply IH; [exact HI1|exact O1|exact C1|exact Hb1| |exact Hx].
  apply F1. eapply fields_before; [apply gw_prims, HI1|exact Hx].
Qed.
Lemma hear_step cap e s : Inv cap s -> Origin s -> Claims s -> good_buffer (s_buf s) -> Hear s -> fields_exist (step e s) -> Hear (step e s).
Proof.
  intros HI O C Hb F Hx. pose proof (step_prims e s (I_core _ _ HI)) as P.
  destruct e; try (eapply hear_prims; [exact P|apply HI|apply no_received, rc_step; exact I|exact F]).
  cbn [step] in *. unfold receive in *. pose proof (gw_prims data s (s_buf s) (I_core _ _ HI)) as Pg.
  pose proof (hear_gw cap data (s_buf s) s HI O C Hb F) as Fg. destruct (gw_data_received data_received (s_buf s) s data) as [[b s1] r]. cbn [fst snd] in *.
  assert (HI1 : Inv cap s1) by (eapply inv_prims; eassumption).
  assert (P2 : prims s1 (match r with Ok _ => set_buf b s1 | Err e => note (ORaised e) (set_buf b s1) end)).
  { destruct r; [apply prims_one, P_buf|eapply prims_cons; [apply P_buf|apply prims_one, P_raised]]. }
  eapply hear_prims; [exact P2|apply HI1| |apply Fg; eapply fields_before; eassumption].
  apply no_received. destruct r; [reflexivity|]. rcn. reflexivity.
Qed.

(** ** nobody is cancelled but by [ECancel] *)
Definition calm (t : Z) (U : Prop) (s : st) : Prop := forall k, get s t = Some k -> t_phase k = PDone (OExn CancelledError) -> U.
Lemma calm_goto t (U : Prop) p s : (p = PDone (OExn CancelledError) -> U) -> calm t U (goto t p s).
Proof. intros H k G Hp. destruct (goto_phase _ _ _ _ G) as [E|E]; [apply H; congruence|]. unfold goto in G. rewrite E in G. congruence. Qed.
Lemma calm_finish t (U : Prop) r s : (r = OExn CancelledError -> U) -> calm t U (finish t r s).
Proof. intro H. exact (calm_goto t U (PDone r) s (fun E => H ltac:(congruence))). Qed.
Lemma cancelled_exn j e : outcome_of_exn j e = OExn CancelledError -> e = CancelledError.
Proof. unfold outcome_of_exn. destruct e; try congruence. destruct (_ && _); discriminate. Qed.
Lemma calm_raise t (U : Prop) j e s : (e = CancelledError -> U) -> calm t U (raw_raise t j e s).
Proof. intro H. unfold raw_raise. apply calm_finish. intro E. apply H. eapply cancelled_exn, E. Qed.
Lemma calm_return t (U : Prop) j r s : calm t U (raw_return t j r s).
Proof. unfold raw_return. destruct (settles j); [apply calm_goto; discriminate|apply calm_finish; destruct j; discriminate]. Qed.
Lemma calm_send t (U : Prop) j o f m to s : build j = Ok o -> to_unpi_frame o = Ok f -> (unsendable j CancelledError -> U) -> calm t U (send_and_wait t j f m to s).
Proof.
  intros Hb Hf HU. unfold send_and_wait. destruct (uart_send_cases t f (wait_for m to None s)) as [[_ E]|[[_ (bs & _ & E)]|[_ (e & Hd & E)]]]; rewrite E.
  - apply calm_raise. discriminate.
  - apply calm_goto. discriminate.
  - apply calm_raise. intros ->. apply HU. right. exists o. split; [exact Hb|]. do 2 right. left. exists f. auto.
Qed.
Lemma calm_request t (U : Prop) j o s : build j = Ok o -> (unsendable j CancelledError -> U) -> calm t U (request_raw t j o s).
Proof.
  intros Hb HU. unfold request_raw. destruct (to_unpi_frame o) as [f|e] eqn:Hf; [|apply calm_raise; intros ->; apply HU; right; exists o; auto].
  destruct (z_type o) eqn:Ht; try (apply calm_raise; discriminate); [eapply calm_send; eassumption|].
  destruct (is_reset_command o); [eapply calm_send; eassumption|].
  destruct (uart_send_cases t f s) as [[_ E]|[[_ (bs & _ & E)]|[_ (e & Hd & E)]]]; rewrite E.
  - apply calm_raise. discriminate.
  - apply calm_return.
  - apply calm_raise. intros ->. apply HU. right. exists o. split; [exact Hb|]. do 2 right. left. exists f. auto.
Qed.
Lemma calm_granted t (U : Prop) k o s : t_obj k = Some o -> build (t_job k) = Ok o -> (unsendable (t_job k) CancelledError -> U) -> calm t U (granted t k s).
Proof. intros Ho Hb HU. unfold granted. rewrite Ho. apply calm_request; assumption. Qed.
Lemma calm_acquire t (U : Prop) k o s : t_obj k = Some o -> build (t_job k) = Ok o -> (unsendable (t_job k) CancelledError -> U) -> calm t U (acquire_lock t k s).
Proof.
  intros Ho Hb HU. unfold acquire_lock. assert (Q : calm t U (note (OQueued t) (set_queue (s_queue s ++ [t]) (goto t PLock s)))) by (apply (calm_goto t U PLock s); discriminate).
  destruct (s_lock s); [exact Q|]. destruct (s_queue s); [eapply calm_granted; eassumption|exact Q].
Qed.
Lemma calm_sem t (U : Prop) k o s : t_obj k = Some o -> build (t_job k) = Ok o -> (unsendable (t_job k) CancelledError -> U) -> calm t U s -> calm t U (acquire_sem t k s).
Proof.
  intros Ho Hb HU C. unfold acquire_sem. destruct (uses_sem (t_job k)); [destruct (0 <? s_sem s); [|exact C]|]; eapply calm_acquire; eassumption.
Qed.
Lemma calm_put t (U : Prop) k s : t_phase k = PSem -> calm t U (put t k s).
Proof.
  intros Hp k' G E. unfold get, put in G. fldin G. rewrite assoc_set_get in G. destruct (Z.eqb_spec t t); [|contradiction]. 
  destruct (assoc t (s_tasks s)); [|discriminate G]. injection G as <-. congruence.
Qed.
Lemma calm_start t (U : Prop) k s : (unsendable (t_job k) CancelledError -> U) -> calm t U (start t k s).
Proof.
  intro HU. unfold start.
  assert (Hmain : forall j, j = t_job k -> calm t U
    (match build j with
     | Err e => finish t (OExn e) s
     | Ok o =>
       match response_waiter j o with
       | Err e => finish t (OExn e) s
       | Ok None => let k := mk_task j PSem (Some o) None in acquire_sem t k (prepared t k s)
       | Ok (Some (m, sequence)) =>
           let k := mk_task j PSem (Some o) (Some (s_next s)) in
           acquire_sem t k (prepared t k (wait_for m Timeouts_default sequence s))
       end
     end)).
  { intros j ->. destruct (build (t_job k)) as [o|e] eqn:Hb; [|apply calm_finish; intro E; injection E as ->; apply HU; left; exact Hb].
    destruct (response_waiter (t_job k) o) as [[[m q]|]|e] eqn:Hr; cbv zeta; [| |apply calm_finish; intro E; injection E as ->; apply HU; right; exists o; auto]; unfold prepared.
    - eapply calm_sem; [reflexivity|exact Hb|exact HU|apply calm_put; reflexivity].
    - eapply calm_sem; [reflexivity|exact Hb|exact HU|apply calm_put; reflexivity]. }
  destruct (t_job k) eqn:Hj; try (apply Hmain; reflexivity). apply calm_goto. discriminate.
Qed.
Lemma calm_resume s t k : Core s -> get s t = Some k -> ended (t_phase k) = false -> calm t (unsendable (t_job k) CancelledError) (resume t s).
Proof.
  intros Hc G He. set (U := unsendable (t_job k) CancelledError). pose proof (proj1 (proj2 Hc) t k G) as Hk. unfold Task_ok in Hk.
  assert (C0 : calm t U s). { intros k' G' E. assert (k' = k) as -> by congruence. rewrite E in He. discriminate He. }
  unfold resume. rewrite G. destruct (t_phase k) eqn:Hp; try exact C0.
  - apply calm_start. auto.
  - destruct Hk as (o & Ho & Hb & _). eapply calm_sem; try eassumption. auto.
  - destruct Hk as (o & Ho & Hb & _). destruct (s_lock s); [exact C0|]. destruct (s_queue s) as [|h q]; [exact C0|]. destruct (h =? t); [|exact C0].
    eapply calm_granted; try eassumption. auto.
  - destruct (s_futs s i) as [|r|]; try exact C0. destruct (t_obj k) as [o|]; [|exact C0]. 
    unfold request_raw_resume. destruct (z_type o); try apply calm_return.
    destruct (unexpected_status r (expected_of (t_job k))) as [c|]; [|apply calm_return].
    destruct (t_wid k) as [j|]; [|apply calm_raise; discriminate]. destruct (registered s j); [|apply calm_raise; discriminate].
    rewrite complete_nf. apply calm_raise. discriminate.
  - destruct (until <=? s_now s); [|exact C0]. apply calm_finish. destruct (t_job k); discriminate.
  - apply calm_goto. discriminate.
  - destruct (s_futs s i); try exact C0. apply calm_finish. discriminate.
Qed.
Lemma core_objects s : Core s -> objects s.
Proof.
  intros Hc t k G. pose proof (proj1 (proj2 Hc) t k G) as Hk. unfold Task_ok in Hk. destruct (t_phase k); try exact I; destruct Hk as (o & Ho & _); eauto.
Qed.
Lemma timeout_others s t : others t s (wait_timeout t s).
Proof.
  unfold wait_timeout. destruct (get s t) as [k|]; [|apply others_refl].
  destruct (t_phase k); try apply others_refl; destruct (s_futs s i); try apply others_refl; destruct (deadline <=? s_now s); try apply others_refl;
    rewrite cancel_fut_nf; (eapply others_trans; [|first [apply rests_raw_raise|apply rests_finish]]); intros u _; reflexivity.
Qed.
Lemma cancel_others s t : others t s (cancel t s).
Proof.
  unfold cancel. destruct (get s t) as [k|]; [|apply others_refl].
  destruct (t_phase k); try apply others_refl; try rewrite cancel_fut_nf; try rewrite free_sem_nf;
    (eapply others_trans; [|first [apply rests_raw_raise|apply rests_finish]]); intros u _; reflexivity.
Qed.
(** what one event makes of a task that ends with an exception *)
Definition sound_end (e : event) (t : Z) (k : task) (x : exn) : Prop :=
  (x = CancelledError -> e = ECancel t \/ unsendable (t_job k) x) /\ (forall m to, t_job k = JWaitFor m to -> x = CancelledError \/ x = TimeoutError).
Lemma step_end e s t k x : Core s -> get (step e s) t = Some k -> t_phase k = PDone (OExn x) -> get s t = Some k \/ sound_end e t k x.
Proof.
  intros Hc G Hp. pose proof (step_prims e s Hc) as P.
  assert (Old : forall k0, get s t = Some k0 -> ended (t_phase k0) = true -> get s t = Some k).
  { intros k0 G0 E0. pose proof (done_prims _ _ _ _ P G0 E0) as G1. congruence. }
  destruct e; cbn [step] in *.
  - left. unfold get, spawn, note in *. fldin G. look G; [reflexivity|discriminate Hp].
  - destruct (Z.eq_dec t t0) as [->|D]; [|left; rewrite <- (resume_others_k s t0 (core_objects s Hc) t D); exact G].
    destruct (get s t0) as [k0|] eqn:G0; [|unfold resume in G; rewrite G0 in G; congruence]. destruct (ended (t_phase k0)) eqn:E0; [left; eapply Old; [reflexivity|exact E0]|]. right.
    destruct (same_job_prims _ _ P t0 k0 G0) as (k1 & G1 & Hj). assert (k1 = k) as -> by congruence. split.
    + intros ->. right. rewrite Hj. eapply calm_resume; eassumption.
    + intros m to Hj2. rewrite Hj in Hj2. exfalso. unfold resume in G. rewrite G0 in G. pose proof (proj1 (proj2 Hc) t0 k0 G0) as Hk. unfold Task_ok in Hk.
      destruct (t_phase k0) eqn:Hp0; try (destruct Hk as (o & _ & Hb & _); rewrite Hj2 in Hb; discriminate Hb); try (destruct Hk; fail); try discriminate E0.
      * unfold start in G. rewrite Hj2 in G. destruct (goto_phase _ _ _ _ G) as [X|X]; [congruence|]. rewrite get_wait_for in X. congruence.
      * destruct (goto_phase _ _ _ _ G) as [X|X]; congruence.
      * destruct (s_futs s i); try congruence. destruct (goto_phase _ _ _ _ G) as [X|X]; congruence.
  - destruct (Z.eq_dec t t0) as [->|D]; [|left; rewrite <- (timeout_others s t0 t D); exact G].
    unfold wait_timeout in G. destruct (get s t0) as [k0|] eqn:G0; [|congruence].
    assert (Ex : forall s1 r, get (finish t0 r s1) t0 = Some k -> r = OExn TimeoutError -> x = TimeoutError).
    { intros s1 r X ->. unfold finish in X. change (get (goto t0 (PDone (OExn TimeoutError)) s1) t0 = Some k) in X. destruct (goto_phase _ _ _ _ X) as [Y|Y]; [congruence|].
      unfold goto in X. rewrite Y in X. congruence. }
    assert (Same : get s t0 = Some k -> Some k0 = Some k) by (rewrite G0; auto).
    assert (Dec : x = TimeoutError \/ Some k0 = Some k).
    { destruct (t_phase k0); try (right; apply Same; exact G); destruct (s_futs s i); try (right; apply Same; exact G);
        (destruct (deadline <=? s_now s); [|right; apply Same; exact G]); left; [unfold raw_raise in G|]; (eapply Ex; [exact G|reflexivity]). }
    destruct Dec as [->|X]; [right; split; [discriminate|auto]|left; exact X].
  - destruct (Z.eq_dec t t0) as [->|D]; [|left; rewrite <- (cancel_others s t0 t D); exact G].
    unfold cancel in G. destruct (get s t0) as [k0|] eqn:G0; [|congruence].
    assert (Ex : forall s1 r, get (finish t0 r s1) t0 = Some k -> r = OExn CancelledError -> x = CancelledError).
    { intros s1 r X ->. unfold finish in X. change (get (goto t0 (PDone (OExn CancelledError)) s1) t0 = Some k) in X. destruct (goto_phase _ _ _ _ X) as [Y|Y]; [congruence|].
      unfold goto in X. rewrite Y in X. congruence. }
    assert (Same : get s t0 = Some k -> Some k0 = Some k) by (rewrite G0; auto).
    assert (Dec : x = CancelledError \/ Some k0 = Some k).
    { destruct (t_phase k0); try (right; apply Same; exact G); left; try unfold raw_raise in G; (eapply Ex; [exact G|reflexivity]). }
    destruct Dec as [->|X]; [right; split; [auto|auto]|left; exact X].
  - left. destruct (cleanup_nf i s) as [X|[_ X]]; rewrite X in G; exact G.
  - left. destruct (0 <=? ms); exact G.
  - left. destruct (R_new _ _ (receives_step s data) t k G) as [X|(mode & ->)]; [exact X|discriminate Hp].
  - left. exact G.
  - left. exact G.
Qed.

(** ** the moment at which the time is up *)
Lemma one_write s la t a bs lb a' bs' : Life s -> s_log s = la ++ OWritten t a bs :: lb -> In (OWritten t a' bs') (s_log s) -> a' = a.
Proof.
  intros HL E Hin. rewrite E in Hin. apply in_app_or in Hin as [Hin|[Hin|Hin]]; [|congruence|].
  - exfalso. apply in_split in Hin as (l1 & l2 & ->). eapply (written_once s l1 t a' bs' l2 a bs lb HL). rewrite E, <- app_assoc. reflexivity.
  - exfalso. apply in_split in Hin as (l1 & l2 & ->). exact (written_once s la t a bs l1 a' bs' l2 HL E).
Qed.
Lemma awaited_patience o m to : awaited o = Some (m, to) -> patience o = to.
Proof.
  unfold awaited, patience. destruct (z_type o); try discriminate; [|destruct (is_reset_command o); [|discriminate]]; intro H; injection H as _ <-; reflexivity.
Qed.
Lemma reply_is_for o m to r : awaited o = Some (m, to) -> reply_to o r -> is_for m r.
Proof.
  intros A H. unfold is_for. apply match_answers. unfold answers. unfold awaited in A. destruct H as [(Ht & H1 & H2 & H3)|(Ht & Hr & H1 & H2 & H3)]; rewrite Ht in A.
  - injection A as <- _. cbn [m_type m_sub m_cmd m_payload]. repeat (split; [congruence|]). constructor.
  - apply is_reset in Hr. rewrite Hr in A. injection A as <- _. cbn [m_type m_sub m_cmd m_payload]. repeat (split; [congruence|]). constructor.
Qed.
Definition due (s : st) (t : Z) : Prop := exists k, get s t = Some k /\
  match t_job k with JWaitFor m to => unheard t m to s | j => exists o, build j = Ok o /\ silence t o s end.
Lemma due_wait cap s t k i d ms : Inv cap s -> First s -> 0 <= ms -> get s t = Some k -> t_phase k = PWait i d -> s_futs s i = FPending -> s_now s < d -> d <= s_now s + ms ->
  due (set_now (s_now s + ms) s) t.
Proof.
  intros HI F Hms G Hp Hf H1 H2. exists k. split; [exact G|]. pose proof (F t k G) as F1. unfold First1 in F1. rewrite Hp, Hf in F1.
  destruct F1 as (o & m & to & a & bs & la & lb & Ho & Hb & Ha & Hfb & E & Hno & _ & Hn).
  pose proof (I_waiters _ _ HI t k G) as W. unfold Waits in W. rewrite Hp in W. destruct W as (o' & m' & to' & a' & f & bs' & Ho' & _ & Ha' & _ & _ & Hd & (la' & lb' & E' & _ & _ & _ & _ & Hw)).
  rewrite Hf in Hw. assert (o' = o) as -> by congruence. assert (m' = m) as -> by congruence. assert (to' = to) as -> by congruence.
  assert (a' = a) as ->. { eapply one_write; [exact (I_life _ _ HI)|exact E|]. rewrite E'. apply in_or_app. right. left. reflexivity. }
  assert (S0 : silence t o (set_now (s_now s + ms) s)).
  { exists la, lb, a, bs. cbn [set_now s_log s_now]. repeat (split; [assumption|]). split; [rewrite (awaited_patience _ _ _ Ha); lia|].
    intros r Hr Hrt. destruct Hw as [Hw|Hw]; [|lia]. exact (Hn Hw r Hr (reply_is_for _ _ _ _ Ha Hrt)). }
  destruct (t_job k); try (exists o; split; [exact Hb|exact S0]). discriminate Hb.
Qed.
Lemma due_await cap s t k i x ms a to m : Inv cap s -> Hear s -> 0 <= ms -> get s t = Some k -> (t_phase k = PReg i x \/ t_phase k = PAwait i x) -> s_futs s i = FPending ->
  t_job k = JWaitFor m to -> In (ORegistered i a to) (s_log s) -> s_now s < a + to -> a + to <= s_now s + ms -> due (set_now (s_now s + ms) s) t.
Proof.
  intros HI H Hms G Hp Hf Hj Hr H1 H2. exists k. split; [exact G|]. rewrite Hj. destruct (H t k i G (ex_intro _ x Hp)) as (m' & to' & Hj' & (a' & la & lb & E & Hn)).
  assert (m' = m) as -> by congruence. assert (to' = to) as -> by congruence.
  assert (a' = a) as ->. { apply (registered_once s (I_regs _ _ HI) i a' to a to); [|exact Hr]. rewrite E. apply in_or_app. right. left. reflexivity. }
  assert (Hw : (exists w, In w (s_waiters s) /\ w_id w = i) \/ a + to + 100 <= s_now s).
  { pose proof (I_waiters _ _ HI t k G) as W. unfold Waits in W. destruct Hp as [Hp|Hp]; rewrite Hp in W.
    - destruct W as (m2 & a2 & Hj2 & (la2 & lb2 & _ & _ & Hr2 & _ & _ & Hw)). rewrite Hf in Hw. assert (x = to) by congruence. subst x.
      destruct (registered_once s (I_regs _ _ HI) _ _ _ _ _ Hr Hr2) as [-> _]. exact Hw.
    - destruct W as (m2 & to2 & a2 & Hj2 & _ & (la2 & lb2 & _ & _ & Hr2 & _ & _ & Hw)). rewrite Hf in Hw.
      destruct (registered_once s (I_regs _ _ HI) _ _ _ _ _ Hr Hr2) as [-> ->]. exact Hw. }
  exists la, lb, i, a, k, x. cbn [set_now s_log s_now]. split; [exact E|]. split; [exact G|]. split; [exact Hp|]. split; [lia|].
  intros r Hr2 Ha. destruct Hw as [Hw|Hw]; [|lia]. destruct (Hn Hf Hw r Hr2) as (t2 & k2 & i2 & X); [unfold is_for; apply match_answers, Ha|]. exists t2, k2, i2. exact X.
Qed.

(** ** any history *)
Definition Past (es : list event) (s0 : st) (t : Z) : Prop := at_some_time (fun s => due s t) es s0.
Lemma some_time_more P es es' s0 : at_some_time P es s0 -> at_some_time P (es ++ es') s0.
Proof. intros (a & b & -> & H). exists a, (b ++ es'). split; [rewrite <- app_assoc; reflexivity|exact H]. Qed.
Lemma some_time_end (P : st -> Prop) es s0 : P (run es s0) -> at_some_time P es s0.
Proof. intro H. exists es, []. split; [rewrite app_nil_r; reflexivity|exact H]. Qed.
Lemma run_snoc es e s : run (es ++ [e]) s = step e (run es s).
Proof. unfold run. rewrite fold_left_app. reflexivity. Qed.
Record Blames (cap : Z) (d0 : devices) (es : list event) (s0 s : st) : Prop := {
  L_inv : Inv cap s; L_origin : Origin s; L_claims : Claims s; L_tr : Tr d0 s; L_first : First s; L_hear : Hear s;
  L_now : Now (Past es s0) (In EClose es) s;
  L_end : forall t k x, get s t = Some k -> t_phase k = PDone (OExn x) ->
    (x = CancelledError -> In (ECancel t) es \/ unsendable (t_job k) x) /\ (forall m to, t_job k = JWaitFor m to -> x = CancelledError \/ x = TimeoutError) }.
Lemma face_step e s : match e with ETick _ | EClose => False | _ => True end -> s_now (step e s) = s_now s /\ s_open (step e s) = s_open s.
Proof.
  intro H. assert (F : face (step e s) = face s \/ exists data, e = ERecv data).
  { destruct e; cbn [step]; try destruct H; [left; reflexivity|left; apply face_resume|left; apply face_timeout|left; apply face_cancel|left; apply face_cleanup|right; eauto|left; reflexivity]. }
  destruct F as [F|(data & ->)]; [unfold face in F; injection F; auto|]. pose proof (receives_step s data) as R. split; [apply R|apply R].
Qed.
Lemma blames_step cap d0 es s0 s e : Blames cap d0 es s0 s -> s = run es s0 -> fields_exist (step e s) -> Blames cap d0 (es ++ [e]) s0 (step e s).
Proof.
  intros [LI LO LC LT LF LH LN LE] Es Hx. pose proof (step_prims e s (I_core _ _ LI)) as P.
  constructor; try (eapply inv_prims; eassumption); try (eapply (prims_inv Origin origin_prim); eassumption).
  - eapply claims_prims; [exact P|apply LI|exact LC].
  - apply tr_step, LT.
  - eapply first_step; eassumption.
  - eapply hear_step; try eassumption. apply LT.
  - assert (More : forall t, Past es s0 t -> Past (es ++ [e]) s0 t) by (intros t; apply some_time_more).
    assert (Shut : In EClose es -> In EClose (es ++ [e])) by (intro H; apply in_or_app; left; exact H).
    assert (N2 : Now (Past (es ++ [e]) s0) (In EClose (es ++ [e])) s) by (eapply now_weaken; [exact More|exact Shut|exact LN]).
    assert (Here : forall t, due (step e s) t -> Past (es ++ [e]) s0 t).
    { intros t H. apply some_time_end. rewrite run_snoc, <- Es. exact H. }
    pose proof (face_step e s) as Fa.
    destruct e; try (destruct (Fa I) as [E1 E2]; eapply now_prims; [exact P|exact LI|exact E1|exact E2|exact N2]).
    + cbn [step] in *. destruct (Z.leb_spec 0 ms) as [Hms|Hms]; [|exact N2]. destruct N2 as [N0 N]. split; [exact N0|].
      intros t k G. change (get s t = Some k) in G. specialize (N t k G). specialize (Here t). unfold Now1 in *. cbn [set_now s_futs s_now s_log] in *.
      destruct (t_phase k) eqn:Hp; try exact I; try exact N.
      * intro Hf. destruct (N Hf) as [H1|H1]; [|right; exact H1]. destruct (Z_lt_le_dec (s_now s + ms) deadline) as [H2|H2]; [left; exact H2|].
        right. apply Here. eapply due_wait; eassumption.
      * intro Hf. destruct (N Hf) as [(a & to & m & Hj & Hr & H1)|H1]; [|right; exact H1]. destruct (Z_lt_le_dec (s_now s + ms) (a + to)) as [H2|H2]; [left; exists a, to, m; auto|].
        right. left. apply Here. eapply due_await; try eassumption. left. exact Hp.
      * intro Hf. destruct (N Hf) as [(a & to & m & Hj & Hr & H1)|H1]; [|right; exact H1]. destruct (Z_lt_le_dec (s_now s + ms) (a + to)) as [H2|H2]; [left; exists a, to, m; auto|].
        right. left. apply Here. eapply due_await; try eassumption. right. exact Hp.
    + destruct N2 as [_ N]. split; [intros _; apply in_or_app; right; left; reflexivity|exact N].
  - intros t k x G Hp. destruct (step_end e s t k x (I_core _ _ LI) G Hp) as [G0|[H1 H2]].
    + destruct (LE t k x G0 Hp) as [H1 H2]. split; [|exact H2]. intro E. destruct (H1 E) as [H|H]; [left; apply in_or_app; left; exact H|right; exact H].
    + split; [|exact H2]. intro E. destruct (H1 E) as [->|H]; [left; apply in_or_app; right; left; reflexivity|right; exact H].
Qed.
Lemma blames_run cap v d a es : 0 <= cap -> fields_exist (run es (init cap v d a)) -> Blames cap d es (init cap v d a) (run es (init cap v d a)).
Proof.
  intro Hc. induction es as [|e es IH] using rev_ind; intro Hx.
  - constructor; try discriminate.
    + apply inv_init, Hc.
    + intros w [].
    + intros w q [].
    + apply tr_init.
    + split; [discriminate|]. intros t k C. discriminate C.
  - rewrite run_snoc in *. apply blames_step; [|reflexivity|exact Hx]. apply IH. eapply fields_before; [|exact Hx].
    apply step_prims. apply (reachable_inv cap); [exact Hc|]. exists v, d, a, es. reflexivity.
Qed.

(** ** the theorems *)
Lemma operation_blamed cap v d a es t k x : 0 <= cap -> let s0 := init cap v d a in let s := run es s0 in fields_exist s -> get s t = Some k ->
  (forall m to, t_job k <> JWaitFor m to) -> In (OEnded t (OExn x)) (s_log s) -> blamed es s0 (s_log s) t (t_job k) x.
Proof.
  intros Hc s0 s Hx G Hj E. pose proof (blames_run cap v d a es Hc Hx) as [LI _ _ _ _ _ LN LE]. fold s0 in LN, LE, LI. fold s in LN, LE, LI.
  destruct (ended_reason cap s t (OExn x) Hc) as (k' & G' & Hp & _); [exists v, d, a, es; reflexivity|exact E|]. assert (k' = k) as -> by congruence.
  destruct LN as [_ N]. specialize (N t k G). unfold Now1 in N. rewrite Hp in N. destruct (LE t k x G Hp) as [H1 _].
  destruct N as [->|[H|[[-> H]|[[-> H]|[(c & -> & H)|(-> & c & o & mq & H2 & H3 & H4)]]]]].
  - destruct (H1 eq_refl) as [H|H]; [apply B_cancelled, H|apply B_unsendable, H].
  - apply B_unsendable, H.
  - apply B_closed, H.
  - destruct H as [(es1 & es2 & -> & k1 & G1 & H)|(m & to & H & _)]; [|exfalso; eapply Hj, H].
    assert (Ej : t_job k1 = t_job k).
    { assert (P : prims (run es1 s0) s).
      { unfold s. replace (run (es1 ++ es2) s0) with (run es2 (run es1 s0)) by (unfold run; rewrite fold_left_app; reflexivity).
        apply run_prims. apply (reachable_inv cap); [exact Hc|]. exists v, d, a, es1. reflexivity. }
      destruct (same_job_prims _ _ P t k1 G1) as (k2 & G2 & E2). congruence. }
    rewrite Ej in H. destruct (t_job k) eqn:Ejk; try (destruct H as (ob & Hb & Hs); eapply B_silence; [exact Hb|exists es1, es2; split; [reflexivity|exact Hs]]).
    exfalso. eapply Hj. reflexivity.
  - eapply B_refused, H.
  - eapply B_lost; eassumption.
Qed.
Lemma wait_blamed cap v d a es t k m to x : 0 <= cap -> let s0 := init cap v d a in let s := run es s0 in fields_exist s -> get s t = Some k ->
  t_job k = JWaitFor m to -> 0 < to -> In (OEnded t (OExn x)) (s_log s) ->
  x = CancelledError /\ In (ECancel t) es \/ x = TimeoutError /\ at_some_time (unheard t m to) es s0.
Proof.
  intros Hc s0 s Hx G Hj Hto E. pose proof (blames_run cap v d a es Hc Hx) as [LI _ _ _ _ _ LN LE]. fold s0 in LN, LE, LI. fold s in LN, LE, LI.
  destruct (ended_reason cap s t (OExn x) Hc) as (k' & G' & Hp & _); [exists v, d, a, es; reflexivity|exact E|]. assert (k' = k) as -> by congruence.
  destruct LN as [_ N]. specialize (N t k G). unfold Now1 in N. rewrite Hp in N. destruct (LE t k x G Hp) as [H1 H2].
  destruct (H2 m to Hj) as [->| ->].
  - left. split; [reflexivity|]. destruct (H1 eq_refl) as [H|[H|(o & H & _)]]; [exact H| |]; rewrite Hj in H; discriminate H.
  - right. split; [reflexivity|]. destruct N as [C|[H|[[C _]|[[_ H]|[(c & C & _)|(C & _)]]]]]; try discriminate C.
    + exfalso. destruct H as [H|(o & H & _)]; rewrite Hj in H; discriminate H.
    + destruct H as [(es1 & es2 & -> & k1 & G1 & H)|(m' & to' & H & C)]; [|exfalso; assert (to' = to) by congruence; lia].
      assert (Ej : t_job k1 = t_job k).
      { assert (P : prims (run es1 s0) s).
        { unfold s. replace (run (es1 ++ es2) s0) with (run es2 (run es1 s0)) by (unfold run; rewrite fold_left_app; reflexivity).
          apply run_prims. apply (reachable_inv cap); [exact Hc|]. exists v, d, a, es1. reflexivity. }
        destruct (same_job_prims _ _ P t k1 G1) as (k2 & G2 & E2). congruence. }
      rewrite Ej, Hj in H. exists es1, es2. split; [reflexivity|exact H].
Qed.
