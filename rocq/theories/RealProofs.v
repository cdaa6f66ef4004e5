(** * RealProofs: every course of a program that the stick can bring about happens on the request machine *)
From Coq Require Import ZifyBool ZifyNat.
From Verif Require Import Base Types Uart Buffalo CmdTable Zpi Api App Machine SpecWire SpecCodec SpecMachine SpecProgress Nv StartZnp SpecStart Host SpecHost SpecEnds
  AppStart SpecAppStart UartProofs UartProofs2 MachineBase MachineInv MachineInv5 DispatchProofs MachineProofs5 MachineProofs6 StartProofs StartSend HostProofs HostEnds SpecReal Machine MachineBase.

(** ** the state between two steps of the program *)
Definition tame (w : waiter) : Prop := w_seq w = None /\ forall m, deliverable m -> exists b, waiter_match (w_matcher w) m = Ok b.
Definition idle (cap : Z) (s : st) : Prop :=
  Inv cap s /\ s_open s = true /\ s_lock s = None /\ s_queue s = [] /\ s_buf s = [] /\ Forall tame (s_waiters s).
(** task [t] made the waiter [w], which is still there *)
Definition live (s : st) (w : matcher * Z) (t : Z) : Prop :=
  exists i k, get s t = Some k /\ t_phase k = PReg i (snd w) /\ s_futs s i = FPending /\ In (mk_waiter i (fst w) (snd w) None) (s_waiters s).
(** the matcher is for messages of ZDO, which answer no request, and never fails *)
Definition for_zdo (w : matcher * Z) : Prop :=
  m_type (fst w) = AREQ /\ m_sub (fst w) = ZDO /\ 0 <= snd w /\ forall m, deliverable m -> exists b, waiter_match (fst w) m = Ok b.
Lemma plain_tame i ty sub cmd to : tame (mk_waiter i (mk_matcher ty sub cmd []) to None).
Proof.
  split; [reflexivity|]. intros m _. cbn [w_matcher]. unfold waiter_match. cbn [m_type m_sub m_cmd m_payload match_payload].
  destruct (_ || _); eauto.
Qed.

Lemma inv_step cap e s : Inv cap s -> Inv cap (step e s).
Proof. intro H. exact (inv_run cap [e] s H). Qed.
Lemma fresh_task cap s : Inv cap s -> get s (s_ntid s) = None.
Proof.
  intro H. destruct (get s (s_ntid s)) as [k|] eqn:E; [|reflexivity]. destruct (I_core _ _ H) as ([_ Ht] & _). specialize (Ht _ _ E). lia.
Qed.
Lemma get_spawn cap s j t : Inv cap s -> get (Machine.spawn j s) t = if t =? s_ntid s then Some (mk_task j PStart None None) else get s t.
Proof.
  intro H. pose proof (fresh_task cap s H) as F. unfold get in *. unfold Machine.spawn, note. fld. rewrite assoc_snoc.
  destruct (Z.eqb_spec t (s_ntid s)) as [->|Hn]; [rewrite F, Z.eqb_refl; reflexivity|].
  destruct (assoc t (s_tasks s)); [reflexivity|]. destruct (Z.eqb_spec (s_ntid s) t); [congruence|reflexivity].
Qed.

(** ** a message comes in *)
Lemma recv cap s f m : Inv cap s -> s_buf s = [] -> Forall tame (s_waiters s) -> sendable f -> f_data f <> [] -> from_unpi_frame (received f) = Ok m ->
  let s' := step (ERecv (wire_of f)) s in
  Inv cap s' /\ s_open s' = s_open s /\ s_lock s' = s_lock s /\ s_queue s' = s_queue s /\ s_buf s' = [] /\ s_now s' = s_now s /\
  s_waiters s' = filter (fun w => negb (hit m w)) (s_waiters s) /\
  (forall i, s_futs s' i = if with_id (filter (hit m) (s_waiters s)) i then match s_futs s i with FPending => FDone m | x => x end else s_futs s i) /\
  (forall t k, get s t = Some k -> get s' t = Some k).
Proof.
  intros Hi Hb Ht Hs Hd Hf. cbv zeta. split; [apply inv_step, Hi|]. rewrite (receive_frame s f Hs Hd Hb).
  assert (Hdm : deliverable m) by (exists f; auto).
  pose proof (data_received_get s (received f)) as Hg. unfold data_received in *. rewrite Hf in *.
  destruct (dispatch_spec m (s_waiters (note (OReceived m) s)) (note (OReceived m) s)) as (pre & post & o' & r & Epp & E & Hst).
  rewrite E in *. change (s_waiters (note (OReceived m) s)) with (s_waiters s) in Epp.
  assert (Hall : post = [] /\ r = Ok tt).
  { rewrite Epp, Forall_app in Ht. destruct Ht as [T1 T2]. destruct Hst as [p Hp|p w q po Hp H1 H2 H3|p w e po Hp H1]; [auto| |].
    - exfalso. rewrite Forall_app in T1. destruct T1 as [_ T1]. inversion T1 as [|? ? [T _] _]; subst. congruence.
    - exfalso. inversion T2 as [|? ? [_ T] _]; subst. destruct (T m Hdm) as [b Eb]. congruence. }
  destruct Hall as [-> ->]. rewrite app_nil_r in Epp. subst pre. cbn [fst] in Hg.
  assert (Nd : NoDup (map w_id (s_waiters s))) by (destruct (I_core _ _ Hi) as (_ & _ & _ & (_ & Hinc & _)); apply increasing_nodup, Hinc).
  assert (Ndf : NoDup (map w_id (filter (hit m) (s_waiters s)))).
  { apply increasing_nodup, increasing_filter. apply (I_core _ _ Hi). }
  assert (Wf : filter (fun w => negb (with_id (filter (hit m) (s_waiters s)) (w_id w))) (s_waiters s) = filter (fun w => negb (hit m w)) (s_waiters s)).
  { apply filter_ext_in. intros w Hw. f_equal. unfold with_id. destruct (hit m w) eqn:Eh.
    - apply existsb_exists. exists w. split; [apply filter_In; auto|apply Z.eqb_refl].
    - apply not_true_is_false. intro C. apply existsb_exists in C as (w' & C1 & C2). apply filter_In in C1 as [C1 C3].
      apply Z.eqb_eq in C2. assert (w' = w); [|congruence].
      clear - Nd C1 C2 Hw. induction (s_waiters s) as [|a l IH]; [destruct Hw|]. cbn [map] in Nd. inversion Nd as [|? ? N1 N2]; subst.
      destruct C1 as [->|C1], Hw as [->|Hw]; [reflexivity| | |exact (IH N2 Hw C1)].
      + exfalso. apply N1. rewrite C2. apply in_map, Hw.
      + exfalso. apply N1. rewrite <- C2. apply in_map, C1. }
  pose proof (completes_futs (filter (hit m) (s_waiters s)) m Ndf (note (OReceived m) s)) as Fu.
  pose proof (completes_nf (filter (hit m) (s_waiters s)) m (note (OReceived m) s)) as Nf.
  change (s_futs (note (OReceived m) s)) with (s_futs s) in Fu.
  set (s1 := completes (filter (hit m) (s_waiters s)) m (note (OReceived m) s)) in *. clearbody s1.
  assert (A : s_open s1 = s_open s /\ s_lock s1 = s_lock s /\ s_queue s1 = s_queue s /\ s_now s1 = s_now s /\ s_waiters s1 = filter (fun w => negb (hit m w)) (s_waiters s)).
  { rewrite Nf. fld. rewrite <- Wf. repeat split. }
  clear Nf. destruct A as (A1 & A2 & A3 & A4 & A5).
  assert (K : let x := fst (app_handle o' s1) in s_open x = s_open s /\ s_lock x = s_lock s /\ s_queue x = s_queue s /\ s_now x = s_now s /\
    s_waiters x = filter (fun w => negb (hit m w)) (s_waiters s) /\ s_futs x = s_futs s1).
  { cbv zeta. unfold app_handle. destruct (s_app s1); [|cbn [fst]; repeat split; assumption].
    destruct (handle_znp (s_version s1) (s_devs s1) o') as [[d es] r]. cbn [fst].
    destruct (effects_keep es (set_devs d s1)) as (B1 & B2 & B3 & _ & _ & _ & _ & _ & B9 & B10 & _ & B12 & _).
    rewrite B1, B2, B3, B9, B10, B12. fld. repeat split; assumption. }
  destruct (app_handle o' s1) as [s2 r2]. cbn [fst] in *. destruct K as (K1 & K2 & K3 & K4 & K5 & K6).
  assert (Gs : forall s3, (s3 = set_buf [] s2 \/ exists e, s3 = note (ORaised e) (set_buf [] s2)) ->
    s_open s3 = s_open s /\ s_lock s3 = s_lock s /\ s_queue s3 = s_queue s /\ s_buf s3 = [] /\ s_now s3 = s_now s /\
    s_waiters s3 = filter (fun w => negb (hit m w)) (s_waiters s) /\
    (forall i, s_futs s3 i = if with_id (filter (hit m) (s_waiters s)) i then match s_futs s i with FPending => FDone m | x => x end else s_futs s i) /\
    (forall t k, get s t = Some k -> get s3 t = Some k)).
  { intros s3 [->|(e & ->)]; unfold note, get in *; fld; repeat split; try assumption; try (intro i; rewrite K6; apply Fu); intros t k G; apply Hg, G. }
  destruct r2; apply Gs; eauto.
Qed.

(** ** a request is sent *)
Definition waits_at (cap : Z) (s : st) (sub : subsystem) (cmd : string) (d : payload) (x : list Z) (o : zpi) (s' : st) : Prop :=
  exists mm T, awaited o = Some (mm, T) /\ 0 <= T /\ Inv cap s' /\ s_open s' = true /\ s_queue s' = [] /\ s_buf s' = [] /\ s_now s' = s_now s /\
    s_waiters s' = s_waiters s ++ [mk_waiter (s_next s) mm T None] /\ s_futs s' (s_next s) = FPending /\
    (forall i, i <> s_next s -> s_futs s' i = s_futs s i) /\
    get s' (s_ntid s) = Some (mk_task (JCommand sub cmd d x) (PWait (s_next s) (s_now s + T)) (Some o) None) /\
    (forall t k, get s t = Some k -> t <> s_ntid s /\ get s' t = Some k).
Lemma sent cap s sub cmd d x : idle cap s -> can_send sub cmd d ->
  exists o, from_command sub cmd d = Ok o /\ answered_kind o = true /\
    waits_at cap s sub cmd d x o (run [ECall (JCommand sub cmd d x); ERun (s_ntid s)] s).
Proof.
  intros (Hi & Ho & Hl & Hq & Hb & Hw) (o & f & E1 & E2 & E3 & E4 & _). exists o. split; [exact E1|]. split; [exact E2|].
  assert (Hi2 : Inv cap (run [ECall (JCommand sub cmd d x); ERun (s_ntid s)] s)) by apply inv_run, Hi.
  assert (Ha : exists mm T, awaited o = Some (mm, T) /\ 0 <= T).
  { unfold awaited, answered_kind in *. destruct (z_type o); try discriminate E2.
    - eexists _, _. split; [reflexivity|]. unfold sreq_timeout. destruct (_ || _); vm_compute; discriminate.
    - rewrite E2. eexists _, _. split; [reflexivity|]. vm_compute; discriminate. }
  destruct Ha as (mm & T & Ha & HT). exists mm, T. split; [exact Ha|]. split; [exact HT|]. split; [exact Hi2|]. clear Hi2.
  remember (JCommand sub cmd d x) as j eqn:Ej. cbn [run fold_left]. set (s1 := step (ECall j) s).
  assert (G1 : get s1 (s_ntid s) = Some (mk_task j PStart None None)) by (unfold s1; cbn [step]; rewrite (get_spawn cap) by exact Hi; rewrite Z.eqb_refl; reflexivity).
  set (k := mk_task j PHold (Some o) None).
  set (s2 := put (s_ntid s) k (note (OGranted (s_ntid s)) (set_lock (Some (s_ntid s)) s1))).
  assert (Es : step (ERun (s_ntid s)) s1 = request_raw (s_ntid s) j o s2).
  { cbn [step]. unfold resume. rewrite G1. cbn [t_phase]. unfold start. cbn [t_job]. rewrite Ej at 1. cbn [build]. rewrite E1. cbn [in_coroutine response_waiter].
    unfold acquire_sem. cbn [uses_sem t_job]. unfold prepared. rewrite <- Ej.
    set (ka := mk_task j PSem (Some o) None).
    assert (G2 : get (put (s_ntid s) ka s1) (s_ntid s) = Some ka) by (rewrite (get_put _ _ _ _ _ G1), Z.eqb_refl; reflexivity).
    rewrite (goto_some _ _ _ _ G2). unfold acquire_lock.
    set (kb := mk_task (t_job ka) PAdm (t_obj ka) (t_wid ka)). set (sb := put (s_ntid s) kb (put (s_ntid s) ka s1)).
    assert (G3 : get sb (s_ntid s) = Some kb) by (unfold sb; rewrite (get_put _ _ _ _ _ G2), Z.eqb_refl; reflexivity).
    replace (s_lock sb) with (@None Z) by (symmetry; exact Hl). replace (s_queue sb) with (@nil Z) by (symmetry; exact Hq).
    unfold granted. rewrite (goto_some _ _ _ _ G3). cbn [t_obj t_job ka]. f_equal. unfold s2, sb, kb, ka, note, put. fld. rewrite !assoc_set_twice. reflexivity. }
  rewrite Es. clear Es.
  assert (G2 : get s2 (s_ntid s) = Some k).
  { change (get (put (s_ntid s) k s1) (s_ntid s) = Some k). rewrite (get_put _ _ _ _ _ G1), Z.eqb_refl. reflexivity. }
  assert (Er : request_raw (s_ntid s) j o s2 = put (s_ntid s) (mk_task j (PWait (s_next s) (s_now s + T)) (Some o) None) (written (s_ntid s) (wire_of f) (wait_for mm T None s2))).
  { unfold request_raw. rewrite E3.
    assert (Sw : forall m' T', send_and_wait (s_ntid s) j f m' T' s2 = put (s_ntid s) (mk_task j (PWait (s_next s) (s_now s + T')) (Some o) None) (written (s_ntid s) (wire_of f) (wait_for m' T' None s2))).
    { intros m' T'. unfold send_and_wait. destruct (uart_send_cases (s_ntid s) f (wait_for m' T' None s2)) as [[C _]|[[_ (bs & B1 & B2)]|[_ (e & B1 & _)]]].
      - exfalso. change (s_open s = false) in C. congruence.
      - rewrite (to_buffer_wire f E4) in B1. injection B1 as <-. rewrite B2. rewrite (goto_some _ _ k) by exact G2. reflexivity.
      - rewrite (to_buffer_wire f E4) in B1. discriminate B1. }
    unfold awaited in Ha. unfold answered_kind in E2. destruct (z_type o); try discriminate E2.
    - injection Ha as <- <-. apply Sw.
    - rewrite E2 in Ha |- *. injection Ha as <- <-. apply Sw. }
  rewrite Er. clear Er. 
  assert (Gall : forall t, get (put (s_ntid s) (mk_task j (PWait (s_next s) (s_now s + T)) (Some o) None) (written (s_ntid s) (wire_of f) (wait_for mm T None s2))) t
    = if s_ntid s =? t then Some (mk_task j (PWait (s_next s) (s_now s + T)) (Some o) None) else get s2 t).
  { intro t. rewrite (get_put _ _ _ k) by exact G2. reflexivity. }
  repeat (split; [first [exact Ho|exact Hq|exact Hb|reflexivity]|]).
  split; [unfold put, written, wait_for, s2, s1, note; cbn [step]; unfold Machine.spawn, note; fld; unfold upd; rewrite Z.eqb_refl; reflexivity|].
  split; [intros i Hne; unfold put, written, wait_for, s2, s1, note; cbn [step]; unfold Machine.spawn, note; fld; unfold upd; destruct (Z.eqb_spec i (s_next s)); [contradiction|reflexivity]|].
  split; [rewrite Gall, Z.eqb_refl; reflexivity|].
  intros t k0 G. pose proof (fresh_task cap s Hi) as Fr. assert (Hne : t <> s_ntid s) by (intros ->; congruence). split; [exact Hne|].
  rewrite Gall. destruct (Z.eqb_spec (s_ntid s) t); [congruence|].
  change (get (put (s_ntid s) k s1) t = Some k0). rewrite (get_put _ _ _ _ _ G1). destruct (Z.eqb_spec (s_ntid s) t); [congruence|].
  unfold s1. cbn [step]. rewrite (get_spawn cap) by exact Hi. destruct (Z.eqb_spec t (s_ntid s)); [congruence|exact G].
Qed.

(** ** the waiter of the program stays *)
Lemma same_id cap s w w' : Inv cap s -> In w (s_waiters s) -> In w' (s_waiters s) -> w_id w = w_id w' -> w = w'.
Proof.
  intros Hi. assert (Nd : NoDup (map w_id (s_waiters s))) by (apply increasing_nodup; apply (I_core _ _ Hi)). clear Hi.
  induction (s_waiters s) as [|a l IH]; [intros []|]. cbn [map] in Nd. inversion Nd as [|? ? N1 N2]; subst.
  intros [->|H1] [->|H2] E; [reflexivity| | |exact (IH N2 H1 H2 E)]; exfalso; apply N1; [rewrite E|rewrite <- E]; apply in_map; assumption.
Qed.
Lemma live_id cap s (w : matcher * Z) t i k : Inv cap s -> get s t = Some k -> t_phase k = PReg i (snd w) -> i < s_next s.
Proof.
  intros Hi G Hp. destruct (I_core _ _ Hi) as (_ & _ & (Ho & _) & _). apply (Ho t k i G). unfold own. rewrite Hp. left. reflexivity.
Qed.
Lemma not_hit w m i : for_zdo w -> ~ (z_type m = AREQ /\ z_sub m = ZDO) -> hit m (mk_waiter i (fst w) (snd w) None) = false.
Proof.
  intros (H1 & H2 & _) Hn. apply not_true_is_false. rewrite hit_answers. intros (A1 & A2 & _). cbn [w_matcher] in *. apply Hn. split; congruence.
Qed.
Lemma live_recv cap s f m w t : Inv cap s -> s_buf s = [] -> Forall tame (s_waiters s) -> sendable f -> f_data f <> [] -> from_unpi_frame (received f) = Ok m ->
  for_zdo w -> ~ (z_type m = AREQ /\ z_sub m = ZDO) -> live s w t -> live (step (ERecv (wire_of f)) s) w t.
Proof.
  intros Hi Hb Ht Hs Hd Hf Hz Hn (i & k & G & Hp & Fu & Hin).
  destruct (recv cap s f m Hi Hb Ht Hs Hd Hf) as (_ & _ & _ & _ & _ & _ & R1 & R2 & R3). exists i, k.
  pose proof (not_hit w m i Hz Hn) as Hh.
  split; [apply R3, G|]. split; [exact Hp|]. split.
  - rewrite R2. destruct (with_id _ i) eqn:E; [|exact Fu]. exfalso. apply existsb_exists in E as (w' & E1 & E2). apply filter_In in E1 as [E1 E3].
    apply Z.eqb_eq in E2. rewrite (same_id cap s w' _ Hi E1 Hin E2) in E3. congruence.
  - rewrite R1. apply filter_In. split; [exact Hin|]. rewrite Hh. reflexivity.
Qed.

(** ** a request ends *)
Lemma end_done cap s t k r : Inv cap (done t k r (sem_back (t_job k) (freed t s))) -> s_open s = true -> s_queue s = [] -> s_buf s = [] -> Forall tame (s_waiters s) -> get s t = Some k ->
  let s' := done t k r (sem_back (t_job k) (freed t s)) in
  idle cap s' /\ get s' t = Some (at_end k r) /\ (forall w u, u <> t -> live s w u -> live s' w u).
Proof.
  intros Hi Ho Hq Hb Hw G. cbv zeta.
  assert (Gt : forall u, get (done t k r (sem_back (t_job k) (freed t s))) u = if t =? u then Some (at_end k r) else get s u).
  { intro u. unfold done.
    change (get (put t (at_end k r) (sem_back (t_job k) (freed t s))) u = if t =? u then Some (at_end k r) else get s u).
    rewrite (get_put _ _ _ k) by exact G. reflexivity. }
  split; [|split].
  - split; [exact Hi|]. repeat (split; [first [exact Ho|exact Hq|exact Hb|reflexivity]|]). exact Hw.
  - rewrite Gt, Z.eqb_refl. reflexivity.
  - intros w u Hne (i & k0 & G0 & H1 & H2 & H3). exists i, k0. rewrite Gt. destruct (Z.eqb_spec t u); [congruence|]. auto.
Qed.

Definition outcome_act (r : result zpi) : outcome := match r with Ok m => ORet (Some m) | Err e => OExn e end.
(** where the request of [sent] stands, with what the program may still listen to *)
Lemma request_done cap s sub cmd d x r : idle cap s -> can_send sub cmd d -> answer_possible x r -> can_come (ARequest sub cmd d x (Some r)) ->
  exists es, let s' := run (ECall (JCommand sub cmd d x) :: ERun (s_ntid s) :: es) s in
    idle cap s' /\ came_back s' (s_ntid s) = Some r /\ (forall w t, for_zdo w -> live s w t -> live s' w t).
Proof.
  intros Hid Hc Hp Hcome. destruct (sent cap s sub cmd d x Hid Hc) as (o & E1 & E2 & mm & T & Ha & HT & Hi & Ho & Hq & Hb & Hn & Hw & Hf & Hfo & G & Go).
  destruct Hid as (Hi0 & _ & _ & _ & _ & Tw).
  set (s2 := run [ECall (JCommand sub cmd d x); ERun (s_ntid s)] s) in *.
  assert (Er : forall es, run (ECall (JCommand sub cmd d x) :: ERun (s_ntid s) :: es) s = run es s2) by reflexivity.
  assert (Tw2 : Forall tame (s_waiters s2)).
  { rewrite Hw. apply Forall_app. split; [exact Tw|]. constructor; [|constructor]. unfold awaited in Ha.
    destruct (z_type o); try discriminate Ha; [|destruct (is_reset_command o); [|discriminate Ha]]; injection Ha as <- <-; apply plain_tame. }
  assert (L2 : forall w t, live s w t -> t <> s_ntid s /\ live s2 w t).
  { intros w t (i & k & Gk & H1 & H2 & H3). destruct (Go t k Gk) as [Hne Gk']. split; [exact Hne|]. exists i, k. split; [exact Gk'|]. split; [exact H1|].
    split; [|rewrite Hw; apply in_or_app; left; exact H3]. rewrite Hfo; [exact H2|]. pose proof (live_id cap s w t i k Hi0 Gk H1). lia. }
  clearbody s2. set (k := mk_task (JCommand sub cmd d x) (PWait (s_next s) (s_now s + T)) (Some o) None) in *. set (t := s_ntid s) in *.
  (* an answer comes in *)
  assert (Got : forall m, replies sub cmd d m -> exists e s3, s3 = run [e] s2 /\ Inv cap s3 /\ s_open s3 = true /\ s_queue s3 = [] /\ s_buf s3 = [] /\
    Forall tame (s_waiters s3) /\ s_futs s3 (s_next s) = FDone m /\ get s3 t = Some k /\ (forall w u, for_zdo w -> live s w u -> u <> t /\ live s3 w u) /\
    (z_type o = SREQ /\ z_type m = SRSP \/ z_type o = AREQ /\ z_type m = AREQ)).
  { intros m ((f & D1 & D2 & D3) & o' & F1 & F2). rewrite E1 in F1. injection F1 as <-.
    assert (Hh : hit m (mk_waiter (s_next s) mm T None) = true).
    { apply hit_answers. cbn [w_matcher]. unfold awaited in Ha. destruct F2 as [[F (R1 & R2 & R3)]|(F & R0 & R1 & R2 & R3)]; rewrite F in Ha.
      - injection Ha as <- <-. unfold answers. cbn [m_type m_sub m_cmd m_payload]. repeat split; try congruence. constructor.
      - destruct (is_reset_command o); [|discriminate Ha]. injection Ha as <- <-. unfold answers. cbn [m_type m_sub m_cmd m_payload]. repeat split; try congruence. constructor. }
    destruct (recv cap s2 f m Hi Hb Tw2 D1 D2 D3) as (A1 & A2 & A3 & A4 & A5 & A6 & A7 & A8 & A9).
    exists (ERecv (wire_of f)), (step (ERecv (wire_of f)) s2). split; [reflexivity|]. split; [exact A1|]. split; [congruence|]. split; [congruence|]. split; [exact A5|].
    split; [rewrite A7; apply Forall_forall; intros w Hin; apply filter_In in Hin as [Hin _]; rewrite Forall_forall in Tw2; auto|].
    split. { rewrite A8, Hf. replace (with_id _ _) with true; [reflexivity|]. symmetry. apply existsb_exists. exists (mk_waiter (s_next s) mm T None). split; [|apply Z.eqb_refl].
      apply filter_In. split; [rewrite Hw; apply in_or_app; right; left; reflexivity|exact Hh]. }
    split; [apply A9, G|]. split; [|destruct F2 as [[F (R1 & _)]|(F & _ & R1 & _)]; auto].
    intros w u Hz Hl. destruct (L2 w u Hl) as [Hne Hl2]. split; [exact Hne|]. eapply live_recv; try eassumption.
    intros [C1 C2]. destruct F2 as [[F (R1 & _)]|(F & _ & _ & R2 & _)]; congruence. }
  (* how it ends *)
  assert (Fin : forall es s3 s4 r', s3 = run es s2 -> s4 = done t k (outcome_act r') (sem_back (t_job k) (freed t s3)) -> Inv cap s4 -> s_open s3 = true -> s_queue s3 = [] -> s_buf s3 = [] ->
    Forall tame (s_waiters s3) -> get s3 t = Some k -> (forall w u, for_zdo w -> live s w u -> u <> t /\ live s3 w u) ->
    idle cap s4 /\ came_back s4 t = Some r' /\ (forall w u, for_zdo w -> live s w u -> live s4 w u)).
  { intros es s3 s4 r' -> -> I4 B1 B2 B3 B4 B5 B6. destruct (end_done cap _ t k (outcome_act r') I4 B1 B2 B3 B4 B5) as (C1 & C2 & C3).
    split; [exact C1|]. split; [unfold came_back; rewrite C2; destruct r'; reflexivity|]. intros w u Hz Hl. destruct (B6 w u Hz Hl) as [Hne Hl3]. apply C3; assumption. }
  assert (Cancelled : forall e es, (e = TimeoutError /\ es = [ETick T; ETimeout t] \/ e = CancelledError /\ es = [ECancel t]) ->
    let s' := run es s2 in idle cap s' /\ came_back s' t = Some (Err e) /\ (forall w u, for_zdo w -> live s w u -> live s' w u)).
  { intros e es Hes. cbv zeta.
    assert (I3 : Inv cap (run es s2)) by apply inv_run, Hi.
    assert (Hcan : forall n, raw_raise t (t_job k) e (cancel_fut (s_next s) (set_now n s2)) = 
      done t k (outcome_of_exn (t_job k) e) (sem_back (t_job k) (freed t (set_futs (cancelled (s_futs s2) (s_next s)) (set_now n s2))))).
    { intro n. rewrite cancel_fut_nf. rewrite (raw_raise_nf _ _ k) by exact G. reflexivity. }
    assert (Ee : exists n, run es s2 = done t k (outcome_act (Err e)) (sem_back (t_job k) (freed t (set_futs (cancelled (s_futs s2) (s_next s)) (set_now n s2))))).
    { destruct Hes as [[-> ->]|[-> ->]].
      - exists (s_now s2 + T). cbn [run fold_left step]. replace (0 <=? T) with true by lia. unfold wait_timeout.
        change (get (set_now (s_now s2 + T) s2) t) with (get s2 t). rewrite G. cbn [t_phase k]. fld. rewrite Hf, Hn, Z.leb_refl. change (JCommand sub cmd d x) with (t_job k). rewrite <- Hn. apply Hcan.
      - exists (s_now s2). cbn [run fold_left step]. unfold cancel. rewrite G. cbn [t_phase k]. change (JCommand sub cmd d x) with (t_job k).
        replace s2 with (set_now (s_now s2) s2) at 1 by (destruct s2; reflexivity). apply Hcan. }
    destruct Ee as [n Ee]. rewrite Ee in *.
    refine (_ (end_done cap (set_futs (cancelled (s_futs s2) (s_next s)) (set_now n s2)) t k _ I3 Ho Hq Hb Tw2 G)). cbv zeta. intros (C1 & C2 & C3).
    split; [exact C1|]. split; [unfold came_back; rewrite C2; reflexivity|]. intros w u Hz Hl. destruct (L2 w u Hl) as [Hne (i & k0 & L1 & L3 & L4 & L5)]. apply C3; [exact Hne|].
    destruct Hl as (i0 & k1 & M1 & M2 & M3 & M4). pose proof (live_id cap s w u i0 k1 Hi0 M1 M2) as Hlt. destruct (Go u k1 M1) as [_ M1']. rewrite M1' in L1. injection L1 as <-. rewrite M2 in L3. injection L3 as <-.
    exists i0, k1. split; [exact M1'|]. split; [exact M2|]. split; [|exact L5]. fld. rewrite cancelled_other by lia. exact L4. }
  destruct r as [m|e].
  - destruct (Got m Hcome) as (e & s3 & -> & A1 & A2 & A3 & A4 & A5 & A6 & A7 & A8 & A9). exists [e; ERun t]. cbv zeta. rewrite Er. change (run [e; ERun t] s2) with (step (ERun t) (run [e] s2)).
    eapply (Fin [e]); try eassumption; [reflexivity| |apply inv_step, A1].
    cbn [step]. unfold resume. rewrite A7. cbn [t_phase k]. rewrite A6. cbn [t_obj k]. unfold request_raw_resume. cbn [t_job k].
    change (JCommand sub cmd d x) with (t_job k).
    assert (Rr : raw_return t (t_job k) (Some m) (run [e] s2) = done t k (outcome_act (Ok m)) (sem_back (t_job k) (freed t (run [e] s2)))) by (rewrite (raw_return_nf _ _ _ _ A7); reflexivity).
    destruct (z_type o); try exact Rr.
    replace (unexpected_status m (expected_of (t_job k))) with (@None Z); [exact Rr|]. cbn [t_job k expected_of]. unfold unexpected_status. cbn [answer_possible] in Hp. unfold status_of in Hp.
    destruct (dict_get (z_payload m) "status") as [[z| | | |]|]; try reflexivity. specialize (Hp z eq_refl).
    replace (existsb (Z.eqb z) x) with true; [reflexivity|]. symmetry. apply existsb_exists. exists z. split; [exact Hp|apply Z.eqb_refl].
  - assert (Hcmd : (exists c, e = CommandError c) \/ e = TimeoutError \/ e = CancelledError).
    { cbn [can_come] in Hcome. destruct e; eauto. }
    destruct Hcmd as [[c ->]|He].
    + destruct Hcome as (m & Hr & Hty & Hs & Hni). destruct (Got m Hr) as (e & s3 & -> & A1 & A2 & A3 & A4 & A5 & A6 & A7 & A8 & A9). exists [e; ERun t]. cbv zeta. rewrite Er. change (run [e; ERun t] s2) with (step (ERun t) (run [e] s2)).
      eapply (Fin [e]); try eassumption; [reflexivity| |apply inv_step, A1].
      cbn [step]. unfold resume. rewrite A7. cbn [t_phase k]. rewrite A6. cbn [t_obj k]. unfold request_raw_resume. cbn [t_job k t_wid].
      destruct A9 as [[-> _]|[_ C]]; [|congruence]. cbn [expected_of]. unfold unexpected_status. unfold status_of in Hs. rewrite Hs.
      replace (existsb (Z.eqb c) x) with false.
      * change (JCommand sub cmd d x) with (t_job k). rewrite (raw_raise_nf _ _ _ _ A7). reflexivity.
      * symmetry. apply not_true_is_false. intro C. apply existsb_exists in C as (y & C1 & C2). apply Z.eqb_eq in C2. congruence.
    + destruct He as [He|He]; [exists [ETick T; ETimeout t]|exists [ECancel t]]; cbv zeta; rewrite Er; apply Cancelled; auto.
Qed.

(** ** the program listens *)
Lemma listened cap s m to : idle cap s -> for_zdo (m, to) ->
  let s' := run [ECall (JWaitFor m to); ERun (s_ntid s)] s in idle cap s' /\ live s' (m, to) (s_ntid s).
Proof.
  intros (Hi & Ho & Hl & Hq & Hb & Hw) Hz. cbv zeta.
  assert (Hi2 : Inv cap (run [ECall (JWaitFor m to); ERun (s_ntid s)] s)) by apply inv_run, Hi.
  set (s1 := Machine.spawn (JWaitFor m to) s).
  assert (G1 : get s1 (s_ntid s) = Some (mk_task (JWaitFor m to) PStart None None)) by (unfold s1; rewrite (get_spawn cap) by exact Hi; rewrite Z.eqb_refl; reflexivity).
  assert (E : run [ECall (JWaitFor m to); ERun (s_ntid s)] s = put (s_ntid s) (mk_task (JWaitFor m to) (PReg (s_next s) to) None None) (wait_for m to None s1)).
  { cbn [run fold_left step]. fold s1. unfold resume. rewrite G1. cbn [t_phase]. unfold start. cbn [t_job]. rewrite (goto_some _ _ (mk_task (JWaitFor m to) PStart None None)) by exact G1. reflexivity. }
  rewrite E in *. split.
  - split; [exact Hi2|]. repeat (split; [first [exact Ho|exact Hl|exact Hq|exact Hb]|]). 
    change (Forall tame (s_waiters s ++ [mk_waiter (s_next s) m to None])). apply Forall_app. split; [exact Hw|]. constructor; [|constructor].
    split; [reflexivity|]. apply Hz.
  - eexists _, _. split; [rewrite (get_put _ _ _ (mk_task (JWaitFor m to) PStart None None)) by exact G1; rewrite Z.eqb_refl; reflexivity|]. split; [reflexivity|].
    split; [unfold put, wait_for, s1, Machine.spawn, note; fld; unfold upd; rewrite Z.eqb_refl; reflexivity|].
    change (In (mk_waiter (s_next s) m to None) (s_waiters s ++ [mk_waiter (s_next s) m to None])). apply in_or_app. right. left. reflexivity.
Qed.

(** ** the program awaits what it listens to *)
Lemma await_done cap s w t r : idle cap s -> for_zdo w -> live s w t -> indication_possible (fst w) r -> can_come (AAwait (fst w) r) ->
  exists es, let s' := run (ERun t :: es) s in idle cap s' /\ came_back s' t = Some r.
Proof.
  intros (Hi & Ho & Hl & Hq & Hb & Hw) (_ & _ & Hto & _) (i & k & G & Hp & Hf & Hin) Hpos Hcome.
  set (k1 := mk_task (t_job k) (PAwait i (s_now s + snd w)) (t_obj k) (t_wid k)). set (s1 := put t k1 s).
  assert (E1 : step (ERun t) s = s1) by (cbn [step]; unfold resume; rewrite G, Hp; rewrite (goto_some _ _ _ _ G); reflexivity).
  assert (Hi1 : Inv cap s1) by (rewrite <- E1; apply inv_step, Hi).
  assert (G1 : get s1 t = Some k1) by (unfold s1; rewrite (get_put _ _ _ _ _ G), Z.eqb_refl; reflexivity).
  assert (Er : forall es, run (ERun t :: es) s = run es s1) by (intro es; cbn [run fold_left]; rewrite E1; reflexivity).
  assert (Fin : forall s3 r', (forall s4, s4 = done t k1 (outcome_act r') s3 -> Inv cap s4 -> s_open s3 = true -> s_lock s3 = None -> s_queue s3 = [] -> s_buf s3 = [] ->
    Forall tame (s_waiters s3) -> get s3 t = Some k1 -> idle cap s4 /\ came_back s4 t = Some r')).
  { intros s3 r' s4 -> I4 B1 B2 B3 B4 B5 B6. split.
    - split; [exact I4|]. repeat (split; [first [exact B1|exact B2|exact B3|exact B4]|]). exact B5.
    - unfold came_back. assert (E : get (done t k1 (outcome_act r') s3) t = Some (at_end k1 (outcome_act r'))).
      { unfold done. change (get (put t (at_end k1 (outcome_act r')) s3) t = Some (at_end k1 (outcome_act r'))). rewrite (get_put _ _ _ _ _ B6), Z.eqb_refl. reflexivity. }
      rewrite E. destruct r'; reflexivity. }
  destruct r as [m|e].
  - destruct Hcome as (f & D1 & D2 & D3). destruct (recv cap s1 f m Hi1 Hb Hw D1 D2 D3) as (A1 & A2 & A3 & A4 & A5 & A6 & A7 & A8 & A9).
    exists [ERecv (wire_of f); ERun t]. cbv zeta. rewrite Er. change (run [ERecv (wire_of f); ERun t] s1) with (step (ERun t) (step (ERecv (wire_of f)) s1)).
    set (s3 := step (ERecv (wire_of f)) s1) in *.
    assert (G3 : get s3 t = Some k1) by (apply A9, G1).
    assert (F3 : s_futs s3 i = FDone m).
    { rewrite A8. change (s_futs s1 i) with (s_futs s i). rewrite Hf. replace (with_id _ _) with true; [reflexivity|]. symmetry. apply existsb_exists.
      exists (mk_waiter i (fst w) (snd w) None). split; [|apply Z.eqb_refl]. apply filter_In. split; [exact Hin|]. cbn [indication_possible] in Hpos. unfold hit. cbn [w_matcher]. rewrite Hpos. reflexivity. }
    apply (Fin s3 (Ok m)); [|apply inv_step, A1|rewrite A2; exact Ho|rewrite A3; exact Hl|rewrite A4; exact Hq|exact A5| |exact G3].
    + cbn [step]. unfold resume. rewrite G3. cbn [t_phase k1]. rewrite F3. rewrite (finish_nf _ _ _ _ G3). reflexivity.
    + rewrite A7. apply Forall_forall. intros x Hx. apply filter_In in Hx as [Hx _]. rewrite Forall_forall in Hw. apply Hw, Hx.
  - assert (Hcan : forall n, finish t (OExn e) (cancel_fut i (set_now n s1)) = done t k1 (outcome_act (Err e)) (set_futs (cancelled (s_futs s1) i) (set_now n s1))).
    { intro n. rewrite cancel_fut_nf. rewrite (finish_nf _ _ k1) by exact G1. reflexivity. }
    assert (Ee : exists es n, run es s1 = done t k1 (outcome_act (Err e)) (set_futs (cancelled (s_futs s1) i) (set_now n s1))).
    { destruct Hcome as [->| ->].
      - exists [ETick (snd w); ETimeout t], (s_now s1 + snd w). cbn [run fold_left step]. replace (0 <=? snd w) with true by lia. unfold wait_timeout.
        change (get (set_now (s_now s1 + snd w) s1) t) with (get s1 t). rewrite G1. cbn [t_phase k1]. fld. change (s_futs s1 i) with (s_futs s i). rewrite Hf.
        change (s_now s1) with (s_now s). rewrite Z.leb_refl. change (s_now s) with (s_now s1). apply Hcan.
      - exists [ECancel t], (s_now s1). cbn [run fold_left step]. unfold cancel. rewrite G1. cbn [t_phase k1].
        replace s1 with (set_now (s_now s1) s1) at 1 by (destruct s1; reflexivity). apply Hcan. }
    destruct Ee as (es & n & Ee). exists es. cbv zeta. rewrite Er. assert (I4 : Inv cap (run es s1)) by apply inv_run, Hi1. rewrite Ee in *.
    apply (Fin (set_futs (cancelled (s_futs s1) i) (set_now n s1)) (Err e)); first [reflexivity|assumption].
Qed.

(** ** programs that listen to one thing at a time *)
Definition answered (sub : subsystem) (cmd : string) (d : payload) : Prop :=
  exists m, replies sub cmd d m /\ forall c, status_of m = Some (VInt c) -> In c [0].
Inductive neat {A} : option (matcher * Z) -> prog A -> Prop :=
| neat_ret o a : neat o (DRet a)
| neat_raise o e : neat o (DRaise e)
| neat_request o sub cmd d x k : (forall r, neat o (k r)) -> neat o (DRequest sub cmd d x k)
| neat_listen o m t k : for_zdo (m, t) -> neat (Some (m, t)) (k (m, t)) -> neat o (DListen m t k)
| neat_await w k : (forall r, neat None (k r)) -> neat (Some w) (DAwait w k)
| neat_spawn o sub cmd d k : answered sub cmd d -> neat o k -> neat o (DSpawn sub cmd d k).

Definition held {A} (o : option (matcher * Z)) (h : host A) : Prop :=
  match o with Some w => for_zdo w /\ exists t, object w (h_waiters h) = Some t /\ live (h_st h) w t | None => True end.
Lemma hrun_env {A} es : forall h : host A, hrun (map HEnv es) h = mk_host (run es (h_st h)) (h_place h) (h_waiters h) (h_trace h).
Proof.
  induction es as [|e es IH]; intro h; [destruct h; reflexivity|]. cbn [map hrun fold_left]. fold (hrun (map HEnv es) (hstep (HEnv e) h)). rewrite IH. reflexivity.
Qed.
Lemma sendable_head {A} sub cmd d x (k : result zpi -> prog A) : only act_sendable (DRequest sub cmd d x k) -> can_send sub cmd d.
Proof. intro H. specialize (H _ _ (runs_lost sub cmd d x k)). inversion H; assumption. Qed.
Lemma sendable_spawn {A} sub cmd d (k : prog A) : only act_sendable (DSpawn sub cmd d k) -> can_send sub cmd d /\ only act_sendable k.
Proof.
  intro H. split.
  - specialize (H _ _ (runs_spawn sub cmd d k [] Interrupted (runs_interrupted k))). inversion H; assumption.
  - intros tr f R. specialize (H _ _ (runs_spawn sub cmd d k tr f R)). inversion H; assumption.
Qed.
Lemma realise cap {A} (p : prog A) tr f : runs p tr f -> forall o h, neat o p -> only act_sendable p -> Forall can_come tr ->
  h_place h = Ready p -> idle cap (h_st h) -> held o h ->
  exists es, acts (hrun es h) = map snd (h_trace h) ++ tr /\ (f = Interrupted \/ ending (hrun es h) = f).
Proof.
  induction 1 as [p|a|e|sub cmd d x k|sub cmd d x k r tr f Hpos R IH|m t k tr f R IH|m t k r tr f Hpos R IH|sub cmd d k tr f R IH]; intros o h Hneat Hs Hc Hpl Hid Hh.
  - exists []. split; [|auto]. cbn [hrun fold_left]. unfold acts, doings. rewrite Hpl, !app_nil_r. reflexivity.
  - exists []. split; [|right; cbn [hrun fold_left]; unfold ending; rewrite Hpl; reflexivity]. cbn [hrun fold_left]. unfold acts, doings. rewrite Hpl, !app_nil_r. reflexivity.
  - exists []. split; [|right; cbn [hrun fold_left]; unfold ending; rewrite Hpl; reflexivity]. cbn [hrun fold_left]. unfold acts, doings. rewrite Hpl, !app_nil_r. reflexivity.
  - exists [HGo]. split; [|auto]. cbn [hrun fold_left hstep]. unfold go. rewrite Hpl. unfold acts, doings. cbn [h_trace h_place]. rewrite map_app. reflexivity.
  - inversion Hc as [|? ? Hc1 Hc2]; subst.
    destruct (request_done cap (h_st h) sub cmd d x r Hid (sendable_head _ _ _ _ _ Hs) Hpos Hc1) as (es & Hid' & Hcb & Hlive).
    set (s' := run (ECall (JCommand sub cmd d x) :: ERun (s_ntid (h_st h)) :: es) (h_st h)) in *.
    set (h' := mk_host s' (Ready (k r)) (h_waiters h) (h_trace h ++ [(s_ntid (h_st h), ARequest sub cmd d x (Some r))])).
    assert (E : hrun (HGo :: map HEnv (ERun (s_ntid (h_st h)) :: es) ++ [HGo]) h = h').
    { change (HGo :: map HEnv (ERun (s_ntid (h_st h)) :: es) ++ [HGo]) with ([HGo] ++ map HEnv (ERun (s_ntid (h_st h)) :: es) ++ [HGo]). rewrite !hrun_app.
      assert (E1 : hrun [HGo] h = mk_host (step (ECall (JCommand sub cmd d x)) (h_st h)) (Requesting (s_ntid (h_st h)) sub cmd d x k) (h_waiters h) (h_trace h)) by (cbn [hrun fold_left hstep]; unfold go; rewrite Hpl; reflexivity).
      rewrite E1, hrun_env. cbn [h_st h_place h_waiters h_trace]. change (run (ERun (s_ntid (h_st h)) :: es) (step (ECall (JCommand sub cmd d x)) (h_st h))) with s'.
      clearbody s'. cbn [hrun fold_left hstep]. unfold go. cbn [h_st h_place h_waiters h_trace]. rewrite Hcb. reflexivity. }
    inversion Hneat as [| |? ? ? ? ? ? Hk| | |]; subst.
    destruct (IH o h' (Hk r)) as (es2 & R1 & R2); [|exact Hc2|reflexivity|exact Hid'| |].
    + intros tr' f' R'. specialize (Hs _ _ (runs_request sub cmd d x k r tr' f' Hpos R')). inversion Hs; assumption.
    + destruct o as [w|]; [|exact I]. destruct Hh as [Hz (t & Ht & Hl)]. split; [exact Hz|]. exists t. split; [exact Ht|]. apply Hlive; assumption.
    + eexists. rewrite <- E, <- hrun_app in R1, R2. split; [rewrite R1, E|exact R2]. unfold h'. cbn [h_trace]. rewrite map_app, <- app_assoc. reflexivity.
  - inversion Hc as [|? ? Hc1 Hc2]; subst. inversion Hneat as [| | |? ? ? ? Hz Hk| |]; subst.
    destruct (listened cap (h_st h) m t Hid Hz) as [Hid' Hlive].
    assert (E : hrun [HGo] h = mk_host (run [ECall (JWaitFor m t); ERun (s_ntid (h_st h))] (h_st h)) (Ready (k (m, t))) (h_waiters h ++ [(m, t, s_ntid (h_st h))]) (h_trace h ++ [(s_ntid (h_st h), AListen m t)])).
    { cbn [hrun fold_left hstep]. unfold go. rewrite Hpl. reflexivity. }
    destruct (IH (Some (m, t)) (hrun [HGo] h) Hk) as (es2 & R1 & R2); [|exact Hc2|rewrite E; reflexivity|rewrite E; exact Hid'| |].
    + intros tr' f' R'. specialize (Hs _ _ (runs_listen m t k tr' f' R')). inversion Hs; assumption.
    + split; [exact Hz|]. exists (s_ntid (h_st h)). rewrite E. cbn [h_waiters h_st]. split; [|exact Hlive]. rewrite object_app. cbn [object]. destruct (same_waiter (m, t) (m, t)); [reflexivity|contradiction].
    + rewrite <- hrun_app in R1, R2. eexists. split; [rewrite R1|exact R2]. rewrite E. cbn [h_trace]. rewrite map_app, <- app_assoc. reflexivity.
  - inversion Hc as [|? ? Hc1 Hc2]; subst. inversion Hneat as [| | | |? ? Hk|]; subst.
    destruct Hh as [Hz (u & Hu & Hl)]. destruct (await_done cap (h_st h) (m, t) u r Hid Hz Hl Hpos Hc1) as (es & Hid' & Hcb).
    set (s' := run (ERun u :: es) (h_st h)) in *.
    set (h' := mk_host s' (Ready (k r)) (h_waiters h) (h_trace h ++ [(u, AAwait m r)])).
    assert (E : hrun (HGo :: map HEnv es ++ [HGo]) h = h').
    { change (HGo :: map HEnv es ++ [HGo]) with ([HGo] ++ map HEnv es ++ [HGo]). rewrite !hrun_app.
      assert (E1 : hrun [HGo] h = mk_host (step (ERun u) (h_st h)) (Awaiting u m k) (h_waiters h) (h_trace h)) by (cbn [hrun fold_left hstep]; unfold go; rewrite Hpl, Hu; reflexivity).
      rewrite E1, hrun_env. cbn [h_st h_place h_waiters h_trace]. change (run es (step (ERun u) (h_st h))) with s'.
      clearbody s'. cbn [hrun fold_left hstep]. unfold go. cbn [h_st h_place h_waiters h_trace]. rewrite Hcb. reflexivity. }
    destruct (IH None h' (Hk r)) as (es2 & R1 & R2); [|exact Hc2|reflexivity|exact Hid'|exact I|].
    + intros tr' f' R'. specialize (Hs _ _ (runs_await m t k r tr' f' Hpos R')). inversion Hs; assumption.
    + eexists. rewrite <- E, <- hrun_app in R1, R2. split; [rewrite R1, E|exact R2]. unfold h'. cbn [h_trace]. rewrite map_app, <- app_assoc. reflexivity.
  - inversion Hc as [|? ? Hc1 Hc2]; subst. inversion Hneat as [| | | | |? ? ? ? ? (a & Ha1 & Ha2) Hk]; subst. destruct (sendable_spawn _ _ _ _ Hs) as [Hs1 Hs2].
    destruct (request_done cap (h_st h) sub cmd d [0] (Ok a) Hid Hs1 Ha2 Ha1) as (es & Hid' & _ & Hlive).
    set (s' := run (ECall (JCommand sub cmd d [0]) :: ERun (s_ntid (h_st h)) :: es) (h_st h)) in *.
    set (h' := mk_host s' (Ready k) (h_waiters h) (h_trace h ++ [(s_ntid (h_st h), ASpawn sub cmd d)])).
    assert (E : hrun (HGo :: map HEnv (ERun (s_ntid (h_st h)) :: es)) h = h').
    { cbn [hrun fold_left]. fold (hrun (map HEnv (ERun (s_ntid (h_st h)) :: es)) (hstep HGo h)). rewrite hrun_env. cbn [hstep]. unfold go. rewrite Hpl. reflexivity. }
    destruct (IH o h' Hk Hs2 Hc2) as (es2 & R1 & R2); [reflexivity|exact Hid'| |].
    + destruct o as [w|]; [|exact I]. destruct Hh as [Hz (t & Ht & Hl)]. split; [exact Hz|]. exists t. split; [exact Ht|]. apply Hlive; assumption.
    + eexists. rewrite <- E, <- hrun_app in R1, R2. split; [rewrite R1, E|exact R2]. unfold h'. cbn [h_trace]. rewrite map_app, <- app_assoc. reflexivity.
Qed.
