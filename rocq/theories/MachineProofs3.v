(** * MachineProofs3: ZDO replies and the requests they are attributed to; the link *)
From Coq Require Import ZifyBool ZifyNat.
From Verif Require Import Base Types Uart Buffalo CmdTable Zpi Api App Machine SpecCodec SpecApi SpecMachine CodecProofs CodecProofs2 ApiProofs AppProofs
  MachineBase MachineInv MachineInv2 MachineInv3 MachineInv4 MachineInv5 DispatchProofs MachineProofs MachineProofs2.

(** ** attribution of ZDO replies *)
Lemma dispatch_skip pre o : forall l s, Forall (fun w => waiter_match (w_matcher w) o = Ok false) pre ->
  dispatch (pre ++ l) o s = dispatch l o s.
Proof.
  induction pre as [|w pre IH]; intros l s H; [reflexivity|]. inversion H as [|? ? Hw Hp]; subst. cbn [app dispatch]. rewrite Hw. apply IH, Hp.
Qed.
Lemma first_split {A} (p : A -> bool) l x r : filter p l = x :: r ->
  exists a b, l = a ++ x :: b /\ Forall (fun y => p y = false) a /\ p x = true /\ filter p b = r.
Proof.
  induction l as [|y l IH]; [discriminate|]. cbn [filter]. destruct (p y) eqn:E.
  - intro H. injection H as -> H. exists [], l. repeat split; try assumption. constructor.
  - intro H. destruct (IH H) as (a & b & -> & Ha & Hx & Hb). exists (y :: a), b. repeat split; try assumption. constructor; assumption.
Qed.
Lemma decoded_seq f o : from_unpi_frame f = Ok o -> z_seq o = None.
Proof.
  unfold from_unpi_frame. destruct (definition (f_sub f)) as [cs|]; [|discriminate]. cbn [bind].
  destruct (next_cmd _ cs) as [c|]; [|discriminate]. cbn [bind]. destruct (select_params (f_type f) c); [|discriminate]. cbn [bind].
  destruct (read_parameters _ _); [|discriminate]. cbn [bind]. intro H. injection H as <-. reflexivity.
Qed.

Section Attribution.
Variables (rsp : string) (cluster nwk v : Z) (i : list Z).
Hypothesis Hrsp : In (rsp, cluster) passed_replies.
Definition only_requests (ws : list waiter) : Prop :=
  forall w, In w ws -> m_type (w_matcher w) = AREQ -> m_sub (w_matcher w) = ZDO -> m_cmd (w_matcher w) = rsp ->
    (exists a, m_payload (w_matcher w) = [("srcaddr", VInt a)]) /\ exists q, w_seq w = Some q /\ 1 <= q <= 255.
Definition ready (s : st) : Prop :=
  Core s /\ s_app s = true /\ s_version s = Some v /\ first_with nwk i (s_devs s) /\ only_requests (s_waiters s).

Lemma not_asking r w : replies rsp nwk r -> asks_for rsp nwk w = false ->
  (m_type (w_matcher w) = AREQ -> m_sub (w_matcher w) = ZDO -> m_cmd (w_matcher w) = rsp ->
    exists a, m_payload (w_matcher w) = [("srcaddr", VInt a)]) -> waiter_match (w_matcher w) r = Ok false.
Proof.
  intros (R1 & R2 & R3 & R4) Ha Hw. unfold asks_for in Ha. unfold waiter_match. rewrite R1, R2, R3.
  destruct (ct_eqb_spec (m_type (w_matcher w)) AREQ) as [E1|N1]; cbn [negb orb]; [|reflexivity].
  destruct (sub_eqb_spec (m_sub (w_matcher w)) ZDO) as [E2|N2]; cbn [negb orb]; [|reflexivity].
  destruct (String.eqb_spec (m_cmd (w_matcher w)) rsp) as [E3|N3]; cbn [negb orb]; [|reflexivity].
  destruct (Hw E1 E2 E3) as [a Ea]. rewrite Ea in *. cbn [andb] in Ha. rewrite String.eqb_refl in Ha. cbn [andb] in Ha.
  cbn [match_payload]. unfold dict_getE. rewrite R4. cbn [bind value_eqb]. rewrite Ha. reflexivity.
Qed.
Lemma asking_match r w : replies rsp nwk r -> asks_for rsp nwk w = true -> waiter_match (w_matcher w) r = Ok true.
Proof.
  intros (R1 & R2 & R3 & R4) Ha. unfold asks_for in Ha. rewrite !andb_true_iff in Ha. destruct Ha as [[[A1 A2] A3] A4].
  unfold waiter_match. rewrite R1, R2, R3, A1, A2, A3. cbn [negb orb].
  destruct (m_payload (w_matcher w)) as [|[n [a| | | |]] []]; try discriminate. apply andb_true_iff in A4 as [A4 A5].
  apply String.eqb_eq in A4 as ->. cbn [match_payload]. unfold dict_getE. rewrite R4. cbn [bind value_eqb]. rewrite A5. reflexivity.
Qed.
Lemma asking_zdo w : asks_for rsp nwk w = true -> m_type (w_matcher w) = AREQ /\ m_sub (w_matcher w) = ZDO /\ m_cmd (w_matcher w) = rsp.
Proof.
  intro Ha. unfold asks_for in Ha. rewrite !andb_true_iff in Ha. destruct Ha as [[[A1 A2] A3] A4].
  apply ct_eqb_eq in A1. apply sub_eqb_eq in A2. apply String.eqb_eq in A3. auto.
Qed.

Lemma messages_app a b : messages (a ++ b) = messages a ++ messages b.
Proof. unfold messages. apply flat_map_app. Qed.
Lemma reply_step s f r w rest : ready s -> bytes_ok (f_data f) -> from_unpi_frame f = Ok r -> replies rsp nwk r ->
  filter (asks_for rsp nwk) (s_waiters s) = w :: rest ->
  let s' := fst (data_received s f) in
  ready s' /\ snd (data_received s f) = Ok tt /\ filter (asks_for rsp nwk) (s_waiters s') = rest /\
  (forall j, s_futs s' j = if j =? w_id w then match s_futs s j with FPending => FDone r | x => x end else s_futs s j) /\
  exists q n body, w_seq w = Some q /\ 
    Forall2 masked (firstn n (f_data f)) body /\ (rsp <> "mgmtLqiRsp" -> body = firstn n (f_data f)) /\
    (forall m, (m < n)%nat -> read_parameters (firstn m (f_data f)) (z_params r) = Err OverflowError) /\
    messages (s_log s') = messages (s_log s) ++ [q :: skipn 2 body].
Proof.
  intros (Hc & Happ & Hv & Hdev & Honly) Hok Hf Hr Hfil. cbv zeta.
  destruct (first_split _ _ _ _ Hfil) as (pre & post & Ews & Hpre & Hw & Hpost).
  destruct (asking_zdo w Hw) as (T1 & T2 & T3).
  assert (Hin : In w (s_waiters s)) by (rewrite Ews; apply in_or_app; right; left; reflexivity).
  destruct (proj2 (Honly w Hin T1 T2 T3)) as (q & Hq & Hq1).
  assert (Hskip : Forall (fun w => waiter_match (w_matcher w) r = Ok false) pre).
  { apply Forall_forall. intros x Hx. rewrite Forall_forall in Hpre. apply not_asking; [exact Hr|apply Hpre, Hx|].
    intros X1 X2 X3. apply Honly; try assumption. rewrite Ews. apply in_or_app. left. exact Hx. }
  pose proof Hr as (R1 & R2 & R3 & R4).
  destruct (reply_delivered v (s_devs s) f r cluster q nwk i) as (n & body & Hn & Hmin & Hmask & Hex & Hh); try assumption.
  { rewrite R3. exact Hrsp. } { unfold byte_ok. lia. }
  assert (Hd : data_received s f =
    let s1 := set_devs (s_devs s) (completed (w_id w) r (note (OReceived r) s)) in
    (fold_left (fun s e => do_effect e s) (reply_led (z_cmd r) v ++ [EMsg i 0 0 260 cluster 0 0 (q :: skipn 2 body)]) s1, Ok tt)).
  { unfold data_received. rewrite Hf. change (s_waiters (note (OReceived r) s)) with (s_waiters s). rewrite Ews, dispatch_skip by exact Hskip.
    cbn [dispatch]. rewrite (asking_match r w Hr Hw), complete_nf, Hq. destruct (Z.eqb_spec q 0); [lia|].
    unfold app_handle. change (s_app (completed (w_id w) r (note (OReceived r) s))) with (s_app s).
    change (s_version (completed (w_id w) r (note (OReceived r) s))) with (s_version s).
    change (s_devs (completed (w_id w) r (note (OReceived r) s))) with (s_devs s). rewrite Happ, Hv, Hh. reflexivity. }
  rewrite Hd. cbv zeta. cbn [fst snd].
  set (effs := reply_led (z_cmd r) v ++ [EMsg i 0 0 260 cluster 0 0 (q :: skipn 2 body)]) in *.
  set (s1 := set_devs (s_devs s) (completed (w_id w) r (note (OReceived r) s))) in *.
  destruct (effects_keep effs s1) as (A1 & A2 & A3 & A4 & A5 & A6 & A7 & A8 & A9 & A10 & A11 & A12 & l & El & Fl & Ml & _).
  assert (Hcore : Core (fold_left (fun s e => do_effect e s) effs s1)).
  { eapply core_prims; [|exact Hc]. replace (fold_left (fun s e => do_effect e s) effs s1) with (fst (data_received s f)) by (rewrite Hd; reflexivity).
    apply data_received_prims, Hc. }
  assert (W1 : s_waiters s1 = pre ++ post).
  { unfold s1, completed, unregister, note. fld. rewrite Ews.
    destruct Hc as (_ & _ & _ & (_ & Hinc & _)). rewrite Ews in Hinc. apply increasing_nodup in Hinc.
    rewrite map_app in Hinc. cbn [map] in Hinc. pose proof (NoDup_remove_2 _ _ _ Hinc) as Hx.
    assert (Hk : forall l0, ~ In (w_id w) (map w_id l0) -> filter (fun w0 => negb (w_id w0 =? w_id w)) l0 = l0).
    { clear. induction l0 as [|y l0 IH]; [reflexivity|]. cbn [map In filter]. intro H. destruct (Z.eqb_spec (w_id y) (w_id w)); [tauto|].
      cbn [negb]. rewrite IH by tauto. reflexivity. }
    rewrite filter_app. cbn [filter]. rewrite Z.eqb_refl. cbn [negb]. rewrite !Hk; [reflexivity| |];
      intro C; apply Hx, in_or_app; [right|left]; exact C. }
  split.
  { split; [exact Hcore|]. rewrite A8, A7, A6, A1, W1. split; [exact Happ|]. split; [exact Hv|]. split; [exact Hdev|].
    intros x Hx. apply Honly. rewrite Ews. apply in_app_or in Hx as [Hx|Hx]; apply in_or_app; [left; exact Hx|right; right; exact Hx]. }
  split; [reflexivity|]. split.
  { rewrite A1, W1, filter_app, Hpost. replace (filter (asks_for rsp nwk) pre) with (@nil waiter); [reflexivity|].
    symmetry. clear - Hpre. induction Hpre as [|x l Hx Hl IH]; [reflexivity|]. cbn [filter]. rewrite Hx. exact IH. }
  split. { intro j. rewrite A2. unfold s1, completed, resulted, unregister, note. fld. unfold upd. destruct (Z.eqb_spec j (w_id w)) as [->|]; reflexivity. }
  exists q, n, body. split; [exact Hq|]. split; [exact Hmask|]. split; [intro Hne; apply Hex; congruence|]. split; [exact Hmin|].
  rewrite El, messages_app, Ml. unfold s1, completed, unregister, note. fld. rewrite !messages_app. cbn [messages flat_map app].
  rewrite !app_nil_r. f_equal. unfold effs. rewrite flat_map_app. cbn [flat_map app].
  unfold reply_led. destruct (_ && _); reflexivity.
Qed.

Lemma replies_in_order fs : forall rs ws rest s, ready s ->
  Forall2 (fun f r => bytes_ok (f_data f) /\ from_unpi_frame f = Ok r /\ replies rsp nwk r) fs rs ->
  filter (asks_for rsp nwk) (s_waiters s) = ws ++ rest -> length ws = length fs ->
  let s' := frames_received fs s in
  filter (asks_for rsp nwk) (s_waiters s') = rest /\
  (forall j, ~ In j (map w_id ws) -> s_futs s' j = s_futs s j) /\
  Forall2 (fun w r => s_futs s (w_id w) = FPending -> s_futs s' (w_id w) = FDone r) ws rs /\
  exists msgs, messages (s_log s') = messages (s_log s) ++ msgs /\
    Forall2 (fun (fw : frame * waiter) (m : list Z) => exists q n body, w_seq (snd fw) = Some q /\ m = q :: skipn 2 body /\
      Forall2 masked (firstn n (f_data (fst fw))) body /\ (rsp <> "mgmtLqiRsp" -> body = firstn n (f_data (fst fw)))) (combine fs ws) msgs.
Proof.
  induction fs as [|f fs IH]; intros rs ws rest s Hrd HF Hfil Hlen; cbv zeta.
  - inversion HF; subst. destruct ws; [|discriminate]. cbn [app] in Hfil. split; [exact Hfil|]. split; [reflexivity|]. split; [constructor|].
    exists []. rewrite app_nil_r. split; [reflexivity|constructor].
  - inversion HF as [|? r ? rs' (Hok & Hf & Hr) HF']; subst. destruct ws as [|w ws]; [discriminate|]. cbn [app] in Hfil.
    destruct (reply_step s f r w (ws ++ rest) Hrd Hok Hf Hr Hfil) as (Hrd' & _ & Hfil' & Hfut & q & n & body & Hq & Hmask & Hex & _ & Hm).
    cbn [frames_received fold_left]. change (fold_left (fun s f => fst (data_received s f)) fs (fst (data_received s f)))
      with (frames_received fs (fst (data_received s f))).
    destruct (IH rs' ws rest _ Hrd' HF' Hfil' ltac:(cbn [length] in Hlen; lia)) as (I1 & I2 & I3 & msgs & I4 & I5).
    assert (Hnd : NoDup (map w_id (w :: ws))).
    { destruct Hrd as ((_ & _ & _ & (_ & Hinc & _)) & _). assert (Hi : increasing (map w_id (filter (asks_for rsp nwk) (s_waiters s)))) by apply increasing_filter, Hinc.
      rewrite Hfil in Hi. apply increasing_nodup in Hi. cbn [map] in Hi. rewrite map_app in Hi.
      change (w_id w :: map w_id ws ++ map w_id rest) with (map w_id (w :: ws) ++ map w_id rest) in Hi. eapply nodup_front, Hi. }
    cbn [map] in Hnd. apply NoDup_cons_iff in Hnd as [Hnw Hnd'].
    split; [exact I1|]. split.
    { intros j Hj. cbn [map In] in Hj. rewrite I2 by tauto. rewrite Hfut. destruct (Z.eqb_spec j (w_id w)); [|reflexivity]. exfalso. apply Hj. auto. }
    split.
    { constructor.
      - intro Hp. rewrite I2 by exact Hnw. rewrite Hfut, Z.eqb_refl, Hp. reflexivity.
      - assert (Hws : Forall (fun x => w_id x <> w_id w) ws).
        { apply Forall_forall. intros x Hx C. apply Hnw. rewrite <- C. apply in_map, Hx. }
        clear - I3 Hws Hfut. induction I3 as [|x y l l' Hxy Hl IHl]; [constructor|]. inversion Hws as [|? ? Hx Hls]; subst. constructor; [|apply IHl, Hls].
        intro Hp. apply Hxy. rewrite Hfut. destruct (Z.eqb_spec (w_id x) (w_id w)); [contradiction|exact Hp]. }
    exists ((q :: skipn 2 body) :: msgs). split.
    + rewrite I4, Hm, <- app_assoc. reflexivity.
    + cbn [combine]. constructor; [|exact I5]. cbn [fst snd]. exists q, n, body. auto.
Qed.
End Attribution.

(** ** replies nobody asked for *)
Lemma messages_entries es : existsb is_message es = false ->
  flat_map (fun e => match e with EMsg _ _ _ _ _ _ _ d => [d] | _ => [] end) es = [].
Proof.
  induction es as [|e es IH]; [reflexivity|]. cbn [existsb flat_map]. destruct e; cbn [is_message orb]; try discriminate; exact IH.
Qed.
Lemma messages_completed ws o : messages (map (fun w => OCompleted (w_id w) o) ws) = [].
Proof. induction ws; [reflexivity|assumption]. Qed.
Lemma unsolicited_dropped s f o : from_unpi_frame f = Ok o -> z_sub o = ZDO -> z_cmd o <> "endDeviceAnnceInd" ->
  (forall w, In w (s_waiters s) -> answers (w_matcher w) o -> ~ carries w) ->
  messages (s_log (fst (data_received s f))) = messages (s_log s) /\ s_devs (fst (data_received s f)) = s_devs s.
Proof.
  intros Hf Hs Hn Hw. unfold data_received. rewrite Hf.
  destruct (dispatch_spec o (s_waiters (note (OReceived o) s)) (note (OReceived o) s)) as (pre & post & o' & r & E & Ed & Hst).
  change (s_waiters (note (OReceived o) s)) with (s_waiters s) in *. rewrite Ed.
  set (s1 := completes (filter (hit o) pre) o (note (OReceived o) s)).
  assert (M1 : messages (s_log s1) = messages (s_log s) /\ s_devs s1 = s_devs s).
  { unfold s1. rewrite completes_nf. split; [|reflexivity]. unfold note. fld. rewrite !messages_app, messages_completed, !app_nil_r. reflexivity. }
  assert (Ho : o' = o).
  { destruct Hst as [p Hp|p x q po Hp H1 H2 H3|p x e po Hp H1]; try reflexivity. exfalso.
    apply (Hw x); [rewrite E; apply in_or_app; left; apply in_or_app; right; left; reflexivity|apply hit_answers, H1|exists q; auto]. }
  subst o'. destruct r as [[]|e]; [|exact M1]. unfold app_handle. destruct (s_app s1); [|exact M1].
  destruct (unsolicited (s_version s1) (s_devs s1) o Hs (decoded_seq f o Hf) Hn) as [U1 U2].
  destruct (handle_znp (s_version s1) (s_devs s1) o) as [[d es] r]. cbn [fst snd] in *. subst d.
  destruct (effects_keep es (set_devs (s_devs s1) s1)) as (_ & _ & _ & _ & _ & A6 & _ & _ & _ & _ & _ & _ & l & El & _ & Ml & _).
  rewrite El, A6. split; [|exact (proj2 M1)]. rewrite messages_app, Ml, (messages_entries _ U1), app_nil_r. exact (proj1 M1).
Qed.

(** ** the link is let go of when the request ends *)
Definition Freed (s : st) : Prop := forall a t b, s_log s = a ++ OFreed t :: b ->
  (exists r b', b = OEnded t r :: b') \/ exists k, get s t = Some k /\ settles (t_job k) = true.
Lemma app_cons_cases {A} (l x : list A) a y b : l ++ x = a ++ y :: b ->
  (exists b', l = a ++ y :: b' /\ b = b' ++ x) \/ (exists a', a = l ++ a' /\ x = a' ++ y :: b).
Proof.
  revert a. induction l as [|z l IH]; intros a E.
  - right. exists a. auto.
  - destruct a as [|z' a]; cbn [app] in E; injection E as -> E.
    + left. exists l. auto.
    + destruct (IH a E) as [(b' & -> & ->)|(a' & -> & ->)]; [left; exists b'; auto|right; exists a'; auto].
Qed.
Lemma freed_grow s s' x : Freed s -> same_job s s' -> s_log s' = s_log s ++ x ->
  (forall a t b, x = a ++ OFreed t :: b -> (exists r b', b = OEnded t r :: b') \/ exists k, get s' t = Some k /\ settles (t_job k) = true) -> Freed s'.
Proof.
  intros F J E Hx a t b El. rewrite E in El. destruct (app_cons_cases _ _ _ _ _ El) as [(b' & E1 & ->)|(a' & -> & E2)].
  - destruct (F a t b' E1) as [(r & b2 & ->)|(k & G & Hs)].
    + left. exists r, (b2 ++ x). reflexivity.
    + right. destruct (J t k G) as (k' & G' & Hj). exists k'. rewrite Hj. auto.
  - eapply Hx. exact E2.
Qed.
Lemma freed_prim s s' : prim s s' -> Freed s -> Freed s'.
Proof.
  intros H F. pose proof (job_prim s s' H) as J. revert J.
  destruct H; prim_nf; intro J;
    (eapply freed_grow; [exact F|exact J|opn; first [symmetry; apply app_nil_r|repeat rewrite <- app_assoc; cbn [app]; reflexivity]|]);
    intros a' t' b' Ex;
    try (exfalso; repeat (destruct a' as [|? a']; cbn [app] in Ex; [discriminate Ex|injection Ex as _ Ex]); destruct a'; discriminate Ex).
  all: repeat (destruct a' as [|? a']; cbn [app] in Ex; [try discriminate Ex; injection Ex as <- <-; first
         [left; do 2 eexists; reflexivity
         |right; match goal with H : get _ ?t = Some ?k |- _ => destruct (J _ _ H) as (k' & G' & Hj'); exists k'; split; [exact G'|rewrite Hj'; assumption] end]
       |try discriminate Ex; injection Ex as _ Ex]); try (destruct a'; discriminate Ex).
Qed.
Lemma freed_run es s : Core s -> Freed s -> Freed (run es s).
Proof. intros Hc. apply (prims_inv Freed freed_prim). apply run_prims, Hc. Qed.
Lemma reachable_freed cap s : reachable cap s -> Freed s.
Proof.
  intros (v & d & a & es & ->). apply freed_run; [apply core_init|]. intros x t y C. destruct x; discriminate C.
Qed.
