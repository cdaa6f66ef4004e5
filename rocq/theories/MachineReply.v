(** * MachineReply: which request a ZDO reply is attributed to *)
From Coq Require Import ZifyBool ZifyNat.
From Verif Require Import Base Types Uart Buffalo CmdTable Zpi Api App Machine SpecCodec SpecApi SpecMachine SpecReply CodecProofs CodecProofs2 ApiProofs AppProofs
  MachineBase MachineInv MachineInv2 MachineInv3 MachineInv4 MachineInv5 DispatchProofs MachineProofs MachineProofs2 MachineProofs3.

Lemma served_none ws : Forall (fun w => usable w = false) ws -> served ws = ws /\ left_waiting ws = [] /\ number ws = None.
Proof.
  induction 1 as [|w ws Hw Hs IH]; [auto|]. cbn [served left_waiting number]. destruct IH as (-> & -> & ->). unfold usable in Hw.
  destruct (w_seq w) as [[| |]|]; try discriminate Hw; auto.
Qed.
Lemma served_some a w q b : Forall (fun w => usable w = false) a -> w_seq w = Some q -> q <> 0 ->
  served (a ++ w :: b) = a ++ [w] /\ left_waiting (a ++ w :: b) = b /\ number (a ++ w :: b) = Some q.
Proof.
  intros H Hq Hn. induction H as [|x a Hx Ha IH]; cbn [app served left_waiting number].
  - rewrite Hq. destruct q; [lia| |]; auto.
  - destruct IH as (-> & -> & ->). unfold usable in Hx. destruct (w_seq x) as [[| |]|]; try discriminate Hx; auto.
Qed.
Lemma filter_other {A} (p q : A -> bool) l : (forall x, In x l -> p x = q x) -> filter p l = filter q l.
Proof. apply filter_ext_in. Qed.
Lemma filter_neg {A} (p : A -> bool) l : filter p (filter (fun x => negb (p x)) l) = [].
Proof. induction l as [|x l IH]; [reflexivity|]. cbn [filter]. destruct (p x) eqn:E; cbn [negb]; [exact IH|]. cbn [filter]. rewrite E. exact IH. Qed.
Lemma filter_neg2 {A} (p : A -> bool) l : filter (fun x => negb (p x)) (filter (fun x => negb (p x)) l) = filter (fun x => negb (p x)) l.
Proof. induction l as [|x l IH]; [reflexivity|]. cbn [filter]. destruct (p x) eqn:E; cbn [negb]; [exact IH|]. cbn [filter]. rewrite E. cbn [negb]. f_equal. exact IH. Qed.

Section Reply.
Variables (rsp : string) (cluster nwk v : Z) (i : list Z).
Hypothesis Hrsp : In (rsp, cluster) passed_replies.
Definition set_up (s : st) : Prop := Core s /\ s_app s = true /\ s_version s = Some v /\ first_with nwk i (s_devs s) /\ node_named rsp s.
Lemma attributed s f r : set_up s -> bytes_ok (f_data f) -> from_unpi_frame f = Ok r -> replies rsp nwk r ->
  let s' := fst (data_received s f) in let ws := filter (asks_for rsp nwk) (s_waiters s) in
  set_up s' /\ filter (asks_for rsp nwk) (s_waiters s') = left_waiting ws /\
  filter (fun w => negb (asks_for rsp nwk w)) (s_waiters s') = filter (fun w => negb (asks_for rsp nwk w)) (s_waiters s) /\
  (forall w, In w (served ws) -> s_futs s (w_id w) = FPending -> s_futs s' (w_id w) = FDone r) /\
  (forall j, ~ In j (map w_id (served ws)) -> s_futs s' j = s_futs s j) /\
  match number ws with
  | None => messages (s_log s') = messages (s_log s)
  | Some q => exists n body, Forall2 masked (firstn n (f_data f)) body /\ (rsp <> "mgmtLqiRsp" -> body = firstn n (f_data f)) /\
      (forall m, (m < n)%nat -> read_parameters (firstn m (f_data f)) (z_params r) = Err OverflowError) /\
      messages (s_log s') = messages (s_log s) ++ [q :: skipn 2 body]
  end.
Proof.
  intros (Hc & Happ & Hv & Hdev & Hn) Hok Hf Hr. cbv zeta. pose proof Hc as (_ & _ & _ & Hid). pose proof Hr as (R1 & R2 & R3 & R4).
  set (ask := asks_for rsp nwk) in *.
  assert (Hhit : forall w, In w (s_waiters s) -> waiter_match (w_matcher w) r = Ok (ask w)).
  { intros w Hw. destruct (ask w) eqn:E; [apply (asking_match rsp nwk); assumption|]. apply (not_asking rsp nwk); [assumption|assumption|].
    intros A1 A2 A3. apply (Hn w Hw A1 A2 A3). }
  assert (Hh2 : forall w, In w (s_waiters s) -> hit r w = ask w) by (intros w Hw; unfold hit; rewrite (Hhit w Hw); reflexivity).
  assert (Hasked : forall a b, s_waiters s = a ++ b -> filter ask a = filter (hit r) a).
  { intros a b E. apply filter_ext_in. intros w Hw. symmetry. apply Hh2. rewrite E. apply in_or_app. left. exact Hw. }
  assert (Hpas : forall a b, s_waiters s = a ++ b -> Forall (passed r) a -> Forall (fun w => usable w = false) (filter ask a)).
  { intros a b E Hp. rewrite (Hasked a b E). apply Forall_forall. intros w Hw. apply filter_In in Hw as [Hw Hh]. rewrite Forall_forall in Hp. apply (Hp w Hw), Hh. }
  assert (Hnoraise : forall w e, In w (s_waiters s) -> waiter_match (w_matcher w) r <> Err e) by (intros w e Hw; rewrite (Hhit w Hw); discriminate).
  assert (Hsplit : forall pre post o' x, s_waiters s = pre ++ post -> stopped r pre post o' x ->
    x = Ok tt /\ served (filter ask (s_waiters s)) = filter (hit r) pre /\ left_waiting (filter ask (s_waiters s)) = filter ask post /\
    match number (filter ask (s_waiters s)) with None => o' = r | Some q => o' = with_seq r (Some q) /\ 0 <= q <= 255 end).
  { intros pre post o' x E Hst. destruct Hst as [p Hp|p w q po Hp H1 H2 H3|p w e po Hp H1].
    - rewrite app_nil_r in E. subst p. destruct (served_none _ (Hpas _ [] (eq_sym (app_nil_r _)) Hp)) as (-> & -> & ->).
      split; [reflexivity|]. split; [apply (Hasked _ []); symmetry; apply app_nil_r|]. split; reflexivity.
    - assert (Hin : In w (s_waiters s)) by (rewrite E; apply in_or_app; left; apply in_or_app; right; left; reflexivity).
      assert (Ha : ask w = true) by (rewrite <- (Hh2 w Hin); exact H1).
      pose proof E as E'. rewrite <- app_assoc in E'. rewrite E', filter_app. cbn [app filter]. rewrite Ha.
      destruct (served_some (filter ask p) w q (filter ask po) (Hpas _ _ E' Hp) H2 H3) as (-> & -> & ->).
      split; [reflexivity|]. split; [rewrite filter_app; cbn [filter]; rewrite H1; f_equal; apply (Hasked _ _ E')|]. split; [reflexivity|]. split; [reflexivity|].
      destruct (asking_zdo rsp nwk w Ha) as (T1 & T2 & T3). apply (Hn w Hin T1 T2 T3), H2.
    - exfalso. apply (Hnoraise w e); [rewrite E; apply in_or_app; right; left; reflexivity|exact H1]. }
  destruct (data_received_spec s f r Hf Hid) as (pre & post & o' & x & l & E & Hst & W & Fut & _). cbv zeta in W, Fut.
  destruct (Hsplit pre post o' x E Hst) as (_ & Hsv & Hlw & _).
  assert (Hm : match number (filter ask (s_waiters s)) with
    | None => messages (s_log (fst (data_received s f))) = messages (s_log s) /\ s_devs (fst (data_received s f)) = s_devs s
    | Some q => (exists n body, Forall2 masked (firstn n (f_data f)) body /\ (rsp <> "mgmtLqiRsp" -> body = firstn n (f_data f)) /\
      (forall m, (m < n)%nat -> read_parameters (firstn m (f_data f)) (z_params r) = Err OverflowError) /\
      messages (s_log (fst (data_received s f))) = messages (s_log s) ++ [q :: skipn 2 body]) /\ s_devs (fst (data_received s f)) = s_devs s
    end).
  { clear pre post o' x l E Hst W Fut Hsv Hlw. unfold data_received. rewrite Hf.
    destruct (dispatch_spec r (s_waiters (note (OReceived r) s)) (note (OReceived r) s)) as (pre & post & o' & x & E & Ed & Hst).
    change (s_waiters (note (OReceived r) s)) with (s_waiters s) in *. rewrite Ed. destruct (Hsplit pre post o' x E Hst) as (-> & _ & _ & Hnum).
    set (s1 := completes (filter (hit r) pre) r (note (OReceived r) s)).
    assert (M1 : messages (s_log s1) = messages (s_log s) /\ s_devs s1 = s_devs s /\ s_app s1 = s_app s /\ s_version s1 = s_version s).
    { unfold s1. rewrite completes_nf. split; [|repeat split]. unfold note. fld. rewrite !messages_app, messages_completed, !app_nil_r. reflexivity. }
    destruct M1 as (M1 & M2 & M3 & M4). unfold app_handle. rewrite M3, Happ, M4, Hv, M2.
    destruct (number (filter ask (s_waiters s))) as [q|].
    - destruct Hnum as [-> Hq]. destruct (reply_delivered v (s_devs s) f r cluster q nwk i) as (n & body & Hnn & Hmin & Hmask & Hex & Hh); try assumption.
      { rewrite R3. exact Hrsp. } { unfold byte_ok. lia. }
      rewrite Hh. cbn [fst].
      destruct (effects_keep (reply_led (z_cmd r) v ++ [EMsg i 0 0 260 cluster 0 0 (q :: skipn 2 body)]) (set_devs (s_devs s) s1)) as (_ & _ & _ & _ & _ & A6 & _ & _ & _ & _ & _ & _ & l & El & _ & Ml & _).
      split; [|rewrite A6; reflexivity]. exists n, body. split; [exact Hmask|]. split; [intro Hne; apply Hex; congruence|]. split; [exact Hmin|].
      rewrite El, messages_app, Ml. change (s_log (set_devs (s_devs s) s1)) with (s_log s1). rewrite M1. f_equal. rewrite flat_map_app. cbn [flat_map app].
      unfold reply_led. destruct (_ && _); reflexivity.
    - subst o'. assert (Hna : z_cmd r <> "endDeviceAnnceInd"%string).
      { rewrite R3. intro C. pose proof Hrsp as Hx. rewrite C in Hx. cbn [passed_replies In] in Hx. clear - Hx. repeat (destruct Hx as [Hx|Hx]; [discriminate Hx|]). exact Hx. }
      destruct (unsolicited (Some v) (s_devs s) r R2 (decoded_seq f r Hf) Hna) as [U1 U2].
      destruct (handle_znp (Some v) (s_devs s) r) as [[d es] rr]. cbn [fst snd] in *. subst d.
      destruct (effects_keep es (set_devs (s_devs s) s1)) as (_ & _ & _ & _ & _ & A6 & _ & _ & _ & _ & _ & _ & l & El & _ & Ml & _).
      rewrite El, A6. split; [|reflexivity]. rewrite messages_app, Ml, (messages_entries _ U1), app_nil_r. exact M1. }
  assert (K : s_app (fst (data_received s f)) = s_app s /\ s_version (fst (data_received s f)) = s_version s).
  { clear. unfold data_received. destruct (from_unpi_frame f) as [o|e]; [|split; reflexivity].
    destruct (dispatch_spec o (s_waiters (note (OReceived o) s)) (note (OReceived o) s)) as (pre & post & o' & x & E & Ed & Hst). rewrite Ed.
    assert (A : s_app (completes (filter (hit o) pre) o (note (OReceived o) s)) = s_app s /\ s_version (completes (filter (hit o) pre) o (note (OReceived o) s)) = s_version s)
      by (rewrite completes_nf; split; reflexivity).
    destruct x; [|exact A]. unfold app_handle. destruct A as [A1 A2]. rewrite A1, A2. destruct (s_app s) eqn:Ea; [|cbn [fst]; rewrite A1, A2; split; reflexivity].
    destruct (handle_znp _ _ o') as [[d es] rr]. cbn [fst].
    destruct (effects_keep es (set_devs d (completes (filter (hit o) pre) o (note (OReceived o) s)))) as (_ & _ & _ & _ & _ & _ & B1 & B2 & _).
    rewrite B1, B2. exact (conj A1 A2). }
  assert (Hd : s_devs (fst (data_received s f)) = s_devs s) by (destruct (number (filter ask (s_waiters s))); apply Hm).
  set (s' := fst (data_received s f)) in *.
  assert (Hpre : forall w, In w pre -> negb (hit r w) = negb (ask w)) by (intros w Hw; rewrite Hh2; [reflexivity|rewrite E; apply in_or_app; left; exact Hw]).
  assert (Wa : s_waiters s' = filter (fun w => negb (ask w)) pre ++ post) by (rewrite W; f_equal; apply filter_ext_in; exact Hpre).
  split.
  { split; [eapply core_prims; [apply data_received_prims, Hc|exact Hc]|]. destruct K as [-> ->]. rewrite Hd. repeat (split; [assumption|]).
    intros w Hw. apply Hn. rewrite Wa in Hw. rewrite E. apply in_app_or in Hw as [Hw|Hw]; apply in_or_app; [left; apply filter_In in Hw; apply Hw|right; exact Hw]. }
  split; [rewrite Wa, filter_app, filter_neg, Hlw; reflexivity|].
  split; [rewrite Wa, E, !filter_app, filter_neg2; reflexivity|].
  split.
  { intros w Hw Hp. rewrite Fut, Hp. rewrite Hsv in Hw. assert (with_id (filter (hit r) pre) (w_id w) = true) as ->; [|reflexivity].
    apply existsb_exists. exists w. split; [exact Hw|apply Z.eqb_refl]. }
  split.
  { intros j Hj. rewrite Fut. destruct (with_id (filter (hit r) pre) j) eqn:Ej; [|reflexivity]. exfalso. apply Hj. rewrite Hsv.
    apply existsb_exists in Ej as (w & Hw & Ew). apply Z.eqb_eq in Ew. subst j. apply in_map, Hw. }
  destruct (number (filter ask (s_waiters s))); apply Hm.
Qed.
Lemma in_a_row fs : forall rs s, set_up s -> Forall2 (fun f r => bytes_ok (f_data f) /\ from_unpi_frame f = Ok r /\ replies rsp nwk r) fs rs ->
  exists msgs, messages (s_log (frames_received fs s)) = messages (s_log s) ++ msgs /\
    map (hd 0) msgs = numbers (length fs) (filter (asks_for rsp nwk) (s_waiters s)).
Proof.
  induction fs as [|f fs IH]; intros rs s H HF.
  - exists []. rewrite app_nil_r. split; reflexivity.
  - inversion HF as [|? r ? rs' (Hok & Hf & Hr) HF']; subst. destruct (attributed s f r H Hok Hf Hr) as (H1 & Hl & _ & _ & _ & Hm). cbv zeta in *.
    cbn [frames_received fold_left]. change (fold_left (fun s f => fst (data_received s f)) fs (fst (data_received s f))) with (frames_received fs (fst (data_received s f))).
    destruct (IH rs' _ H1 HF') as (msgs & E & En). rewrite E. rewrite Hl in En. cbn [length numbers].
    destruct (number (filter (asks_for rsp nwk) (s_waiters s))) as [q|].
    + destruct Hm as (n & body & _ & _ & _ & ->). exists ((q :: skipn 2 body) :: msgs). rewrite <- app_assoc. split; [reflexivity|]. cbn [map hd app]. f_equal. exact En.
    + rewrite Hm. exists msgs. split; [reflexivity|exact En].
Qed.
End Reply.
