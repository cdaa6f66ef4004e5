(** * MachineProofs11: everything handed to zigpy comes from a received message *)
From Verif Require Import Base Types Uart Buffalo CmdTable Zpi Api App Machine SpecWire SpecCodec SpecApi SpecMachine SpecTrace UartProofs UartProofs2 CodecProofs CodecProofs2
  RequestProofs ApiProofs AppProofs AppProofs2 MachineBase MachineInv MachineInv2 MachineInv3 MachineInv4 MachineInv5 DispatchProofs MachineProofs MachineProofs2 MachineProofs3 MachineProofs4 MachineProofs5 MachineProofs6.

(** ** what does not come from a received message *)
Record quiet (s s' : st) : Prop := {
  Q_devs : s_devs s' = s_devs s; Q_version : s_version s' = s_version s; Q_app : s_app s' = s_app s;
  Q_open : s_open s' = s_open s; Q_buf : s_buf s' = s_buf s;
  Q_log : exists l, s_log s' = s_log s ++ l /\ Forall silent l }.
Lemma quiet_refl s : quiet s s.
Proof. constructor; try reflexivity. exists []. rewrite app_nil_r. split; [reflexivity|constructor]. Qed.
Lemma quiet_trans s1 s2 s3 : quiet s1 s2 -> quiet s2 s3 -> quiet s1 s3.
Proof.
  intros [A1 A2 A3 A4 A5 (l & A6 & A7)] [B1 B2 B3 B4 B5 (m & B6 & B7)]. constructor; try congruence.
  exists (l ++ m). rewrite B6, A6, app_assoc. split; [reflexivity|]. apply Forall_app. auto.
Qed.
Lemma quiet_put t k s : quiet s (put t k s).
Proof. constructor; try reflexivity. exists []. rewrite app_nil_r. split; [reflexivity|constructor]. Qed.
Lemma quiet_goto t p s : quiet s (goto t p s).
Proof. unfold goto. destruct (get s t); [apply quiet_put|apply quiet_refl]. Qed.
Lemma quiet_note x s : silent x -> quiet s (note x s).
Proof. intro H. constructor; try reflexivity. exists [x]. split; [reflexivity|]. repeat constructor. exact H. Qed.
Lemma quiet_noted x s s' : silent x -> quiet s s' -> quiet s (note x s').
Proof. intros H Q. eapply quiet_trans; [exact Q|apply quiet_note, H]. Qed.
Ltac quiet_same := constructor; try reflexivity; exists []; rewrite app_nil_r; split; [reflexivity|constructor].
Lemma quiet_spawn j s : quiet s (spawn j s).
Proof. unfold spawn. apply quiet_noted; [exact I|]. quiet_same. Qed.
Lemma quiet_finish t r s : quiet s (finish t r s).
Proof. unfold finish. apply quiet_noted; [exact I|apply quiet_goto]. Qed.
Lemma quiet_free_sem j s : quiet s (free_sem j s).
Proof. unfold free_sem. destruct (uses_sem j); [quiet_same|apply quiet_refl]. Qed.
Lemma quiet_free_lock t s : quiet s (free_lock t s).
Proof. unfold free_lock. apply quiet_noted; [exact I|]. eapply quiet_trans; [apply (quiet_goto t PRel)|]. quiet_same. Qed.
Lemma quiet_raw_raise t j e s : quiet s (raw_raise t j e s).
Proof. unfold raw_raise. eapply quiet_trans; [apply quiet_free_lock|]. eapply quiet_trans; [apply quiet_free_sem|apply quiet_finish]. Qed.
Lemma quiet_raw_return t j r s : quiet s (raw_return t j r s).
Proof.
  unfold raw_return. cbv zeta. eapply quiet_trans; [apply (quiet_free_lock t)|]. destruct (settles j); [apply quiet_goto|].
  eapply quiet_trans; [apply quiet_free_sem|apply quiet_finish].
Qed.
Lemma quiet_wait_for m to q s : quiet s (wait_for m to q s).
Proof. unfold wait_for. apply quiet_noted; [exact I|]. quiet_same. Qed.
Lemma quiet_uart_send t f s : quiet s (fst (uart_send t f s)).
Proof.
  destruct (uart_send_cases t f s) as [[_ E]|[[_ (bs & _ & E)]|[_ (e & _ & E)]]]; rewrite E; cbn [fst]; try apply quiet_refl.
  unfold written. apply quiet_noted; [exact I|]. quiet_same.
Qed.
Lemma quiet_send_and_wait t j f m to s : quiet s (send_and_wait t j f m to s).
Proof.
  unfold send_and_wait. pose proof (quiet_uart_send t f (wait_for m to None s)) as E.
  destruct (uart_send t f (wait_for m to None s)) as [s1 [r|e]]; cbn [fst] in E;
    (eapply quiet_trans; [apply quiet_wait_for|]); (eapply quiet_trans; [exact E|]); [apply quiet_goto|apply quiet_raw_raise].
Qed.
Lemma quiet_request_raw t j o s : quiet s (request_raw t j o s).
Proof.
  unfold request_raw. destruct (to_unpi_frame o) as [f|e]; [|apply quiet_raw_raise].
  destruct (z_type o); try apply quiet_raw_raise; [apply quiet_send_and_wait|].
  destruct (is_reset_command o); [apply quiet_send_and_wait|]. pose proof (quiet_uart_send t f s) as E.
  destruct (uart_send t f s) as [s1 [r|e]]; cbn [fst] in E; (eapply quiet_trans; [exact E|]); [apply quiet_raw_return|apply quiet_raw_raise].
Qed.
Lemma quiet_granted t k s : quiet s (granted t k s).
Proof.
  unfold granted. assert (Q : quiet s (note (OGranted t) (set_lock (Some t) (goto t PHold s)))).
  { apply quiet_noted; [exact I|]. eapply quiet_trans; [apply (quiet_goto t PHold)|]. quiet_same. }
  destruct (t_obj k); [|exact Q]. eapply quiet_trans; [exact Q|apply quiet_request_raw].
Qed.
Lemma quiet_acquire_lock t k s : quiet s (acquire_lock t k s).
Proof.
  assert (Q : quiet s (note (OQueued t) (set_queue (s_queue s ++ [t]) (goto t PLock s)))).
  { apply quiet_noted; [exact I|]. eapply quiet_trans; [apply (quiet_goto t PLock)|]. quiet_same. }
  unfold acquire_lock. destruct (s_lock s); [exact Q|]. destruct (s_queue s); [apply quiet_granted|exact Q].
Qed.
Lemma quiet_acquire_sem t k s : quiet s (acquire_sem t k s).
Proof.
  unfold acquire_sem. destruct (uses_sem (t_job k)); [destruct (0 <? s_sem s); [|apply quiet_refl]|]; (eapply quiet_trans; [|apply quiet_acquire_lock]).
  - apply quiet_noted; [exact I|]. eapply quiet_trans; [apply (quiet_goto t PAdm)|]. quiet_same.
  - apply quiet_goto.
Qed.
Lemma quiet_start t k s : quiet s (start t k s).
Proof.
  unfold start, prepared. destruct (t_job k); try (eapply quiet_trans; [|apply quiet_goto]; apply quiet_wait_for);
    (destruct (build _) as [ob|e]; [|apply quiet_finish]); (destruct (response_waiter _ ob) as [[[m q]|]|e]; cbv zeta; [| |apply quiet_finish]);
    (eapply quiet_trans; [|apply quiet_acquire_sem]); try apply quiet_put; (eapply quiet_trans; [apply quiet_wait_for|apply quiet_put]).
Qed.
Lemma quiet_completed i r s : quiet s (completed i r s).
Proof. constructor; try reflexivity. exists [OCompleted i r]. split; [reflexivity|]. repeat constructor. Qed.
Lemma quiet_resume t s : quiet s (resume t s).
Proof.
  unfold resume. destruct (get s t) as [k|]; [|apply quiet_refl]. destruct (t_phase k); try apply quiet_refl.
  - apply quiet_start.
  - apply quiet_acquire_sem.
  - destruct (s_lock s); [apply quiet_refl|]. destruct (s_queue s) as [|h q]; [apply quiet_refl|]. destruct (h =? t); [|apply quiet_refl].
    eapply quiet_trans; [|apply quiet_granted]. quiet_same.
  - destruct (s_futs s i) as [|r|]; try apply quiet_refl. destruct (t_obj k) as [o|]; [|apply quiet_refl].
    unfold request_raw_resume. destruct (z_type o); try apply quiet_raw_return.
    destruct (unexpected_status r (expected_of (t_job k))) as [c|]; [|apply quiet_raw_return].
    destruct (t_wid k) as [j|]; [|apply quiet_raw_raise]. destruct (registered s j); [|apply quiet_raw_raise].
    rewrite complete_nf. eapply quiet_trans; [apply quiet_completed|apply quiet_raw_raise].
  - destruct (until <=? s_now s); [|apply quiet_refl]. eapply quiet_trans; [apply quiet_free_sem|apply quiet_finish].
  - apply quiet_goto.
  - destruct (s_futs s i); try apply quiet_refl. apply quiet_finish.
Qed.
Lemma quiet_cancel_fut i s : quiet s (cancel_fut i s).
Proof. unfold cancel_fut. destruct (s_futs s i); try apply quiet_refl. quiet_same. Qed.
Lemma quiet_timeout t s : quiet s (wait_timeout t s).
Proof.
  unfold wait_timeout. destruct (get s t) as [k|]; [|apply quiet_refl]. destruct (t_phase k); try apply quiet_refl; destruct (s_futs s i); try apply quiet_refl;
    destruct (deadline <=? s_now s); try apply quiet_refl; (eapply quiet_trans; [apply quiet_cancel_fut|]); [apply quiet_raw_raise|apply quiet_finish].
Qed.
Lemma quiet_cancel t s : quiet s (cancel t s).
Proof.
  unfold cancel. destruct (get s t) as [k|]; [|apply quiet_refl]. destruct (t_phase k); try apply quiet_refl; try apply quiet_finish.
  - eapply quiet_trans; [|apply quiet_finish]. eapply quiet_trans; [|apply quiet_free_sem]. unfold dequeue. quiet_same.
  - eapply quiet_trans; [apply quiet_cancel_fut|apply quiet_raw_raise].
  - eapply quiet_trans; [apply quiet_free_sem|apply quiet_finish].
  - eapply quiet_trans; [apply quiet_cancel_fut|apply quiet_finish].
Qed.
Lemma quiet_cleanup i s : quiet s (cleanup i s).
Proof. destruct (cleanup_nf i s) as [->|[_ ->]]; [apply quiet_refl|]. quiet_same. Qed.

(** ** sequence numbers of waiters are those of requests *)
Lemma built_range nwk profile cluster src_ep dst_ep sequence data radius mode o : profile <> 260 ->
  from_cluster nwk profile cluster src_ep dst_ep sequence data radius mode = Ok o -> 0 <= nwk < 65536.
Proof.
  intros Hp Hb. unfold from_cluster, ZHA_PROFILE in Hb. apply Z.eqb_neq in Hp. rewrite Hp in Hb.
  change (definition ZDO) with (Ok def_ZDO) in Hb. cbn [bind] in Hb. unfold next_cmd in Hb.
  destruct (find (fun c => c_ID c =? cluster) def_ZDO) as [c|] eqn:Ef; [|discriminate]. cbn [bind] in Hb.
  apply find_some in Ef as [Hc _]. destruct (zdo_names c Hc) as [N1 N2]. apply String.eqb_neq in N1, N2. rewrite N1, N2 in Hb.
  destruct (select_params (c_type c) c) as [ps|] eqn:Es; [|discriminate]. cbn [bind] in Hb. unfold bind in Hb.
  destruct (String.eqb (c_name c) "mgmtPermitJoinReq"); [destruct (py_bytes _) as [pb|]; [|discriminate]|];
    (destruct (to_bytes 2 nwk) as [a|] eqn:E; [|discriminate]); apply to_bytes_inv in E as [E _]; exact E.
Qed.
Definition addressed_ok (c : cmd) : bool :=
  negb (ct_eqb (c_type c) SREQ && endswith (c_name c) "Req") ||
  negb (existsb (String.eqb (replace_req (c_name c))) (map snd addressed_requests)) ||
  existsb (fun x => (fst x =? c_ID c) && String.eqb (snd x) (replace_req (c_name c))) addressed_requests.
Lemma addressed_rows c : In c def_ZDO -> addressed_ok c = true.
Proof. assert (E : forallb addressed_ok def_ZDO = true) by (vm_compute; reflexivity). rewrite forallb_forall in E. apply E. Qed.
Lemma sequence_waiter nwk profile cluster src_ep dst_ep sequence data radius mode o m q s :
  from_cluster nwk profile cluster src_ep dst_ep sequence data radius mode = Ok o ->
  create_response_waiter o (Some s) = Ok (Some (m, Some q)) ->
  profile <> 260 /\ s = q /\ exists rsp a, In (cluster, rsp) addressed_requests /\ m = mk_matcher AREQ ZDO rsp [("srcaddr", a)] /\ (bytes_ok data -> a = VInt nwk).
Proof.
  intros Hb Hw. assert (Hp : profile <> 260).
  { intros ->. destruct (data_waiter _ _ _ _ _ _ _ _ _ (Some s) Hb) as (m' & E & _). congruence. }
  split; [exact Hp|]. destruct (created_shape _ _ _ _ _ _ _ _ _ _ _ _ _ Hb Hw) as [(v & _ & C)|(rsp & a & E & Hin & [= ->])]; [discriminate C|].
  split; [reflexivity|]. exists rsp, a.
  destruct (built_command _ _ _ _ _ _ _ _ _ _ Hp Hb) as (Hsub & c & Hc & Hid & Hcmd & Hty).
  assert (X : ct_eqb (c_type c) SREQ = true /\ endswith (c_name c) "Req" = true /\ rsp = replace_req (c_name c) /\ dict_get (z_payload o) "dstaddr" = Some a).
  { unfold create_response_waiter in Hw. rewrite Hsub, Hcmd, Hty in Hw. destruct (_ && _) in Hw.
    - unfold bind in Hw. destruct (dict_getE _ _) in Hw; discriminate.
    - destruct (ct_eqb (c_type c) SREQ); [|discriminate]. destruct (endswith (c_name c) "Req"); [|discriminate]. cbn [andb definition bind] in Hw.
      destruct (find _ def_ZDO); [|discriminate]. unfold bind, dict_getE in Hw. destruct (dict_get _ _) as [x|]; [|discriminate].
      injection Hw as <-. injection E as <- <-. auto. }
  destruct X as (X1 & X2 & X3 & X4). pose proof (addressed_rows c Hc) as Hz. unfold addressed_ok in Hz. rewrite X1, X2, <- X3 in Hz.
  replace (existsb (String.eqb rsp) (map snd addressed_requests)) with true in Hz
    by (symmetry; apply existsb_exists; exists rsp; split; [exact Hin|apply String.eqb_refl]).
  cbn [andb negb orb] in Hz. apply existsb_exists in Hz as ((n & r) & Hx & Hz). cbn [fst snd] in Hz. apply andb_true_iff in Hz as [Z1 Z2].
  apply Z.eqb_eq in Z1. apply String.eqb_eq in Z2. subst n r. rewrite Hid in Hx. split; [exact Hx|]. split; [exact E|]. intro Hd.
  destruct (addressed_row _ _ Hx) as (c' & ps & Hc' & Hid' & _ & _ & _ & _ & _ & Hps). subst cluster. rewrite <- Hid' in Hb.
  destruct (zdo_dst nwk profile c' ps _ _ _ _ _ _ o Hp Hc' Hps (built_range _ _ _ _ _ _ _ _ _ _ Hp Hb) Hd Hb) as (Hdst & _). congruence.
Qed.

Definition Asked (s : st) : Prop := forall w q, In w (s_waiters s) -> w_seq w = Some q ->
  exists t k nwk cluster data rsp a, get s t = Some k /\ asks (t_job k) nwk cluster q data /\ In (cluster, rsp) addressed_requests /\
    w_matcher w = mk_matcher AREQ ZDO rsp [("srcaddr", a)] /\ (bytes_ok data -> a = VInt nwk).
Lemma asks_response j o m q : build j = Ok o -> response_waiter j o = Ok (Some (m, Some q)) ->
  exists nwk cluster data rsp a, asks j nwk cluster q data /\ In (cluster, rsp) addressed_requests /\
    m = mk_matcher AREQ ZDO rsp [("srcaddr", a)] /\ (bytes_ok data -> a = VInt nwk).
Proof.
  assert (IC : forall (x : result zpi) y, in_coroutine x = Ok y -> x = Ok y) by (intros [|[]] y H; cbn in *; congruence).
  destruct j; try discriminate; cbn [build response_waiter asks].
  - destruct expect_reply; [|discriminate]. unfold build_request. intros Hb Hw. apply IC in Hb.
    destruct (sequence_waiter _ _ _ _ _ _ _ _ _ _ _ _ _ Hb Hw) as (H1 & H2 & rsp & a & H3 & H4 & H5). exists nwk, cluster, data, rsp, a. auto 10.
  - unfold build_mrequest. intros Hb Hw. apply IC in Hb.
    destruct (sequence_waiter _ _ _ _ _ _ _ _ _ _ _ _ _ Hb Hw) as (H1 & H2 & rsp & a & H3 & H4 & H5). exists group_id, cluster, data, rsp, a. auto 10.
Qed.
Lemma asked_grow s s' ws : Asked s -> same_job s s' -> (forall w, In w (s_waiters s') -> In w (s_waiters s) \/ In w ws) ->
  Forall (fun w => forall q, w_seq w = Some q ->
    exists t k nwk cluster data rsp a, get s' t = Some k /\ asks (t_job k) nwk cluster q data /\ In (cluster, rsp) addressed_requests /\
      w_matcher w = mk_matcher AREQ ZDO rsp [("srcaddr", a)] /\ (bytes_ok data -> a = VInt nwk)) ws -> Asked s'.
Proof.
  intros A J Hw Hws w q Hin Hq. destruct (Hw w Hin) as [H|H].
  - destruct (A w q H Hq) as (t & k & nwk & cluster & data & rsp & a & G & Hk & Hr). destruct (J t k G) as (k' & G' & E).
    exists t, k', nwk, cluster, data, rsp, a. rewrite E. auto.
  - rewrite Forall_forall in Hws. apply (Hws w H q Hq).
Qed.
Lemma asked_prim s s' : prim s s' -> Asked s -> Asked s'.
Proof.
  intros H A. pose proof (job_prim s s' H) as J. revert J. destruct H; prim_nf; intro J;
    try (eapply (asked_grow s _ []); [exact A|exact J| |constructor]; intros x Hx; opn_in Hx; left;
         first [exact Hx|apply filter_In in Hx; apply Hx|destruct (s_futs s i); first [exact Hx|apply filter_In in Hx; apply Hx]]; fail).
  - eapply (asked_grow s _ [mk_waiter (s_next s) m Timeouts_default q]); [exact A|exact J| |].
    + intros x Hx. opn_in Hx. apply in_app_or in Hx. exact Hx.
    + constructor; [|constructor]. cbn [w_seq w_matcher]. intros sq ->. destruct (J t k H) as (k' & G' & E).
      destruct (asks_response (t_job k) o m sq) as (nwk & cluster & data & rsp & a & Hr); [assumption|assumption|].
      exists t, k', nwk, cluster, data, rsp, a. rewrite E. auto.
  - eapply (asked_grow s _ [mk_waiter (s_next s) m to None]); [exact A|exact J| |].
    + intros x Hx. opn_in Hx. apply in_app_or in Hx. exact Hx.
    + constructor; [|constructor]. discriminate.
  - eapply (asked_grow s _ [mk_waiter (s_next s) m to None]); [exact A|exact J| |].
    + intros x Hx. opn_in Hx. apply in_app_or in Hx. exact Hx.
    + constructor; [|constructor]. discriminate.
  - eapply (asked_grow s _ [mk_waiter (s_next s) m to None]); [exact A|exact J| |].
    + intros x Hx. opn_in Hx. apply in_app_or in Hx. exact Hx.
    + constructor; [|constructor]. discriminate.
Qed.
Lemma asked_init cap v d a : Asked (init cap v d a).
Proof. intros w q []. Qed.

(** ** the history block by block *)
Lemma effects_app a b : effects (a ++ b) = effects a ++ effects b.
Proof. apply flat_map_app. Qed.
Lemma effects_log es : forall s, exists l, s_log (fold_left (fun s e => do_effect e s) es s) = s_log s ++ l /\ Forall app_entry l /\ effects l = es.
Proof.
  induction es as [|e es IH]; intro s; cbn [fold_left].
  - exists []. rewrite app_nil_r. split; [reflexivity|]. split; [constructor|reflexivity].
  - destruct (IH (do_effect e s)) as (l & El & Fl & Ee). rewrite El.
    destruct e; unfold do_effect, spawn, note; fld; repeat rewrite <- app_assoc; cbn [app]; eexists; (split; [reflexivity|]);
      (split; [repeat constructor; exact Fl|]); cbn [effects flat_map app]; fold (effects l); rewrite Ee; reflexivity.
Qed.

(** [A] is who a reply can be attributed to. *)
Inductive traced (d0 : devices) (A : zpi -> Z -> Prop) : list obs -> devices -> Prop :=
| T_nil : traced d0 A [] d0
| T_silent l d x : traced d0 A l d -> silent x \/ (exists e, x = ORaised e) -> traced d0 A (l ++ [x]) d
| T_recv l d o cs q ef : traced d0 A l d -> Forall (fun x => exists i, x = OCompleted i o) cs -> Forall app_entry ef ->
    (forall b, q = Some b -> A o b) ->
    Forall (stems o q (join_all d (joins (effects ef)))) (effects ef) ->
    traced d0 A (l ++ OReceived o :: cs ++ ef) (join_all d (joins (effects ef))).
Lemma traced_silent d0 A l d m : traced d0 A l d -> Forall silent m -> traced d0 A (l ++ m) d.
Proof.
  intros T F. revert l T. induction F as [|x m Hx _ IH]; intros l T; [rewrite app_nil_r; exact T|].
  change (x :: m) with ([x] ++ m). rewrite app_assoc. apply IH, T_silent; auto.
Qed.
Lemma traced_mono d0 (A B : zpi -> Z -> Prop) l d : (forall o b, A o b -> B o b) -> traced d0 A l d -> traced d0 B l d.
Proof. intros H. induction 1; [constructor|apply T_silent; assumption|]. eapply T_recv; eauto. Qed.

Definition Good (d0 : devices) (s : st) : Prop := traced d0 (attributed s) (s_log s) (s_devs s).
Lemma attributed_grow s s' o q : same_job s s' -> attributed s o q -> attributed s' o q.
Proof.
  intros J (Q & H1 & H2 & t & k & nwk & cluster & data & G & Hk & Hr). destruct (J t k G) as (k' & G' & E).
  repeat (split; [assumption|]). exists t, k', nwk, cluster, data. rewrite E. auto.
Qed.
Lemma same_job_prims s s' : prims s s' -> same_job s s'.
Proof.
  induction 1 as [|? ? ? H _ IH]; [intros t k G; eauto|]. intros t k G. destruct (job_prim _ _ H t k G) as (k1 & G1 & E1).
  destruct (IH t k1 G1) as (k2 & G2 & E2). exists k2. split; [exact G2|congruence].
Qed.
Lemma good_quiet d0 s s' : Good d0 s -> prims s s' -> quiet s s' -> Good d0 s'.
Proof.
  intros T P [Qd _ _ _ _ (l & El & Fl)]. unfold Good. rewrite Qd, El. apply traced_silent; [|exact Fl].
  eapply traced_mono; [|exact T]. intros o b. apply attributed_grow, same_job_prims, P.
Qed.
Lemma good_received d0 s f : Core s -> Asked s -> bytes_ok (f_data f) -> Good d0 s -> Good d0 (fst (data_received s f)).
Proof.
  intros Hc Ha Hok T. pose proof (same_job_prims _ _ (data_received_prims s f Hc)) as J. unfold Good.
  unfold data_received in *. destruct (from_unpi_frame f) as [o|e] eqn:Hf; [|exact T].
  destruct (dispatch_spec o (s_waiters (note (OReceived o) s)) (note (OReceived o) s)) as (pre & post & o' & r & E & Ed & Hst).
  change (s_waiters (note (OReceived o) s)) with (s_waiters s) in *. cbv zeta in *. rewrite Ed in *.
  set (s1 := completes (filter (hit o) pre) o (note (OReceived o) s)) in *.
  set (cs := map (fun w => OCompleted (w_id w) o) (filter (hit o) pre)).
  assert (Hcs : Forall (fun x => exists i, x = OCompleted i o) cs).
  { apply Forall_forall. intros x Hx. apply in_map_iff in Hx as (w & <- & _). eauto. }
  assert (L1 : s_log s1 = s_log s ++ OReceived o :: cs) by (unfold s1; rewrite completes_nf; unfold note; fld; rewrite <- app_assoc; reflexivity).
  assert (D1 : s_devs s1 = s_devs s) by (unfold s1; rewrite completes_nf; reflexivity).
  assert (V1 : s_app s1 = s_app s) by (unfold s1; rewrite completes_nf; reflexivity).
  assert (Hnil : forall s2, same_job s s2 -> s_log s2 = s_log s1 -> s_devs s2 = s_devs s1 -> traced d0 (attributed s2) (s_log s2) (s_devs s2)).
  { intros s2 J2 L2 D2. rewrite L2, D2, L1, D1. replace cs with (cs ++ []) by apply app_nil_r.
    change (s_devs s) with (join_all (s_devs s) (joins (effects []))). apply (T_recv d0 _ _ _ o cs None []); try assumption; try constructor; try discriminate.
    eapply traced_mono; [|exact T]. intros ? ?. apply attributed_grow, J2. }
  destruct r as [[]|e]; [|apply Hnil; [exact J|reflexivity|reflexivity]].
  unfold app_handle in *. destruct (s_app s1); [|apply Hnil; [exact J|reflexivity|reflexivity]].
  assert (Hq : exists q, o' = with_seq o q /\ forall b, q = Some b -> attributed s o b).
  { inversion Hst as [p Hp|p w q po Hp H1 H2 H3|]; subst.
    - exists None. split; [|discriminate]. destruct (decoded_inv f o' Hok Hf) as (xs & c & ps & n & pl & _ & _ & _ & _ & Er & _ & _). rewrite Er. reflexivity.
    - exists (Some q). split; [reflexivity|]. intros b [= <-]. destruct (Ha w q) as (t & k & nwk & cluster & data & rsp & a & G & Hk & Hin & Hm & Hx).
      { rewrite E. apply in_or_app. left. apply in_or_app. right. left. reflexivity. } { exact H2. }
      apply hit_answers in H1. rewrite Hm in H1. destruct H1 as (A1 & A2 & A3 & A4). cbn [m_type m_sub m_cmd m_payload] in *.
      split; [exact H3|]. split; [congruence|]. split; [congruence|]. exists t, k, nwk, cluster, data. rewrite <- A3.
      repeat (split; [assumption|]). intro Hd. specialize (Hx Hd). subst a. inversion A4 as [|? ? (x & Ex & Vx) _]; subst. cbn [fst snd] in *.
      unfold field. rewrite Ex. f_equal. inversion Vx as [| |? ? ? K|]; subst; [congruence|inversion K]. }
  destruct Hq as (q & -> & Hq). pose proof (handle_table (s_version s1) (s_devs s1) (with_seq o q)) as Ht.
  pose proof (handle_stems (s_version s1) (s_devs s1) f o q Hok Hf) as Hs.
  destruct (handle_znp (s_version s1) (s_devs s1) (with_seq o q)) as [[d es] r]. cbn [fst snd] in *. subst d.
  destruct (effects_log es (set_devs (join_all (s_devs s1) (joins es)) s1)) as (ef & Le & Fe & Ee).
  destruct (effects_keep es (set_devs (join_all (s_devs s1) (joins es)) s1)) as (_ & _ & _ & _ & _ & De & _).
  rewrite Le, De. fld. rewrite L1, D1 in *. rewrite <- app_assoc. cbn [app]. subst es.
  apply (T_recv d0 _ _ _ o cs q ef); try assumption.
  - eapply traced_mono; [|exact T]. intros ? ?. apply attributed_grow, J.
  - intros b Hb. eapply attributed_grow; [exact J|]. apply Hq, Hb.
  - apply Hs. intros b Hb. destruct (Hq b Hb) as (_ & _ & A2 & t & k & nwk & cluster & data & _ & _ & Hin & _). split; [exact A2|].
    change (z_cmd o) with (snd (cluster, z_cmd o)). apply in_map, Hin.
Qed.

(** what the parser hands over consists of bytes, whatever comes in *)
Lemma write_bytes b x b1 r : good_buffer b -> parser_write b x = (b1, r) -> good_buffer b1 /\ (forall f, r = Ok (Some f) -> bytes_ok (f_data f)).
Proof.
  intros Hg E. assert (byte_ok x \/ ~ byte_ok x) as [Hx|Hx] by (unfold byte_ok; lia).
  - pose proof (good_write b x Hg Hx) as Hw. rewrite E in Hw. split; [exact Hw|]. intros f ->.
    destruct (write_sound b x b1 f Hg Hx E) as (_ & (_ & Hs & _) & _). exact Hs.
  - unfold parser_write in E. destruct (py_bytes [x]) as [bb|e] eqn:Ep.
    + apply py_bytes_inv in Ep as [_ Ep]. inversion Ep. contradiction.
    + injection E as <- <-. split; [exact Hg|discriminate].
Qed.
Lemma good_gw d0 bs : forall s b, Core s -> Asked s -> good_buffer b -> Good d0 s ->
  let x := gw_data_received data_received b s bs in Good d0 (snd (fst x)) /\ good_buffer (fst (fst x)).
Proof.
  induction bs as [|x bs IH]; intros s b Hc Ha Hb T; cbn [gw_data_received]; cbv zeta; [auto|].
  destruct (parser_write b x) as [b1 r] eqn:E. destruct (write_bytes b x b1 r Hb E) as [Hb1 Hf].
  destruct r as [[f|]|e]; [|apply IH; assumption|auto].
  pose proof (good_received d0 s f Hc Ha (Hf f eq_refl) T) as T1. pose proof (data_received_prims s f Hc) as P.
  destruct (data_received s f) as [s1 [[]|e]]; cbn [fst snd] in *; [|auto].
  apply IH; try assumption; [eapply core_prims; eassumption|eapply (prims_inv Asked asked_prim); eassumption].
Qed.
Definition Tr (d0 : devices) (s : st) : Prop := Core s /\ Asked s /\ good_buffer (s_buf s) /\ Good d0 s.
Lemma tr_step d0 e s : Tr d0 s -> Tr d0 (step e s).
Proof.
  intros (Hc & Ha & Hb & T). pose proof (step_prims e s Hc) as P. unfold Tr.
  split; [eapply core_prims; eassumption|]. split; [eapply (prims_inv Asked asked_prim); eassumption|].
  assert (Hqu : quiet s (step e s) -> good_buffer (s_buf (step e s)) /\ Good d0 (step e s)).
  { intro Q. split; [rewrite (Q_buf _ _ Q); exact Hb|eapply good_quiet; eassumption]. }
  destruct e; cbn [step] in *.
  - apply Hqu, quiet_spawn.
  - apply Hqu, quiet_resume.
  - apply Hqu, quiet_timeout.
  - apply Hqu, quiet_cancel.
  - apply Hqu, quiet_cleanup.
  - apply Hqu. destruct (0 <=? ms); [quiet_same|apply quiet_refl].
  - unfold receive. destruct (good_gw d0 data s (s_buf s) Hc Ha Hb T) as [T1 B1]. 
    destruct (gw_data_received data_received (s_buf s) s data) as [[b s1] r]. cbn [fst snd] in *.
    destruct r as [u|e]; (split; [exact B1|]); [exact T1|]. unfold Good, note. fld. apply T_silent; [exact T1|right; eauto].
  - split; [exact Hb|]. exact T.
  - split; [exact Hb|]. exact T.
Qed.
Lemma tr_run d0 es : forall s, Tr d0 s -> Tr d0 (run es s).
Proof. unfold run. induction es as [|e es IH]; intros s H; cbn [fold_left]; [exact H|apply IH, tr_step, H]. Qed.
Lemma tr_init cap v d a : Tr d (init cap v d a).
Proof. split; [apply core_init|]. split; [apply asked_init|]. split; [apply good_nil|apply T_nil]. Qed.
Lemma run_traced cap v d a es : Good d (run es (init cap v d a)).
Proof. apply tr_run, tr_init. Qed.
