(** * ExactProofs: exact behaviour where a property fails in corners *)
From Coq Require Import ZifyBool ZifyNat.
From Verif Require Import Base Types Uart Buffalo CmdTable Zpi Api App Machine SpecWire SpecCodec SpecApi SpecMachine SpecExact UartProofs UartProofs2 CodecProofs CodecProofs2
  RequestProofs ApiProofs AppProofs MachineBase MachineInv MachineInv2 MachineInv3 MachineInv4 MachineInv5 DispatchProofs MachineProofs MachineProofs2 MachineProofs3 MachineProofs6
  MachineProofs8.

(** ** neighbour tables *)
Lemma entry_wire e : length e = 22%nat -> bytes_ok e -> exists n, neighbor_wire n e /\ write_neighbor_lqi n = Ok (entry_kept e).
Proof.
  intros Hl Ho. do 22 (destruct e as [|? e]; [discriminate Hl|]). destruct e; [|discriminate Hl]. unfold bytes_ok in Ho.
  repeat match goal with H : Forall _ (_ :: _) |- _ => inversion H; clear H; subst end.
  match goal with |- context [neighbor_wire _ [?a0;?a1;?a2;?a3;?a4;?a5;?a6;?a7;?b0;?b1;?b2;?b3;?b4;?b5;?b6;?b7;?lo;?hi;?x;?y;?u;?v]] =>
    set (pan := [a0;a1;a2;a3;a4;a5;a6;a7]); set (ext := [b0;b1;b2;b3;b4;b5;b6;b7]);
    assert (Hpan : bytes_ok pan) by (unfold bytes_ok, pan; repeat (apply Forall_cons; [assumption|]); apply Forall_nil); assert (Hext : bytes_ok ext) by (unfold bytes_ok, ext; repeat (apply Forall_cons; [assumption|]); apply Forall_nil);
    assert (Hn : 0 <= lo + 256 * hi < 65536) by (unfold byte_ok in *; lia);
    assert (E2 : le2 (lo + 256 * hi) = [lo; hi]) by (unfold le2, byte_ok in *; f_equal; [|f_equal]; lia);
    exists (neighbor_of pan ext (lo + 256 * hi) x y u v);
    destruct (neighbor_of_fits pan ext (lo + 256 * hi) x y u v) as [Hf Hb]; try assumption; try reflexivity;
    split; [change ([a0;a1;a2;a3;a4;a5;a6;a7;b0;b1;b2;b3;b4;b5;b6;b7;lo;hi;x;y;u;v]) with (pan ++ ext ++ [lo; hi] ++ [x; y; u; v]); rewrite <- E2; constructor; try assumption; reflexivity|];
    destruct (write_neighbor_ok _ Hf) as [-> _]; rewrite Hb, E2; reflexivity
  end.
Qed.
Lemma neighbor_wire_bytes n e : neighbor_wire n e -> bytes_ok e.
Proof.
  intros [pan ext nwk bits pj depth lqi L1 L2 B1 B2 Hn H1 H2 H3 H4]. unfold bytes_ok in *. apply Forall_app. split; [exact B1|]. apply Forall_app. split; [exact B2|].
  apply Forall_app. split; [unfold le2; repeat (apply Forall_cons; [unfold byte_ok; lia|]); apply Forall_nil|]. repeat (apply Forall_cons; [assumption|]). apply Forall_nil.
Qed.
Lemma wire_unique n n' e : neighbor_wire n e -> neighbor_wire n' e -> n = n'.
Proof. intros H H'. pose proof (read_neighbor_ok n e [] H) as E. rewrite (read_neighbor_ok n' e [] H') in E. congruence. Qed.
Lemma entries_wire ns bs : neighbors_wire ns bs ->
  exists es, bs = concat es /\ Forall (fun e => length e = 22%nat /\ bytes_ok e) es /\ length es = length ns /\ write_neighbors ns = Ok (concat (map entry_kept es)).
Proof.
  induction 1 as [|n l a b Hn Hl (es & -> & He & Hlen & Hw)]; [exists []; repeat split; constructor|].
  pose proof (neighbor_wire_length _ _ Hn) as L. pose proof (neighbor_wire_bytes _ _ Hn) as B. destruct (entry_wire a L B) as (n' & Hn' & E).
  assert (n' = n) as -> by (eapply wire_unique; eassumption). exists (a :: es). split; [reflexivity|]. split; [constructor; auto|]. split; [cbn [length]; congruence|].
  cbn [write_neighbors map concat]. rewrite E. cbn [bind]. rewrite Hw. reflexivity.
Qed.
Lemma wire_entries es : Forall (fun e => length e = 22%nat /\ bytes_ok e) es -> exists ns, neighbors_wire ns (concat es) /\ length ns = length es.
Proof.
  induction 1 as [|e es [L B] _ (ns & H & Hl)]; [exists []; split; constructor|]. destruct (entry_wire e L B) as (n & Hn & _). exists (n :: ns).
  split; [constructor; assumption|cbn [length]; congruence].
Qed.
Definition lqi_params : list param :=
  [("srcaddr", UINT16); ("status", UINT8); ("neighbortableentries", UINT8); ("startindex", UINT8); ("neighborlqilistcount", UINT8); ("neighborlqilist", LIST_NEIGHBOR_LQI)].
Definition lqi_cmd : cmd := mk_cmd "mgmtLqiRsp" 177 AREQ (Some lqi_params) None.
Lemma lqi_find : find (fun c => c_ID c =? 177) def_ZDO = Some lqi_cmd.
Proof. vm_compute. reflexivity. Qed.
Lemma lqi_decoded l : from_unpi_frame (mk_frame AREQ ZDO 177 l None None) = do d <- read_parameters l lqi_params; Ok (mk_zpi AREQ ZDO "mgmtLqiRsp" 177 d lqi_params None).
Proof. unfold from_unpi_frame. cbn [f_sub f_id f_type f_data definition bind]. unfold next_cmd. rewrite lqi_find. reflexivity. Qed.
Lemma frame_fields f : from_unpi_frame f = from_unpi_frame (mk_frame (f_type f) (f_sub f) (f_id f) (f_data f) None None).
Proof. reflexivity. Qed.
Lemma lqi_names : NoDup (names lqi_params).
Proof. apply nodupb_ok. reflexivity. Qed.
Lemma lqi_decodes nwk st tot start es rest : 0 <= nwk < 65536 -> byte_ok st -> byte_ok tot -> byte_ok start -> lqi_entries es ->
  exists r, from_unpi_frame (mk_frame AREQ ZDO 177 (lqi_reply nwk st tot start es rest) None None) = Ok r.
Proof.
  intros Hn H1 H2 H3 [Hl He]. rewrite lqi_decoded. destruct (wire_entries es He) as (ns & Hw & Hns). eexists.
  assert (P : payload_wire None lqi_params [("srcaddr", VInt nwk); ("status", VInt st); ("neighbortableentries", VInt tot); ("startindex", VInt start);
      ("neighborlqilistcount", VInt (Z.of_nat (length es))); ("neighborlqilist", VNeighbors ns)]
      (le2 nwk ++ [st] ++ [tot] ++ [start] ++ [Z.of_nat (length es)] ++ concat es ++ [])).
  { assert (Hb : byte_ok (Z.of_nat (length es))) by (unfold byte_ok; lia).
    repeat first [apply pw_nil | apply pw_cons]; constructor; try assumption; try discriminate. rewrite Nat2Z.id. exact Hns. }
  unfold lqi_reply. replace (le2 nwk ++ [st; tot; start; Z.of_nat (length es)] ++ concat es ++ rest)
    with ((le2 nwk ++ [st] ++ [tot] ++ [start] ++ [Z.of_nat (length es)] ++ concat es ++ []) ++ rest) by (rewrite app_nil_r, <- !app_assoc; reflexivity).
  rewrite (decode_ok _ _ _ rest lqi_names P). reflexivity.
Qed.
Lemma lqi_delivered f r : bytes_ok (f_data f) -> f_type f = AREQ -> f_sub f = ZDO -> f_id f = 177 -> from_unpi_frame f = Ok r ->
  exists nwk st tot start es rest, f_data f = lqi_reply nwk st tot start es rest /\ 0 <= nwk < 65536 /\ lqi_entries es /\
  forall v devs q ieee, byte_ok q -> first_with nwk ieee devs ->
    handle_znp (Some v) devs (with_seq r (Some q)) =
    (devs, [EMsg ieee 0 0 260 32817 0 0 (q :: [st; tot; start; Z.of_nat (length es)] ++ concat (map entry_kept es))], Ok tt).
Proof.
  intros Hok Ht Hs Hid H. pose proof H as H0. rewrite frame_fields, Ht, Hs, Hid, lqi_decoded in H.
  destruct (read_parameters (f_data f) lqi_params) as [pl|] eqn:E; [|discriminate]. cbn [bind] in H. injection H as <-.
  destruct (decode_inv _ _ _ lqi_names Hok E) as (bs & rest & Ed & Hw).
  unfold lqi_params in Hw. inversion Hw as [|? ? ? v1 a1 ? p1 b1 V1 W1]; subst. inversion V1; subst; try discriminate. 
  inversion W1 as [|? ? ? v2 a2 ? p2 b2 V2 W2]; subst. inversion V2; subst; try discriminate.
  inversion W2 as [|? ? ? v3 a3 ? p3 b3 V3 W3]; subst. inversion V3; subst; try discriminate.
  inversion W3 as [|? ? ? v4 a4 ? p4 b4 V4 W4]; subst. inversion V4; subst; try discriminate.
  inversion W4 as [|? ? ? v5 a5 ? p5 b5 V5 W5]; subst. inversion V5; subst; try discriminate.
  inversion W5 as [|? ? ? v6 a6 ? p6 b6 V6 W6]; subst. inversion V6; subst; try discriminate.
  inversion W6; subst. clear W1 W2 W3 W4 W5 W6 V1 V2 V3 V4 V5 V6.
  rename z into nwk, z0 into st, z1 into tot, z2 into start, z3 into count, H10 into Hws, H11 into Hcount.
  destruct (entries_wire _ _ Hws) as (es & -> & He & Hes & Hwn).
  assert (Ec : count = Z.of_nat (length es)) by (unfold byte_ok in *; lia).
  exists nwk, st, tot, start, es, rest. split; [unfold lqi_reply; rewrite Ed, <- Ec, <- !app_assoc; reflexivity|]. split; [assumption|].
  split; [split; [unfold byte_ok in *; lia|exact He]|]. intros v devs q ieee Hq Hdev.
  destruct (reply_written v devs f _ 32817 q nwk ieee Hok H0 eq_refl eq_refl ltac:(vm_compute; tauto) Hq eq_refl Hdev) as (m & body & _ & _ & _ & _ & Hwp & ->).
  unfold reply_led. change (String.eqb "mgmtLqiRsp" "mgmtPermitJoinRsp") with false. cbn [andb app z_cmd].
  match type of Hwp with write_params ?ps ?pl = _ =>
    assert (E1 : write_params ps pl = Ok (le2 nwk ++ [st; tot; start; count] ++ concat (map entry_kept es))) end.
  { transitivity (do a <- to_bytes 2 nwk; do b <- (do a1 <- to_bytes 1 st; do b1 <- (do a2 <- to_bytes 1 tot; do b2 <- (do a3 <- to_bytes 1 start; do b3 <- (do a4 <- to_bytes 1 count;
      do b4 <- (do a5 <- write_neighbors l; do b5 <- Ok []; Ok (a5 ++ b5)); Ok (a4 ++ b4)); Ok (a3 ++ b3)); Ok (a2 ++ b2)); Ok (a1 ++ b1)); Ok (a ++ b)); [reflexivity|].
    rewrite to_bytes2, !to_bytes1, Hwn by assumption. cbn [bind]. rewrite app_nil_r. reflexivity. }
  rewrite E1 in Hwp. injection Hwp as <-. rewrite <- Ec. reflexivity.
Qed.

(** ** profiles other than 260 *)
Lemma profile_irrelevant nwk p p' cluster s s' d d' q q' data r r' m m' : p <> 260 -> p' <> 260 ->
  same_but_seq (from_cluster nwk p cluster s d q data r m) (from_cluster nwk p' cluster s' d' q' data r' m').
Proof.
  intros Hp Hp'. unfold from_cluster, ZHA_PROFILE. apply Z.eqb_neq in Hp, Hp'. rewrite Hp, Hp'. change (definition ZDO) with (Ok def_ZDO). cbn [bind].
  unfold next_cmd. destruct (find _ def_ZDO) as [c|] eqn:E; [|reflexivity]. cbn [bind]. apply find_some in E as [Hc _].
  destruct (zdo_names c Hc) as [N1 N2]. apply String.eqb_neq in N1, N2. rewrite N1, N2.
  destruct (select_params (c_type c) c) as [ps|e]; [|reflexivity]. cbn [bind].
  match goal with |- same_but_seq (do d <- ?e; _) _ => destruct e; reflexivity end.
Qed.

(** ** the two look-ups *)
Definition nwk_cmd : cmd := nth 0 def_ZDO (mk_cmd "" 0 SREQ None None).
Definition ieee_cmd : cmd := nth 1 def_ZDO (mk_cmd "" 0 SREQ None None).
Lemma nwk_lookup_bytes nwk a rest seq e1 e2 s r m w : 0 <= nwk < 65536 -> length a = 8%nat -> bytes_ok a ->
  exists o f, from_cluster nwk 0 0 e1 e2 s (seq :: a ++ rest) r m = Ok o /\ to_unpi_frame o = Ok f /\
    gw_send w f = (w ++ [wire 1 5 0 (le2 nwk ++ a)], Ok tt).
Proof.
  intros Hn L Hok. do 8 (destruct a as [|? a]; [discriminate L|]). destruct a; [|discriminate L].
  inversion_clear Hok as [|? ? O0 Hx]. inversion_clear Hx as [|? ? O1 Hy]. inversion_clear Hy as [|? ? O2 Hx]. inversion_clear Hx as [|? ? O3 Hy].
  inversion_clear Hy as [|? ? O4 Hx]. inversion_clear Hx as [|? ? O5 Hy]. inversion_clear Hy as [|? ? O6 Hx]. inversion_clear Hx as [|? ? O7 _].
  match goal with |- context [wire 1 5 0 (le2 nwk ++ [?x0; ?x1; ?x2; ?x3; ?x4; ?x5; ?x6; ?x7])] => set (body := le2 nwk ++ [x0; x1; x2; x3; x4; x5; x6; x7]) in *;
    set (pl := [("ieeeaddr", VEui [nwk mod 256; nwk / 256; x0; x1; x2; x3; x4; x5]); ("reqtype", VInt x6); ("startindex", VInt x7)]) end.
  assert (Hb : bytes_ok body) by (unfold body, le2; cbn [app]; unfold bytes_ok; repeat (apply Forall_cons; [first [assumption|unfold byte_ok; lia]|]); apply Forall_nil).
  exists (mk_zpi SREQ ZDO "nwkAddrReq" 0 pl [("ieeeaddr", IEEEADDR); ("reqtype", UINT8); ("startindex", UINT8)] (Some s)), (mk_frame SREQ ZDO 0 body None None).
  split; [|split].
  - refine (eq_trans (from_cluster_zdo nwk 0 nwk_cmd [("ieeeaddr", IEEEADDR); ("reqtype", UINT8); ("startindex", UINT8)] e1 e2 s _ r m _ _ _ Hn) _); [lia|left; reflexivity|reflexivity|].
    change (zdo_body (is_permit_join nwk_cmd) nwk (seq :: ?l)) with (le2 nwk ++ l). cbn [app].
    match goal with |- context [le2 nwk ++ ?l] => replace (le2 nwk ++ l) with (body ++ rest) by reflexivity end.
    rewrite (decode_ok _ pl body rest); [reflexivity|apply nodupb_ok; reflexivity|].
    unfold pl, body. change (le2 nwk ++ ?l) with ([nwk mod 256; nwk / 256; z; z0; z1; z2; z3; z4] ++ [z5] ++ [z6] ++ []).
    apply pw_cons; [apply vw_ieee; [reflexivity|]|apply pw_cons; [apply vw_u8; [assumption|discriminate]|apply pw_cons; [apply vw_u8; [assumption|discriminate]|apply pw_nil]]].
    unfold bytes_ok; repeat (apply Forall_cons; [first [assumption|unfold byte_ok; lia]|]); apply Forall_nil.
  - unfold to_unpi_frame. cbn [z_params z_payload z_type z_sub z_id].
    transitivity (do data <- (do a <- write_each 1 [nwk mod 256; nwk / 256; z; z0; z1; z2; z3; z4]; do b <- (do a1 <- to_bytes 1 z5; do b1 <- (do a2 <- to_bytes 1 z6; do b2 <- Ok []; Ok (a2 ++ b2)); Ok (a1 ++ b1)); Ok (a ++ b));
      Ok (mk_frame SREQ ZDO 0 data None None)); [reflexivity|].
    rewrite write_each1, !to_bytes1 by (first [assumption|unfold bytes_ok; repeat (apply Forall_cons; [first [assumption|unfold byte_ok; lia]|]); apply Forall_nil]). reflexivity.
  - destruct (gw_send_spec w (mk_frame SREQ ZDO 0 body None None) Hb) as [[_ ->]|[N _]]; [reflexivity|]. exfalso. apply N.
    unfold sendable. cbn [f_data f_id f_fcs]. repeat split; try exact Hb; try lia; cbn; lia.
Qed.
Lemma ieee_lookup_bytes nwk lo hi rest seq e1 e2 s r m w : 0 <= nwk < 65536 -> byte_ok lo -> byte_ok hi ->
  exists o f, from_cluster nwk 0 1 e1 e2 s (seq :: [lo; hi] ++ rest) r m = Ok o /\ to_unpi_frame o = Ok f /\
    gw_send w f = (w ++ [wire 1 5 1 (le2 nwk ++ [lo; hi])], Ok tt).
Proof.
  intros Hn O0 O1. set (body := le2 nwk ++ [lo; hi]). set (pl := [("shortaddr", VInt nwk); ("reqtype", VInt lo); ("startindex", VInt hi)]).
  assert (Hb : bytes_ok body) by (unfold body, le2; cbn [app]; unfold bytes_ok; repeat (apply Forall_cons; [first [assumption|unfold byte_ok; lia]|]); apply Forall_nil).
  exists (mk_zpi SREQ ZDO "ieeeAddrReq" 1 pl [("shortaddr", UINT16); ("reqtype", UINT8); ("startindex", UINT8)] (Some s)), (mk_frame SREQ ZDO 1 body None None).
  split; [|split].
  - refine (eq_trans (from_cluster_zdo nwk 0 ieee_cmd [("shortaddr", UINT16); ("reqtype", UINT8); ("startindex", UINT8)] e1 e2 s _ r m _ _ _ Hn) _); [lia|right; left; reflexivity|reflexivity|].
    change (zdo_body (is_permit_join ieee_cmd) nwk (seq :: ?l)) with (le2 nwk ++ l).
    replace (le2 nwk ++ [lo; hi] ++ rest) with (body ++ rest) by reflexivity.
    rewrite (decode_ok _ pl body rest); [reflexivity|apply nodupb_ok; reflexivity|].
    unfold pl, body. change (le2 nwk ++ [lo; hi]) with (le2 nwk ++ [lo] ++ [hi] ++ []).
    apply pw_cons; [apply vw_u16; exact Hn|apply pw_cons; [apply vw_u8; [assumption|discriminate]|apply pw_cons; [apply vw_u8; [assumption|discriminate]|apply pw_nil]]].
  - unfold to_unpi_frame. cbn [z_params z_payload z_type z_sub z_id].
    transitivity (do data <- (do a <- to_bytes 2 nwk; do b <- (do a1 <- to_bytes 1 lo; do b1 <- (do a2 <- to_bytes 1 hi; do b2 <- Ok []; Ok (a2 ++ b2)); Ok (a1 ++ b1)); Ok (a ++ b));
      Ok (mk_frame SREQ ZDO 1 data None None)); [reflexivity|].
    rewrite to_bytes2, !to_bytes1 by assumption. reflexivity.
  - destruct (gw_send_spec w (mk_frame SREQ ZDO 1 body None None) Hb) as [[_ ->]|[N _]]; [reflexivity|]. exfalso. apply N.
    unfold sendable. cbn [f_data f_id]. repeat split; try exact Hb; try lia; cbn; lia.
Qed.

(** ** requests for which no reply can be awaited *)
Lemma finish_fields t x s : s_log (finish t x s) = s_log s ++ [OEnded t x] /\ s_wire (finish t x s) = s_wire s /\ s_waiters (finish t x s) = s_waiters s /\
  s_sem (finish t x s) = s_sem s /\ s_lock (finish t x s) = s_lock s /\ s_queue (finish t x s) = s_queue s.
Proof. unfold finish, goto. destruct (get s t); repeat split; reflexivity. Qed.
Lemma lookup_fails s t k nwk profile cluster src_ep dst_ep sequence data :
  get s t = Some k -> t_phase k = PStart -> t_job k = JRequest nwk profile cluster src_ep dst_ep sequence data true ->
  profile <> 260 -> In cluster unaddressed_requests -> bytes_ok data ->
  let s' := step (ERun t) s in
  (exists e, s_log s' = s_log s ++ [OEnded t (OExn e)]) /\ s_wire s' = s_wire s /\ s_waiters s' = s_waiters s /\ s_sem s' = s_sem s /\ s_lock s' = s_lock s /\ s_queue s' = s_queue s /\
  (0 <= nwk < 65536 -> forall o, build (t_job k) = Ok o -> s_log s' = s_log s ++ [OEnded t (OExn KeyError)]).
Proof.
  intros G Hp Hj Hpr Hcl Hok. cbv zeta. unfold step, resume. rewrite G, Hp. unfold start. rewrite Hj.
  destruct (build (JRequest nwk profile cluster src_ep dst_ep sequence data true)) as [o|e] eqn:B.
  - assert (Hn : 0 <= nwk < 65536).
    { destruct (Z_lt_dec nwk 0); [|destruct (Z_lt_dec nwk 65536); [lia|]]; exfalso.
      all: assert (Hc : exists c ps, In c def_ZDO /\ c_ID c = cluster /\ c_request c = Some ps).
      1,3: cbn [unaddressed_requests In] in Hcl; destruct Hcl as [<-|[<-|[<-|[]]]]; [exists nwk_cmd|exists ieee_cmd|exists (nth 11 def_ZDO nwk_cmd)]; eexists; vm_compute; intuition reflexivity.
      all: destruct Hc as (c & ps & Hc & <- & Hps); cbn [build] in B; unfold build_request in B; rewrite (from_cluster_range _ _ _ _ _ _ _ _ _ _ Hpr Hc Hps) in B by lia; discriminate B. }
    cbn [response_waiter]. pose proof B as B'. cbn [build] in B'. unfold build_request, in_coroutine in B'.
    destruct (from_cluster nwk profile cluster src_ep dst_ep sequence data 30 None) as [o'|e] eqn:F; [|destruct e; discriminate]. injection B' as ->.
    rewrite (waiter_fails _ _ _ _ _ _ _ _ _ _ (Some sequence) Hpr Hcl Hn Hok F).
    destruct (finish_fields t (OExn KeyError) s) as (F1 & F2 & F3 & F4 & F5 & F6). rewrite F1, F2, F3, F4, F5, F6. split; [eexists; reflexivity|]. repeat (split; [reflexivity|]). intros; reflexivity.
  - destruct (finish_fields t (OExn e) s) as (F1 & F2 & F3 & F4 & F5 & F6). rewrite F1, F2, F3, F4, F5, F6. split; [eexists; reflexivity|]. repeat (split; [reflexivity|]). intros; discriminate.
Qed.

(** ** extended incoming messages *)
Lemma af_seq v devs r q : z_sub r = AF -> handle_znp v devs (with_seq r q) = handle_znp v devs r.
Proof.
  intro Hs. destruct r as [ty sub cmd id pl ps sq]. cbn [z_sub] in Hs. subst sub. unfold with_seq, handle_znp, to_unpi_frame, handle_rest, message_content. cbn [z_type z_sub z_cmd z_id z_payload z_params z_seq].
  change (sub_eqb AF ZDO) with false. cbn [andb]. reflexivity.
Qed.
Lemma ext_dropped s f r : bytes_ok (f_data f) -> f_type f = AREQ -> f_sub f = AF -> f_id f = 130 -> from_unpi_frame f = Ok r ->
  let s' := fst (data_received s f) in
  s_devs s' = s_devs s /\ s_tasks s' = s_tasks s /\ s_wire s' = s_wire s /\
  exists ids, s_log s' = s_log s ++ OReceived r :: map (fun i => OCompleted i r) ids.
Proof.
  intros Hok Ht Hs Hid H. cbv zeta. unfold data_received. rewrite H.
  destruct (dispatch_spec r (s_waiters (note (OReceived r) s)) (note (OReceived r) s)) as (pre & post & o' & x & _ & Ed & Hst). rewrite Ed.
  assert (Hz : handle_znp (s_version s) (s_devs s) o' = (s_devs s, [], Ok tt)).
  { assert (E : exists q, o' = r \/ o' = with_seq r q) by (inversion Hst; subst; [exists None|eexists|exists None]; eauto).
    pose proof (incoming_ext_dropped (s_version s) (s_devs s) f r Hok Ht Hs Hid H) as D. destruct E as [q [->| ->]]; [exact D|]. rewrite af_seq; [exact D|].
    destruct (decoded_inv f r Hok H) as (? & ? & ? & ? & ? & _ & _ & _ & _ & -> & _). exact Hs. }
  set (s1 := completes (filter (hit r) pre) r (note (OReceived r) s)).
  assert (E1 : s_devs s1 = s_devs s /\ s_tasks s1 = s_tasks s /\ s_wire s1 = s_wire s /\ s_version s1 = s_version s /\
     s_log s1 = s_log s ++ OReceived r :: map (fun i => OCompleted i r) (map w_id (filter (hit r) pre))).
  { unfold s1. rewrite completes_nf. fld. repeat (split; [reflexivity|]). rewrite <- app_assoc, map_map. reflexivity. }
  destruct E1 as (E1 & E2 & E3 & E4 & E5).
  destruct x as [u|e]; [|cbn [fst]; eauto 6]. unfold app_handle. destruct (s_app s1); [|cbn [fst]; eauto 6].
  rewrite E4, E1, Hz. cbn [fst fold_left]. fld. eauto 6.
Qed.

Lemma ext_named f r : bytes_ok (f_data f) -> f_type f = AREQ -> f_sub f = AF -> f_id f = 130 -> from_unpi_frame f = Ok r -> z_sub r = AF.
Proof. intros Hok _ Hs _ H. destruct (decoded_inv f r Hok H) as (? & ? & ? & ? & ? & _ & _ & _ & _ & -> & _). exact Hs. Qed.
Lemma ext_completes cap s f r : 0 <= cap -> reachable cap s -> bytes_ok (f_data f) -> f_type f = AREQ -> f_sub f = AF -> f_id f = 130 -> from_unpi_frame f = Ok r ->
  (forall t k m to, get s t = Some k -> t_job k = JWaitFor m to -> has_fields m r) ->
  let s' := fst (data_received s f) in
  (forall w, In w (s_waiters s') <-> In w (s_waiters s) /\ ~ answers (w_matcher w) r) /\
  (forall w, In w (s_waiters s) -> answers (w_matcher w) r -> s_futs s' (w_id w) = match s_futs s (w_id w) with FPending => FDone r | x => x end) /\
  (forall i, (forall w, In w (s_waiters s) -> answers (w_matcher w) r -> w_id w <> i) -> s_futs s' i = s_futs s i) /\
  exists ids, completions (s_log s') = completions (s_log s) ++ ids /\ forall i, In i ids <-> exists w, In w (s_waiters s) /\ answers (w_matcher w) r /\ w_id w = i.
Proof.
  intros Hc Hr Hok Ht Hs Hid H Hw s'. pose proof (ext_named f r Hok Ht Hs Hid H) as Es.
  destruct (message_completes cap s f r Hc Hr H) as (pre & post & keep & (Ew & _ & Hp) & W & K & F1 & F2 & ids & L & _ & I1).
  { intros w Hin. eapply comes_fields; [exact Hok|exact H|apply (reachable_origin cap s Hr w Hin)|exact Hw]. }
  fold s' in W, F1, F2, L. assert (post = []) as ->.
  { destruct Hp as [Hp|(a & w & -> & (_ & A2 & _) & (q & Hq & _))]; [exact Hp|]. exfalso.
    assert (Hin : In w (s_waiters s)) by (rewrite Ew; apply in_or_app; left; apply in_or_app; right; left; reflexivity).
    destruct (reachable_origin cap s Hr w Hin) as [(C & _)|[(C & _)|(sq & [(v & _ & C)|(rsp & b & E & _)])]]; try congruence.
    rewrite E in A2. cbn [m_sub] in A2. congruence. }
  rewrite app_nil_r in Ew. subst pre. split; [|split; [exact F1|split; [exact F2|exists ids; split; [exact L|exact I1]]]].
  intro w. rewrite W. split.
  - intro Hf. apply filter_In in Hf as [Hf Hk]. split; [exact Hf|]. intro A. assert (keep w = false) by (apply K; auto). congruence.
  - intros [Hin A]. apply filter_In. split; [exact Hin|]. destruct (keep w) eqn:E; [reflexivity|]. exfalso. apply A. apply K in E; [apply E|exact Hin].
Qed.

(** ** sizes *)
Lemma wire_length ct sub id data : length (wire ct sub id data) = (length data + 5)%nat.
Proof. unfold wire. cbn [length app]. rewrite app_length. cbn [length]. lia. Qed.
Lemma frame_bytes_send o bs f : to_unpi_frame o = Ok f -> (frame_bytes o bs <-> gw_send [] f = ([bs], Ok tt)).
Proof.
  intro E. unfold frame_bytes, gw_send. split.
  - intros (g & H1 & H2). rewrite E in H1. injection H1 as <-. rewrite H2. reflexivity.
  - intro H. exists f. split; [exact E|]. destruct (to_buffer f) as [b|e]; cbn [fst snd app] in H; [injection H as ->; reflexivity|discriminate].
Qed.
Lemma unicast_size nwk cluster src_ep dst_ep sequence data reply : bytes_ok data ->
  exists o, build (JRequest nwk 260 cluster src_ep dst_ep sequence data reply) = Ok o /\
    ((exists bs, frame_bytes o bs) <-> af_fields_ok nwk cluster src_ep dst_ep sequence 30 data) /\
    forall bs, frame_bytes o bs -> nth 1 bs 0 = 10 + Z.of_nat (length data) /\ length bs = (15 + length data)%nat.
Proof.
  intro Hd. destruct (af_exact nwk cluster src_ep dst_ep sequence 30 data [] Hd) as (o & F & _ & Hy & Hn). exists o.
  assert (D : af_fields_ok nwk cluster src_ep dst_ep sequence 30 data \/ ~ af_fields_ok nwk cluster src_ep dst_ep sequence 30 data) by (unfold af_fields_ok, byte_ok; lia).
  split; [cbn [build]; unfold build_request; rewrite F; reflexivity|].
  destruct D as [D|D].
  - destruct (Hy D) as (f & E & S). cbn [app] in S. split; [split; [intros _; exact D|intros _; eexists; apply (frame_bytes_send o _ f E); exact S]|].
    intros bs Hb. apply (frame_bytes_send o bs f E) in Hb. rewrite S in Hb. injection Hb as <-. rewrite wire_length. unfold wire, le2. cbn [app nth length]. lia.
  - assert (N : forall bs, ~ frame_bytes o bs).
    { intros bs Hb. destruct (Hn D) as [E|(f & E & S)]; [destruct Hb as (f & E' & _); congruence|]. apply (frame_bytes_send o bs f E) in Hb. congruence. }
    split; [split; [intros [bs Hb]; destruct (N bs Hb)|intro; contradiction]|]. intros bs Hb. destruct (N bs Hb).
Qed.
Lemma ext_size mode nwk cluster src_ep dst_ep sequence radius data o : bytes_ok data ->
  from_cluster nwk 260 cluster src_ep dst_ep sequence data radius (Some mode) = Ok o ->
  ((exists bs, frame_bytes o bs) <-> af_ext_fields_ok mode nwk cluster src_ep dst_ep sequence radius data) /\
  forall bs, frame_bytes o bs -> nth 1 bs 0 = 20 + Z.of_nat (length data) /\ length bs = (25 + length data)%nat.
Proof.
  intros Hd F'. destruct (ext_exact mode nwk cluster src_ep dst_ep sequence radius data [] Hd) as (o' & F & _ & Hy & Hn). rewrite F' in F. injection F as <-.
  assert (D : af_ext_fields_ok mode nwk cluster src_ep dst_ep sequence radius data \/ ~ af_ext_fields_ok mode nwk cluster src_ep dst_ep sequence radius data) by (unfold af_ext_fields_ok, byte_ok; lia).
  destruct D as [D|D].
  - destruct (Hy D) as (f & addr & E & _ & L & _ & S). cbn [app] in S. split; [split; [intros _; exact D|intros _; eexists; apply (frame_bytes_send o _ f E); exact S]|].
    intros bs Hb. apply (frame_bytes_send o bs f E) in Hb. rewrite S in Hb. injection Hb as <-. rewrite wire_length. unfold wire, le2. cbn [app nth length]. repeat (rewrite app_length; cbn [length]). lia.
  - assert (N : forall bs, ~ frame_bytes o bs).
    { intros bs Hb. destruct (Hn D) as [E|(f & E & S)]; [destruct Hb as (f & E' & _); congruence|]. apply (frame_bytes_send o bs f E) in Hb. congruence. }
    split; [split; [intros [bs Hb]; destruct (N bs Hb)|intro; contradiction]|]. intros bs Hb. destruct (N bs Hb).
Qed.
Lemma multicast_size group cluster src_ep sequence data : bytes_ok data ->
  exists o, build (JMulticast group 260 cluster src_ep sequence data) = Ok o /\
    ((exists bs, frame_bytes o bs) <-> af_ext_fields_ok 1 group cluster (if src_ep =? 0 then 1 else src_ep) 255 sequence 30 data) /\
    forall bs, frame_bytes o bs -> nth 1 bs 0 = 20 + Z.of_nat (length data) /\ length bs = (25 + length data)%nat.
Proof.
  intro Hd. destruct (ext_exact 1 group cluster (if src_ep =? 0 then 1 else src_ep) 255 sequence 30 data [] Hd) as (o & F & _). exists o.
  split; [cbn [build]; unfold build_mrequest, ADDR_GROUP; rewrite F; reflexivity|]. apply (ext_size _ _ _ _ _ _ _ _ _ Hd F).
Qed.
Lemma broadcast_size cluster src_ep dst_ep radius sequence data a : bytes_ok data ->
  exists o, build (JBroadcast 260 cluster src_ep dst_ep radius sequence data a) = Ok o /\
    ((exists bs, frame_bytes o bs) <-> af_ext_fields_ok 2 a cluster src_ep dst_ep sequence radius data) /\
    forall bs, frame_bytes o bs -> nth 1 bs 0 = 20 + Z.of_nat (length data) /\ length bs = (25 + length data)%nat.
Proof.
  intro Hd. destruct (ext_exact 2 a cluster src_ep dst_ep sequence radius data [] Hd) as (o & F & _). exists o.
  split; [cbn [build]; unfold build_broadcast, ADDR_16BIT; rewrite F; reflexivity|]. apply (ext_size _ _ _ _ _ _ _ _ _ Hd F).
Qed.
