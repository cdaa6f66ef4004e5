(** * MachineProofs12: consequences of the history being a sequence of receptions *)
From Coq Require Import ZifyBool ZifyNat.
From Verif Require Import Base Types Uart Buffalo CmdTable Zpi Api App Machine SpecWire SpecCodec SpecApi SpecMachine SpecTrace UartProofs UartProofs2 CodecProofs CodecProofs2
  RequestProofs ApiProofs AppProofs AppProofs2 MachineBase MachineInv MachineInv2 MachineInv3 MachineInv4 MachineInv5 DispatchProofs MachineProofs MachineProofs2 MachineProofs3 MachineProofs4
  MachineProofs5 MachineProofs6 MachineProofs11.

(** ** the device table *)
Definition table (d0 : devices) (l : list obs) : devices := join_all d0 (joins (effects l)).
Lemma joins_app a b : joins (a ++ b) = joins a ++ joins b.
Proof. apply flat_map_app. Qed.
Lemma table_app d0 a b : table d0 (a ++ b) = table (table d0 a) b.
Proof. unfold table, join_all. rewrite effects_app, joins_app. apply fold_left_app. Qed.
Lemma announced_app a b i : announced_nwk (a ++ b) i = match announced_nwk b i with Some n => Some n | None => announced_nwk a i end.
Proof.
  unfold announced_nwk. rewrite fold_left_app. generalize (fold_left (fun a x => match x with OEffect (EJoin n j) => if list_eq_dec Z.eq_dec j i then Some n else a | _ => a end) a None).
  intro o. revert o. induction b as [|x b IH] using rev_ind; intro o; [reflexivity|]. rewrite !fold_left_app. cbn [fold_left].
  destruct x; try apply IH. destruct e; try apply IH. destruct (list_eq_dec Z.eq_dec ieee i); [reflexivity|apply IH].
Qed.
Lemma table_lookup d0 l i : lookup (table d0 l) i = match announced_nwk l i with Some n => Some n | None => lookup d0 i end.
Proof.
  induction l as [|x l IH] using rev_ind; [reflexivity|]. rewrite table_app, announced_app.
  destruct x; try exact IH. destruct e; try exact IH. unfold table, announced_nwk at 1. cbn [effects flat_map app joins join_all fold_left fst snd].
  rewrite lookup_join. unfold ieee_eqb. destruct (list_eq_dec Z.eq_dec ieee i); [reflexivity|]. exact IH.
Qed.
Lemma join_keys d n i : map fst (join d n i) = map fst d \/ (map fst (join d n i) = map fst d ++ [i] /\ ~ In i (map fst d)).
Proof.
  induction d as [|[j m] d IH]; cbn [join]; [right; split; [reflexivity|intros []]|]. unfold ieee_eqb. destruct (list_eq_dec Z.eq_dec j i) as [->|Hne].
  - left. reflexivity.
  - cbn [map fst]. destruct IH as [->|[-> Hn]]; [left; reflexivity|right]. split; [reflexivity|]. cbn [In]. tauto.
Qed.
Lemma table_keys d0 l : (exists new, map fst (table d0 l) = map fst d0 ++ new) /\ (NoDup (map fst d0) -> NoDup (map fst (table d0 l))).
Proof.
  induction l as [|x l [(new & IH) Nd]] using rev_ind; [split; [exists []; symmetry; apply app_nil_r|auto]|]. rewrite table_app.
  destruct x; try (split; [exists new; exact IH|exact Nd]). destruct e; try (split; [exists new; exact IH|exact Nd]).
  unfold table at 1 3. cbn [effects flat_map app joins join_all fold_left fst snd].
  destruct (join_keys (table d0 l) nwk ieee) as [E|[E Hn]]; rewrite E.
  - split; [exists new; exact IH|exact Nd].
  - split; [exists (new ++ [ieee]); rewrite IH, app_assoc; reflexivity|]. intro H. rewrite <- (rev_involutive (_ ++ _)), rev_app_distr. apply NoDup_rev. cbn [rev app].
    constructor; [|apply NoDup_rev, Nd, H]. intro C. apply Hn, in_rev, C.
Qed.

Lemma lookup_in d i n : NoDup (map fst d) -> (lookup d i = Some n <-> In (i, n) d).
Proof.
  induction d as [|[j m] d IH]; cbn [map fst]; intro Nd; [split; [discriminate|intros []]|]. inversion Nd as [|? ? Hj Nd']; subst.
  unfold lookup. cbn [find fst]. destruct (ieee_eqb_spec j i) as [->|Hne]; cbn [snd In].
  - split; [intros [= ->]; left; reflexivity|]. intros [[= ->]|H]; [reflexivity|]. exfalso. apply Hj. change i with (fst (i, n)). apply in_map, H.
  - fold (lookup d i). rewrite (IH Nd'). split; [right; assumption|]. intros [[= ? ?]|H]; [contradiction|exact H].
Qed.
Lemma table_up_to_date d0 l : up_to_date d0 l (table d0 l).
Proof.
  intros i n Nd. rewrite <- (lookup_in _ _ _ (proj2 (table_keys d0 l) Nd)), table_lookup, <- (lookup_in _ _ _ Nd).
  destruct (announced_nwk l i) as [m|].
  - split; [left; assumption|]. intros [H|[C _]]; [exact H|discriminate].
  - split; [right; auto|]. intros [C|[_ H]]; [discriminate|exact H].
Qed.
Lemma table_completed d o cs : Forall (fun x => exists i, x = OCompleted i o) cs -> table d (OReceived o :: cs) = d.
Proof.
  intro H. unfold table. change (effects (OReceived o :: cs)) with (effects cs). assert (E : effects cs = []); [|rewrite E; reflexivity].
  induction H as [|x cs (i & ->) _ IH]; [reflexivity|exact IH].
Qed.
Lemma traced_table d0 A l d : traced d0 A l d -> d = table d0 l.
Proof.
  induction 1 as [|l d x _ IH Hx|l d o cs q ef _ IH Hcs Hef Hq Hs]; [reflexivity| |].
  - rewrite table_app, <- IH. destruct Hx as [Hx|[e ->]]; [|reflexivity]. destruct x; try reflexivity. destruct Hx.
  - rewrite table_app, <- IH. change (OReceived o :: cs ++ ef) with ((OReceived o :: cs) ++ ef). rewrite table_app.
    rewrite (table_completed d o cs Hcs). reflexivity.
Qed.
Lemma enter_join d n i : enter d n i = join d n i.
Proof.
  unfold enter. assert (G : forall post pre, pre ++ post = d -> Forall (fun x => fst x <> i) pre ->
    (fix go (pre post : devices) :=
      match post with [] => d ++ [(i, n)] | x :: rest => if list_eq_dec Z.eq_dec (fst x) i then pre ++ (i, n) :: rest else go (pre ++ [x]) rest end) pre post
    = pre ++ join post n i).
  { induction post as [|[j m] post IH]; intros pre E F; cbn [join fst]; [rewrite app_nil_r in E; congruence|]. unfold ieee_eqb.
    destruct (list_eq_dec Z.eq_dec j i) as [->|Hne]; [reflexivity|]. rewrite IH; [rewrite <- app_assoc; reflexivity|rewrite <- app_assoc; exact E|].
    apply Forall_app. split; [exact F|]. constructor; [exact Hne|constructor]. }
  apply (G d []); [reflexivity|constructor].
Qed.
Lemma known_table l : forall d0, known d0 l = table d0 l.
Proof.
  unfold known. induction l as [|x l IH]; intro d0; [reflexivity|]. cbn [fold_left]. change (x :: l) with ([x] ++ l). rewrite table_app, IH.
  destruct x; try reflexivity. destruct e; try reflexivity. unfold table at 3. cbn [effects flat_map app joins join_all fold_left fst snd]. rewrite enter_join. reflexivity.
Qed.
Lemma device_table cap v d a es : let s := run es (init cap v d a) in
  s_devs s = known d (s_log s) /\ up_to_date d (s_log s) (s_devs s) /\ (exists new, map fst (s_devs s) = map fst d ++ new) /\ (NoDup (map fst d) -> NoDup (map fst (s_devs s))).
Proof.
  cbv zeta. pose proof (run_traced cap v d a es) as T. apply traced_table in T. rewrite T, known_table. split; [reflexivity|]. split; [apply table_up_to_date|apply table_keys].
Qed.

(** ** what stems from what *)
Lemma no_join_stems o q d es : ~ indication o ZDO "endDeviceAnnceInd" -> Forall (stems o q d) es -> joins es = [].
Proof.
  intros Hn. induction 1 as [|e es He _ IH]; [reflexivity|]. cbn [joins flat_map]. fold (joins es). rewrite IH. destruct He; try reflexivity. contradiction.
Qed.
Lemma not_announced c cluster : In (c, cluster) passed_replies -> c <> "endDeviceAnnceInd".
Proof. intros H ->. cbn [passed_replies In] in H. repeat (destruct H as [H|H]; [discriminate H|]). exact H. Qed.
Lemma stems_then o q d es e1 e e2 : es = e1 ++ e :: e2 -> Forall (stems o q (join_all d (joins es))) es -> stems o q (join_all d (joins e1)) e.
Proof.
  intros E F. assert (Hno : ~ indication o ZDO "endDeviceAnnceInd" -> joins es = [] /\ joins e1 = []).
  { intro Hn. pose proof (no_join_stems _ _ _ _ Hn F) as J. split; [exact J|]. rewrite E, joins_app in J. apply app_eq_nil in J. apply J. }
  assert (He : stems o q (join_all d (joins es)) e) by (rewrite Forall_forall in F; apply F; rewrite E; apply in_or_app; right; left; reflexivity).
  revert He. generalize (eq_refl (join_all d (joins es))). generalize (join_all d (joins es)) at 1 3. intros D HD He.
  destruct He.
  - apply SM_join; assumption.
  - eapply SM_announced; eassumption.
  - apply SM_joinable; assumption.
  - apply SM_joining; assumption.
  - destruct Hno as [N1 N2]; [intros (_ & _ & C); destruct H as (_ & _ & C'); congruence|]. rewrite N1 in HD. rewrite N2, <- HD.
    eapply SM_incoming; eassumption.
  - destruct Hno as [N1 N2]; [intros (_ & _ & C); destruct H as (_ & _ & C'); rewrite C in C'; apply (not_announced _ _ H0); congruence|].
    rewrite N1 in HD. rewrite N2, <- HD. eapply SM_reply; eassumption.
Qed.
Lemma split_in_app {A} (p : list A) e lb l m : p ++ e :: lb = l ++ m ->
  (exists b, l = p ++ e :: b /\ lb = b ++ m) \/ (exists a, p = l ++ a /\ m = a ++ e :: lb).
Proof.
  revert l. induction p as [|x p IH]; intros [|y l] H; cbn [app] in H.
  - right. exists []. auto.
  - injection H as <- ->. left. exists l. auto.
  - right. exists (x :: p). auto.
  - injection H as <- H. destruct (IH l H) as [(b & -> & ->)|(a & -> & ->)]; [left; exists b; auto|right; exists a; auto].
Qed.
Lemma traced_stems d0 A l d : traced d0 A l d -> forall pre e lb, l = pre ++ OEffect e :: lb ->
  exists la o lm q, pre = la ++ OReceived o :: lm /\ Forall (follows o) lm /\ stems o q (table d0 pre) e /\ (forall b, q = Some b -> A o b).
Proof.
  intro T. induction T as [|l d x T IH Hx|l d o cs q ef T IH Hcs Hef Hq Hs]; intros pre e lb E.
  - destruct pre; discriminate E.
  - symmetry in E. apply split_in_app in E as [(b & -> & ->)|(a & -> & E)]; [eapply IH; reflexivity|].
    destruct a as [|y a]; [|destruct a; discriminate E]. injection E as -> <-. destruct Hx as [[]|[e' C]]; discriminate C.
  - symmetry in E. apply split_in_app in E as [(b & -> & ->)|(a & -> & E)]; [eapply IH; reflexivity|].
    destruct a as [|y a]; [discriminate E|]. injection E as <- E. symmetry in E. apply split_in_app in E as [(b & -> & ->)|(a' & -> & ->)].
    + exfalso. rewrite Forall_app in Hcs. destruct Hcs as [_ Hcs]. inversion Hcs as [|? ? (i & C) _]. discriminate C.
    + exists l, o, (cs ++ a'), q. split; [reflexivity|]. split.
      { apply Forall_app. split.
        - eapply Forall_impl; [|exact Hcs]. intros x (i & ->). reflexivity.
        - rewrite Forall_app in Hef. eapply Forall_impl; [|apply Hef]. intros []; cbn; tauto. }
      split; [|exact Hq]. rewrite effects_app in Hs. cbn [effects flat_map app] in Hs.
      pose proof (stems_then o q d _ (effects a') e _ eq_refl Hs) as X. apply traced_table in T. subst d.
      rewrite table_app. change (OReceived o :: cs ++ a') with ((OReceived o :: cs) ++ a'). rewrite table_app.
      rewrite (table_completed _ o cs Hcs). exact X.
Qed.
Lemma effect_stems cap v d0 a es pre e lb : let s := run es (init cap v d0 a) in s_log s = pre ++ OEffect e :: lb ->
  exists la o lm q, pre = la ++ OReceived o :: lm /\ Forall (follows o) lm /\ stems o q (known d0 pre) e /\ (forall b, q = Some b -> attributed s o b).
Proof.
  cbv zeta. intro E. destruct (traced_stems _ _ _ _ (run_traced cap v d0 a es) pre e lb E) as (la & o & lm & q & H1 & H2 & H3 & H4).
  exists la, o, lm, q. rewrite known_table. auto.
Qed.

(** ** receiving does not send *)
Record receives (s s' : st) : Prop := {
  R_wire : s_wire s' = s_wire s; R_lock : s_lock s' = s_lock s; R_queue : s_queue s' = s_queue s; R_sem : s_sem s' = s_sem s;
  R_open : s_open s' = s_open s; R_now : s_now s' = s_now s; R_next : s_next s' = s_next s; R_timers : s_timers s' = s_timers s;
  R_app : s_app s' = s_app s; R_version : s_version s' = s_version s;
  R_tasks : forall t k, get s t = Some k -> get s' t = Some k;
  R_new : forall t k, get s' t = Some k -> get s t = Some k \/
    exists mode, k = mk_task (JCommand UTIL "ledControl" (led_payload mode) [0]) PStart None None }.
Lemma receives_refl s : receives s s.
Proof. constructor; auto. Qed.
Lemma receives_trans a b c : receives a b -> receives b c -> receives a c.
Proof.
  intros [] []. constructor; try congruence; auto. intros t k G. destruct (R_new1 t k G) as [H|H]; auto.
Qed.
Lemma receives_effects es : forall s, receives s (fold_left (fun s e => do_effect e s) es s).
Proof.
  induction es as [|e es IH]; intro s; cbn [fold_left]; [apply receives_refl|]. eapply receives_trans; [|apply IH].
  destruct e; constructor; try reflexivity; auto; unfold do_effect, spawn, note, get; fld; intros t k G; rewrite assoc_snoc in *.
  - rewrite G. reflexivity.
  - destruct (assoc t (s_tasks s)) as [k'|]; [left; exact G|]. destruct (_ =? _); [|discriminate]. injection G as <-. right. eauto.
Qed.
Lemma receives_message s f : receives s (fst (data_received s f)).
Proof.
  unfold data_received. destruct (from_unpi_frame f) as [o|e]; [|apply receives_refl]. cbv zeta.
  destruct (dispatch_spec o (s_waiters (note (OReceived o) s)) (note (OReceived o) s)) as (pre & post & o' & r & _ & Ed & _). rewrite Ed.
  assert (R1 : receives s (completes (filter (hit o) pre) o (note (OReceived o) s))) by (rewrite completes_nf; constructor; auto).
  destruct r as [u|e]; [|exact R1]. unfold app_handle. destruct (s_app _); [|exact R1].
  destruct (handle_znp _ _ _) as [[d es] r]. cbn [fst]. eapply receives_trans; [exact R1|]. eapply receives_trans; [|apply receives_effects].
  constructor; auto.
Qed.
Lemma receives_step s data : receives s (step (ERecv data) s).
Proof.
  cbn [step]. unfold receive. assert (G : forall bs b s, receives s (snd (fst (gw_data_received data_received b s bs)))).
  { induction bs as [|x bs IH]; intros b s0; cbn [gw_data_received]; [apply receives_refl|]. destruct (parser_write b x) as [b1 [[f|]|e]]; [|apply IH|apply receives_refl].
    pose proof (receives_message s0 f) as R. destruct (data_received s0 f) as [s1 [u|e]]; cbn [fst snd] in *; [|exact R]. eapply receives_trans; [exact R|apply IH]. }
  specialize (G data (s_buf s) s). destruct (gw_data_received _ _ _ _) as [[b s1] r]. cbn [fst snd] in G. destruct r; (eapply receives_trans; [exact G|]); constructor; auto.
Qed.

(** ** a closed port is never written to *)
Definition Shut (w : list (list Z)) (b : list (list Z)) (s : st) : Prop := s_open s = false /\ s_wire s = w /\ written_bytes (s_log s) = b.
Lemma written_bytes_app a b : written_bytes (a ++ b) = written_bytes a ++ written_bytes b.
Proof. apply flat_map_app. Qed.
Lemma shut_prim w b s s' : prim s s' -> Shut w b s -> Shut w b s'.
Proof.
  intros H (A & B & C). destruct H; prim_nf; unfold Shut in *; opn_all; rewrite ?written_bytes_app; cbn [written_bytes flat_map app]; rewrite ?app_nil_r; try congruence; auto.
Qed.
Lemma shut_run es s : Core s -> s_open s = false -> s_wire (run es s) = s_wire s /\ written_bytes (s_log (run es s)) = written_bytes (s_log s) /\ s_open (run es s) = false.
Proof.
  intros Hc Ho. destruct (prims_inv (Shut (s_wire s) (written_bytes (s_log s))) (shut_prim _ _) s (run es s)) as (H1 & H2 & H3); [apply run_prims, Hc|repeat split; exact Ho|auto].
Qed.
Lemma reachable_core cap s : reachable cap s -> Core s.
Proof. intros (v & d & a & es & ->). eapply core_prims; [apply run_prims, core_init|apply core_init]. Qed.
Lemma reachable_asked cap s : reachable cap s -> Asked s.
Proof. intros (v & d & a & es & ->). eapply (prims_inv Asked asked_prim); [apply run_prims, core_init|apply asked_init]. Qed.
Lemma close_is_final cap s es : reachable cap s ->
  s_wire (run (EClose :: es) s) = s_wire s /\ written_bytes (s_log (run (EClose :: es) s)) = written_bytes (s_log s).
Proof.
  intro Hr. cbn [run fold_left step]. assert (Hc : Core (set_open false s)) by (apply (core_prim s); [constructor|eapply reachable_core, Hr]).
  destruct (shut_run es (set_open false s) Hc eq_refl) as (H1 & H2 & _). auto.
Qed.
