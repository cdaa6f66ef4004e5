(** * WorldProofs5: the device table across reconnects *)
From Verif Require Import Base Types Uart Buffalo CmdTable Zpi Api App Machine Life World SpecMachine SpecLife SpecWorld
  ApiProofs AppProofs AppProofs2 MachineBase MachineInv MachineInv2 DispatchProofs LifeProofs2 WorldInv WorldFace WorldBase WorldLife WorldProofs2 WorldProofs4.

(** ** what changes neither the table nor what was told about it *)
Definition unrelated (o : wobs) : Prop := (forall a e, o <> WEffect a e) /\ (forall i n, o <> WAdded i n).
Definition aside (w w' : world) : Prop := w_devs w' = w_devs w /\ exists l, w_log w' = w_log w ++ l /\ Forall unrelated l.
Lemma aside_same w w' : w_devs w' = w_devs w -> w_log w' = w_log w -> aside w w'.
Proof. intros D L. split; [exact D|]. exists []. rewrite app_nil_r. split; [exact L|constructor]. Qed.
Lemma aside_trans u v w : aside u v -> aside v w -> aside u w.
Proof. intros (D1 & l1 & L1 & F1) (D2 & l2 & L2 & F2). split; [congruence|]. exists (l1 ++ l2). rewrite L2, L1, app_assoc. split; [reflexivity|apply Forall_app; auto]. Qed.
Lemma aside_note o w : unrelated o -> aside w (wnote o w).
Proof. intro U. split; [reflexivity|]. exists [o]. split; [reflexivity|constructor; [exact U|constructor]]. Qed.
Ltac unrel := split; intros; discriminate.
Lemma aside_api a f w : aside w (on_api a f w).
Proof. unfold on_api. destruct (nth_error _ a); apply aside_same; reflexivity. Qed.
Lemma aside_goto n p w : aside w (op_goto n p w).
Proof. unfold op_goto. destruct (the_op w n); apply aside_same; reflexivity. Qed.
Lemma aside_slot q d w : aside w (slot_change q d w).
Proof. unfold slot_change. destruct (nth_error _ q); apply aside_same; reflexivity. Qed.
Lemma aside_end n r w : aside w (op_end n r w).
Proof. unfold op_end. eapply aside_trans; [apply aside_goto|apply aside_note; unrel]. Qed.
Lemma aside_leave n q r w : aside w (op_leave n q r w).
Proof. unfold op_leave. eapply aside_trans; [apply aside_slot|apply aside_end]. Qed.
Lemma aside_refl w : aside w w.
Proof. apply aside_same; reflexivity. Qed.
Lemma aside_after n w : aside w (op_after n w).
Proof.
  unfold op_after. destruct (the_op w n) as [o|]; [|apply aside_refl]. destruct (op_at o) as [| |q a t| |]; try apply aside_refl.
  destruct (nth_error (w_apis w) a) as [s|]; [|apply aside_refl]. destruct (get s t) as [k|]; [|apply aside_refl].
  destruct (t_phase k) as [| | | | | | | | | |r]; try apply aside_refl. destruct r; try apply aside_leave. destruct (settles _); [apply aside_goto|apply aside_leave].
Qed.
Lemma aside_afters w : aside w (ops_after w).
Proof.
  unfold ops_after. generalize (seq 0 (length (w_ops w))). intro l. revert w. induction l as [|n l IH]; intro w; [apply aside_refl|].
  cbn [fold_left]. eapply aside_trans; [apply aside_after|apply IH].
Qed.
Lemma aside_admitted n q w : aside w (op_admitted n q w).
Proof.
  unfold op_admitted. destruct (the_op w n) as [o|]; [|apply aside_end]. destruct (y_cur _) as [a|]; [|apply aside_end].
  destruct (nth_error _ a) as [s|]; [|apply aside_refl]. destruct (op_obj o); [|apply aside_refl].
  eapply aside_trans; [|apply aside_after]. eapply aside_trans; [|apply aside_goto]. eapply aside_trans; [|apply aside_api].
  eapply aside_trans; [apply aside_slot|apply aside_note; unrel].
Qed.
Lemma aside_semaphore n w : aside w (op_semaphore n w).
Proof.
  unfold op_semaphore. destruct (w_sem w) as [q|]; [|apply aside_end]. unfold op_acquire. destruct (nth_error _ q) as [v|]; [|apply aside_refl].
  destruct (0 <? v); [apply aside_admitted|apply aside_goto].
Qed.
Lemma aside_begin n o w : aside w (op_begin n o w).
Proof.
  unfold op_begin. destruct (build _) as [obj|e]; [|apply aside_end].
  assert (P : forall x v, aside v (put_op n x v)) by (intros; apply aside_same; reflexivity).
  destruct (wants_waiter _) as [sq|]; [|eapply aside_trans; [apply P|apply aside_semaphore]].
  destruct (y_cur _) as [a|]; [|apply aside_end]. destruct (nth_error _ a) as [s|]; [|apply aside_refl].
  destruct (create_response_waiter obj (Some sq)) as [[[m q]|]|e]; [| |apply aside_end].
  - eapply aside_trans; [|apply aside_semaphore]. eapply aside_trans; [|apply P]. eapply aside_trans; [apply aside_api|apply aside_note; unrel].
  - eapply aside_trans; [apply P|apply aside_semaphore].
Qed.
Lemma aside_run n w : aside w (op_run n w).
Proof.
  unfold op_run. destruct (the_op w n) as [o|]; [|apply aside_refl]. destruct (op_at o) as [|q|q a t|q u|r]; try apply aside_refl.
  - apply aside_begin.
  - destruct (nth_error _ q) as [v|]; [|apply aside_refl]. destruct (0 <? v); [apply aside_admitted|apply aside_refl].
  - destruct (u <=? _); [apply aside_leave|apply aside_refl].
Qed.
Lemma aside_cancel n w : aside w (op_cancel n w).
Proof.
  unfold op_cancel. destruct (the_op w n) as [o|]; [|apply aside_refl]. destruct (op_at o) as [|q|q a t|q u|r]; try apply aside_refl; try apply aside_end.
  - eapply aside_trans; [apply aside_api|apply aside_after].
  - apply aside_leave.
Qed.
Lemma aside_step e w : (forall a d, e <> VReceive a d) -> (forall t i n, e <> VGotDevice t i n) -> aside w (world_step e w).
Proof.
  intros N1 N2. destruct e; cbn [world_step]; try apply aside_run; try apply aside_cancel; try apply aside_api;
    try (eapply aside_trans; [apply aside_api|apply aside_afters]).
  - destruct (uses_sem j); [|apply aside_refl]. eapply aside_trans; [|apply aside_note; unrel]. apply aside_same; reflexivity.
  - destruct (uses_sem j); [apply aside_refl|apply aside_api].
  - destruct (N1 _ _ eq_refl).
  - destruct (0 <=? ms); [apply aside_same; reflexivity|apply aside_refl].
  - apply aside_same; reflexivity.
  - destruct (starting w t); [|apply aside_refl]. unfold got_version. eapply aside_trans; [|apply aside_note; unrel]. apply aside_same; reflexivity.
  - destruct (N2 _ _ _ eq_refl).
Qed.

(** ** bytes *)
Definition api_grows (w w' : world) : Prop := forall a s, nth_error (w_apis w) a = Some s -> exists s', nth_error (w_apis w') a = Some s' /\ grows (s_log s) (s_log s').
Lemma api_grows_trans u v w : api_grows u v -> api_grows v w -> api_grows u w.
Proof. intros A B a s H. destruct (A a s H) as (s1 & H1 & G1). destruct (B a s1 H1) as (s2 & H2 & G2). exists s2. split; [exact H2|eapply grows_trans; eassumption]. Qed.
Lemma api_grows_same w w' : w_apis w' = w_apis w -> api_grows w w'.
Proof. intros E a s H. exists s. rewrite E. split; [exact H|apply grows_refl]. Qed.
Lemma api_grows_on w a f : (forall s, nth_error (w_apis w) a = Some s -> grows (s_log s) (s_log (f s))) -> api_grows w (on_api a f w).
Proof.
  intros F b s B. unfold on_api. destruct (nth_error (w_apis w) a) as [x|] eqn:A; [|exists s; split; [exact B|apply grows_refl]].
  wfld. rewrite nth_set. destruct (Nat.eqb_spec b a) as [->|]; [|exists s; split; [exact B|apply grows_refl]].
  rewrite A. rewrite A in B. injection B as <-. exists (f x). split; [reflexivity|apply F; reflexivity].
Qed.
(** what was announced to API object [a], as far as it was told *)
Definition announced_to (w : world) (a : nat) (n : Z) (i : list Z) : Prop :=
  exists s o, nth_error (w_apis w) a = Some s /\ In (OReceived o) (s_log s) /\ announces o n i.
Lemma announced_grows w w' a n i : api_grows w w' -> announced_to w a n i -> announced_to w' a n i.
Proof. intros G (s & o & A & I & X). destruct (G a s A) as (s' & A' & G'). exists s', o. split; [exact A'|]. split; [eapply grows_in; eassumption|exact X]. Qed.
(** the table follows the log *)
Definition follows_log (w w' : world) : Prop :=
  api_grows w w' /\ exists l, w_log w' = w_log w ++ l /\ (forall i, lookup (w_devs w') i = told i (lookup (w_devs w) i) l) /\
  forall a n i, In (WEffect a (EJoin n i)) l -> announced_to w' a n i.
Lemma told_app i x l1 l2 : told i x (l1 ++ l2) = told i (told i x l1) l2.
Proof. apply fold_left_app. Qed.
Lemma told_none i x l : Forall unrelated l -> told i x l = x.
Proof. induction 1 as [|o l [U1 U2] _ IH]; [reflexivity|]. unfold told. cbn [fold_left]. destruct o; try exact IH; [destruct (U2 _ _ eq_refl)|destruct (U1 _ _ eq_refl)]. Qed.
Lemma follows_trans u v w : follows_log u v -> follows_log v w -> follows_log u w.
Proof.
  intros (G1 & l1 & L1 & D1 & A1) (G2 & l2 & L2 & D2 & A2). split; [eapply api_grows_trans; eassumption|]. exists (l1 ++ l2).
  split; [rewrite L2, L1, app_assoc; reflexivity|]. split; [intro i; rewrite D2, D1, told_app; reflexivity|].
  intros a n i X. apply in_app_or in X. destruct X as [X|X]; [eapply announced_grows; [exact G2|auto]|auto].
Qed.
Lemma follows_same w w' : api_grows w w' -> w_devs w' = w_devs w -> w_log w' = w_log w -> follows_log w w'.
Proof. intros G D L. split; [exact G|]. exists []. rewrite app_nil_r, D. split; [exact L|]. split; [reflexivity|intros a n i []]. Qed.
Lemma follows_aside w w' : api_grows w w' -> aside w w' -> follows_log w w'.
Proof.
  intros G (D & l & L & F). split; [exact G|]. exists l. split; [exact L|]. split; [intro i; rewrite D, told_none by exact F; reflexivity|].
  intros a n i X. rewrite Forall_forall in F. destruct (F _ X) as [U _]. destruct (U _ _ eq_refl).
Qed.
(** the effects of one message *)
Lemma effect_world a e w : w_devs (world_effect a w e) = w_devs w /\ w_log (world_effect a w e) = w_log w ++ [WEffect a e] /\ api_grows w (world_effect a w e).
Proof.
  unfold world_effect. assert (B : api_grows w (wnote (WEffect a e) w)) by (apply api_grows_same; reflexivity).
  destruct e; try (split; [reflexivity|split; [reflexivity|exact B]]). change (y_cur (w_life (wnote (WEffect a (ELed mode)) w))) with (y_cur (w_life w)).
  destruct (y_cur (w_life w)) as [c|]; [|split; [reflexivity|split; [reflexivity|exact B]]].
  destruct (aside_api c (spawn (JCommand UTIL "ledControl" (led_payload mode) [0])) (wnote (WEffect a (ELed mode)) w)) as [D _].
  split; [exact D|]. split; [unfold on_api; destruct (nth_error _ c); reflexivity|].
  eapply api_grows_trans; [exact B|]. apply api_grows_on. intros s _. exists [OCalled (s_ntid s)]. reflexivity.
Qed.
Lemma effects_world a effs : forall w, let w' := fold_left (world_effect a) effs w in
  w_devs w' = w_devs w /\ w_log w' = w_log w ++ map (WEffect a) effs /\ api_grows w w'.
Proof.
  induction effs as [|e l IH]; intro w; cbn [fold_left map]; cbv zeta; [rewrite app_nil_r; split; [reflexivity|split; [reflexivity|apply api_grows_same; reflexivity]]|].
  destruct (effect_world a e w) as (D & L & G). destruct (IH (world_effect a w e)) as (D' & L' & G').
  split; [congruence|]. split; [rewrite L', L, <- app_assoc; reflexivity|eapply api_grows_trans; eassumption].
Qed.
Lemma told_effects a effs : forall devs i, told i (lookup devs i) (map (WEffect a) effs) = lookup (join_all devs (joins effs)) i.
Proof.
  induction effs as [|e l IH]; intros devs i; [reflexivity|]. unfold told. cbn [map fold_left]. fold (told i (told_step i (lookup devs i) (WEffect a e)) (map (WEffect a) l)).
  destruct e as [n j| |]; try apply IH.
  change (joins (EJoin n j :: l)) with ((n, j) :: joins l). change (join_all devs ((n, j) :: joins l)) with (join_all (join devs n j) (joins l)).
  rewrite <- IH, lookup_join. cbn [told_step]. unfold ieee_eqb. destruct (list_eq_dec Z.eq_dec j i); reflexivity.
Qed.
Lemma join_announced v devs o n i : In (EJoin n i) (snd (fst (handle_znp v devs o))) -> announces o n i.
Proof.
  unfold handle_znp. destruct (ct_eqb_spec (z_type o) AREQ) as [T|T]; cbn [negb]; [|intros []]. destruct (to_unpi_frame o) as [f|]; [|intros []].
  assert (No : forall devs o nwk ieee, ~ In (EJoin n i) (fst (handle_rest v devs o f nwk ieee))).
  { intros d p nwk ieee X. pose proof (rest_joins v d p f nwk ieee) as J. assert (Y : In (n, i) (joins (fst (handle_rest v d p f nwk ieee)))) by (apply in_flat_map; exists (EJoin n i); split; [exact X|left; reflexivity]).
    rewrite J in Y. exact Y. }
  destruct (sub_eqb_spec (z_sub o) ZDO) as [S|S]; cbn [andb].
  - destruct (String.eqb_spec (z_cmd o) "endDeviceAnnceInd") as [C|C].
    + unfold get_int. destruct (dict_get (z_payload o) "nwkaddr") as [[m| | | |]|] eqn:N; try (intros []).
      destruct (dict_get (z_payload o) "ieeeaddr") as [[| |j| |]|] eqn:I; try (intros []).
      specialize (No (join devs m j) (with_seq o (Some 0)) (Some (VInt m)) (Some (VEui j))). destruct (handle_rest _ _ _ _ _ _) as [effs r]. cbn [fst snd] in *.
      intros [[= -> ->]|X]; [repeat split; assumption|contradiction].
    + specialize (No devs o (dict_get (z_payload o) "srcaddr") (dict_get (z_payload o) "ieeeaddr")). destruct (handle_rest _ _ _ _ _ _) as [effs r]. cbn [fst snd] in *. contradiction.
  - specialize (No devs o (dict_get (z_payload o) "srcaddr") (dict_get (z_payload o) "ieeeaddr")). destruct (handle_rest _ _ _ _ _ _) as [effs r]. cbn [fst snd] in *. contradiction.
Qed.
Lemma received_follows w a f : follows_log w (fst (world_received a w f)).
Proof.
  unfold world_received. destruct (nth_error (w_apis w) a) as [s|] eqn:A; [|apply follows_same; [apply api_grows_same|..]; reflexivity].
  destruct (from_unpi_frame f) as [o|e]; [|apply follows_same; [apply api_grows_same|..]; reflexivity]. cbv zeta.
  destruct (dispatch_spec o (s_waiters (note (OReceived o) s)) (note (OReceived o) s)) as (pre & post & o' & r & _ & -> & St).
  set (s1 := completes _ _ _).
  assert (L1 : s_log s1 = s_log s ++ OReceived o :: map (fun x => OCompleted (w_id x) o) (filter (hit o) pre)).
  { unfold s1. rewrite completes_nf. unfold note. fld. rewrite <- app_assoc. reflexivity. }
  assert (P : follows_log w (on_api a (fun _ => s1) w)).
  { apply follows_aside; [|apply aside_api]. apply api_grows_on. intros s0 A0. rewrite A in A0. injection A0 as <-. rewrite L1. apply grows_app. }
  destruct r as [u|e]; [|exact P]. destruct (s_app s1); [|exact P]. cbn [fst].
  eapply follows_trans; [exact P|]. clear P. set (v := on_api a (fun _ => s1) w).
  assert (V : nth_error (w_apis v) a = Some s1) by (unfold v, on_api; rewrite A; wfld; rewrite nth_set, Nat.eqb_refl, A; reflexivity).
  unfold world_handle. pose proof (handle_table (w_version v) (w_devs v) o') as T. pose proof (join_announced (w_version v) (w_devs v) o') as Jo.
  destruct (handle_znp _ _ o') as [[devs effs] x]. cbn [fst snd] in *. destruct (effects_world a effs (set_wdevs devs v)) as (D & L & G).
  split; [exact G|]. exists (map (WEffect a) effs). split; [exact L|]. split; [intro i; rewrite D, told_effects, <- T; reflexivity|].
  intros b n i X. apply in_map_iff in X. destruct X as (y & [= <- ->] & X). eapply announced_grows; [exact G|].
  exists s1, o. split; [exact V|]. split; [rewrite L1; apply in_or_app; right; left; reflexivity|].
  specialize (Jo n i X). inversion St; subst; exact Jo.
Qed.
Lemma gw_follows a data : forall b w, follows_log w (snd (fst (gw_data_received (world_received a) b w data))).
Proof.
  induction data as [|x data IH]; intros b w; cbn [gw_data_received]; [apply follows_same; [apply api_grows_same|..]; reflexivity|].
  destruct (parser_write b x) as [b1 [[f|]|e]]; [|apply IH|apply follows_same; [apply api_grows_same|..]; reflexivity].
  pose proof (received_follows w a f) as P. destruct (world_received a w f) as [w1 [u|e]]; cbn [fst] in P; [|exact P].
  eapply follows_trans; [exact P|apply IH].
Qed.
Lemma receive_follows a data w : follows_log w (world_receive a data w).
Proof.
  unfold world_receive. destruct (nth_error (w_apis w) a) as [s|]; [|apply follows_same; [apply api_grows_same|..]; reflexivity].
  pose proof (gw_follows a data (s_buf s) w) as P. destruct (gw_data_received (world_received a) (s_buf s) w data) as [[b w1] r]. cbn [fst snd] in P.
  assert (Q : follows_log w (on_api a (set_buf b) w1)).
  { eapply follows_trans; [exact P|]. apply follows_aside; [|apply aside_api]. apply api_grows_on. intros. apply grows_refl. }
  destruct r; [exact Q|]. eapply follows_trans; [exact Q|]. apply follows_aside; [apply api_grows_same; reflexivity|apply aside_note; unrel].
Qed.

(** ** every step *)
Lemma grows_ps w w' : wprims w w' -> Good w -> Linked w -> api_grows w w'.
Proof.
  induction 1 as [w|u v w H1 H2 IH]; intros G L; [apply api_grows_same; reflexivity|].
  eapply api_grows_trans; [|apply IH; [eapply good_p|eapply linked_p]; eassumption].
  intros a s A. destruct (ext_p u v G H1 L a s A) as (s' & A' & X). exists s'. split; [exact A'|apply log_xs, X].
Qed.
Lemma step_follows e w : wreachable w -> follows_log w (world_step e w).
Proof.
  intro R. assert (G : api_grows w (world_step e w)) by (apply grows_ps; [apply world_step_p, wreach_good, R|apply wreach_good, R|apply (L_linked w (wreach_all w R))]).
  assert (X : (forall a d, e <> VReceive a d) -> (forall t i n, e <> VGotDevice t i n) -> follows_log w (world_step e w)) by (intros; apply follows_aside; [exact G|apply aside_step; assumption]).
  destruct e; try (apply X; discriminate); cbn [world_step] in *; [apply receive_follows|].
  destruct (starting w t); [|apply follows_same; [exact G|reflexivity..]]. split; [exact G|]. exists [WAdded ieee nwk]. split; [reflexivity|]. split.
  - intro i. unfold got_device. wfld. rewrite lookup_join. unfold told, ieee_eqb. cbn [fold_left told_step]. destruct (list_eq_dec Z.eq_dec ieee i); reflexivity.
  - intros a n i [X1|[]]. discriminate.
Qed.
Lemma run_follows devs es : follows_log (world_init devs) (world_run es (world_init devs)).
Proof.
  induction es as [|e es IH] using rev_ind; [apply follows_same; [apply api_grows_same|..]; reflexivity|].
  rewrite world_run_snoc. eapply follows_trans; [exact IH|]. apply step_follows. exists devs, es. reflexivity.
Qed.
Lemma table_told devs es i : lookup (w_devs (world_run es (world_init devs))) i = told i (lookup devs i) (w_log (world_run es (world_init devs))).
Proof. destruct (run_follows devs es) as (_ & l & L & D & _). rewrite D, L. reflexivity. Qed.
Lemma joins_announced w a n i : wreachable w -> In (WEffect a (EJoin n i)) (w_log w) -> announced_to w a n i.
Proof. intros (devs & es & ->) X. destruct (run_follows devs es) as (_ & l & L & _ & A). apply A. rewrite L in X. exact X. Qed.
