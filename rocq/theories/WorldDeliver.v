(** * WorldDeliver: traffic is handed to zigpy completely, once and in order, across losses of the connection *)
From Coq Require Import ZifyBool ZifyNat.
From Verif Require Import Base Types Uart Buffalo CmdTable Zpi Api App Machine Life World SpecWire SpecCodec SpecApi SpecMachine SpecTrace SpecFirst SpecBlame SpecWorld SpecWorldBlame SpecMatch SpecWaiters
  UartProofs CodecProofs CodecProofs2 ApiProofs AppProofs AppProofs2 MachineBase MachineInv MachineInv2 MachineInv3 MachineInv4 MachineInv5 DispatchProofs MachineProofs MachineProofs2
  MachineProofs3 MachineProofs4 MachineProofs6 MachineProofs11 MachineProofs12 MachineFair MachineFirst MachineBlame MachineProgress LifeProofs2 WorldInv WorldFace WorldBase
  WorldProofs WorldLife WorldOps WorldOwn WorldProgress2 WorldProofs2 WorldProofs4 WorldProofs5 WholeHost LinkBlame LinkBlame2 WorldBlame WorldBlame2 MatchProofs MachineWaiters WorldWaiters
  SpecDeliver DeliverProofs SpecWorldDeliver.

(** ** what does not come from bytes *)
Definition still (a : nat) (w w' : world) : Prop := forall s, nth_error (w_apis w) a = Some s ->
  exists s', nth_error (w_apis w') a = Some s' /\ got (s_log s') = got (s_log s) /\ s_buf s' = s_buf s /\ (s_app s = true -> s_app s' = true).
Lemma still_same a w w' : w_apis w' = w_apis w -> still a w w'.
Proof. intros E s H. exists s. rewrite E. repeat split; auto. Qed.
Lemma still_refl a w : still a w w.
Proof. apply still_same. reflexivity. Qed.
Lemma still_trans a u v w : still a u v -> still a v w -> still a u w.
Proof.
  intros H1 H2 s H. destruct (H1 s H) as (s1 & N1 & G1 & B1 & A1). destruct (H2 s1 N1) as (s2 & N2 & G2 & B2 & A2). exists s2.
  repeat split; try congruence; auto.
Qed.
Lemma quiet_got s s' : quiet s s' -> got (s_log s') = got (s_log s) /\ s_buf s' = s_buf s /\ (s_app s = true -> s_app s' = true).
Proof.
  intros [_ _ Qa _ Qb (l & El & Fl)]. rewrite El, got_app, (proj1 (silent_nothing l Fl)), app_nil_r. repeat split; [exact Qb|congruence].
Qed.
Lemma still_on a b f w : (forall s, quiet s (f s)) -> still a w (on_api b f w).
Proof.
  intros Q s H. unfold on_api. destruct (nth_error (w_apis w) b) as [x|] eqn:B; [|exact (still_refl a w s H)].
  wfld. rewrite nth_set. destruct (Nat.eqb_spec a b) as [->|]; [|exact (still_refl a w s H)]. rewrite H. rewrite B in H. injection H as ->.
  eexists. split; [reflexivity|]. apply quiet_got, Q.
Qed.
Lemma quiet_call_raw o i s : quiet s (call_raw o i s).
Proof. unfold call_raw. cbv zeta. eapply quiet_trans; [|apply quiet_acquire_lock]. apply quiet_noted; [exact I|]. quiet_same. Qed.
Lemma still_goto a n p w : still a w (op_goto n p w).
Proof. unfold op_goto. destruct (the_op w n); apply still_same; reflexivity. Qed.
Lemma still_slot a q d w : still a w (slot_change q d w).
Proof. unfold slot_change. destruct (nth_error _ q); apply still_same; reflexivity. Qed.
Lemma still_note a o w : still a w (wnote o w).
Proof. apply still_same. reflexivity. Qed.
Lemma still_end a n r w : still a w (op_end n r w).
Proof. unfold op_end. eapply still_trans; [apply still_goto|apply still_note]. Qed.
Lemma still_leave a n q r w : still a w (op_leave n q r w).
Proof. unfold op_leave. eapply still_trans; [apply still_slot|apply still_end]. Qed.
Lemma still_after c n w : still c w (op_after n w).
Proof.
  unfold op_after. destruct (the_op w n) as [o|]; [|apply still_refl]. destruct (op_at o) as [| |q a t| |]; try apply still_refl.
  destruct (nth_error (w_apis w) a) as [s|]; [|apply still_refl]. destruct (get s t) as [k|]; [|apply still_refl].
  destruct (t_phase k) as [| | | | | | | | | |r]; try apply still_refl. destruct r; try apply still_leave. destruct (settles _); [apply still_goto|apply still_leave].
Qed.
Lemma still_afters c w : still c w (ops_after w).
Proof.
  unfold ops_after. generalize (seq 0 (length (w_ops w))). intro l. revert w. induction l as [|n l IH]; intro w; [apply still_refl|].
  cbn [fold_left]. eapply still_trans; [apply still_after|apply IH].
Qed.
Lemma still_admitted c n q w : still c w (op_admitted n q w).
Proof.
  unfold op_admitted. destruct (the_op w n) as [o|]; [|apply still_end]. destruct (y_cur _) as [a|]; [|apply still_end].
  destruct (nth_error _ a) as [s|]; [|apply still_refl]. destruct (op_obj o); [|apply still_refl].
  eapply still_trans; [|apply still_after]. eapply still_trans; [|apply still_goto]. eapply still_trans; [|apply still_on; intro; apply quiet_call_raw].
  eapply still_trans; [apply still_slot|apply still_note].
Qed.
Lemma still_semaphore c n w : still c w (op_semaphore n w).
Proof.
  unfold op_semaphore. destruct (w_sem w) as [q|]; [|apply still_end]. unfold op_acquire. destruct (nth_error _ q) as [v|]; [|apply still_refl].
  destruct (0 <? v); [apply still_admitted|apply still_goto].
Qed.
Lemma still_begin c n o w : still c w (op_begin n o w).
Proof.
  unfold op_begin. destruct (build _) as [obj|e]; [|apply still_end].
  assert (P : forall x v, still c v (put_op n x v)) by (intros; apply still_same; reflexivity).
  destruct (wants_waiter _) as [sq|]; [|eapply still_trans; [apply P|apply still_semaphore]].
  destruct (y_cur _) as [a|]; [|apply still_end]. destruct (nth_error _ a) as [s|]; [|apply still_refl].
  destruct (create_response_waiter obj (Some sq)) as [[[m q]|]|e]; [| |apply still_end].
  - eapply still_trans; [|apply still_semaphore]. eapply still_trans; [|apply P]. eapply still_trans; [apply still_on; intro; apply quiet_wait_for|apply still_note].
  - eapply still_trans; [apply P|apply still_semaphore].
Qed.
Lemma still_run c n w : still c w (op_run n w).
Proof.
  unfold op_run. destruct (the_op w n) as [o|]; [|apply still_refl]. destruct (op_at o) as [|q|q a t|q u|r]; try apply still_refl.
  - apply still_begin.
  - destruct (nth_error _ q) as [v|]; [|apply still_refl]. destruct (0 <? v); [apply still_admitted|apply still_refl].
  - destruct (u <=? _); [apply still_leave|apply still_refl].
Qed.
Lemma still_cancel c n w : still c w (op_cancel n w).
Proof.
  unfold op_cancel. destruct (the_op w n) as [o|]; [|apply still_refl]. destruct (op_at o) as [|q|q a t|q u|r]; try apply still_refl; try apply still_end.
  - eapply still_trans; [apply still_on; intro; apply quiet_cancel|apply still_after].
  - apply still_leave.
Qed.
Lemma still_life c e w : Good w -> Linked w -> still c w (life_event_happens e w).
Proof.
  intros _ ((les & El) & Len & F) s H. unfold life_event_happens. wfld. rewrite sync_nth.
  assert (B : book (w_life w)) by (rewrite El; apply book_run). 
  destruct (nth_error (y_apis (w_life w)) c) as [x|] eqn:X; [|exfalso; apply nth_error_None in X; apply nth_lt in H; lia].
  destruct (moves_step e _ B c x X) as (y & -> & M). rewrite H. eexists. split; [reflexivity|]. pose proof (F c x s X H) as Fa. unfold face in Fa. injection Fa as _ Fa _.
  repeat split. intro S. unfold flags. fld. destruct M as [->|[(-> & g & ->)| ->]]; cbn [a_app]; congruence.
Qed.
Lemma still_step c e w : Good w -> Linked w -> (forall a d, e <> VReceive a d) -> still c w (world_step e w).
Proof.
  intros G L N1. destruct e; cbn [world_step]; try apply still_run; try apply still_cancel.
  - destruct (uses_sem j); [|apply still_refl]. apply still_same; reflexivity.
  - destruct (uses_sem j); [apply still_refl|apply still_on; intro; apply quiet_spawn].
  - eapply still_trans; [apply still_on; intro; apply quiet_resume|apply still_afters].
  - eapply still_trans; [apply still_on; intro; apply quiet_timeout|apply still_afters].
  - eapply still_trans; [apply still_on; intro; apply quiet_cancel|apply still_afters].
  - apply still_on; intro; apply quiet_cleanup.
  - destruct (N1 _ _ eq_refl).
  - destruct (0 <=? ms); [|apply still_refl]. intros s H. wfld. rewrite nth_map, H. eexists. split; [reflexivity|]. repeat split; auto.
  - apply still_life; assumption.
  - destruct (starting w t); [|apply still_refl]. apply still_same; reflexivity.
  - destruct (starting w t); [|apply still_refl]. apply still_same; reflexivity.
Qed.

(** ** histories *)
Inductive servedL (a : nat) (A : zpi -> Z -> Prop) (L : zpi -> Prop) : devices -> list zpi -> list wobs -> Prop :=
| SL_nil d : servedL a A L d [] []
| SL_other d x os l : (forall e, x <> WEffect a e) -> servedL a A L (updated d x) os l -> servedL a A L d os (x :: l)
| SL_message d o q es os l : handed o q d es \/ (es = [] /\ L o) -> (forall b, q = Some b -> A o b) ->
    servedL a A L (fold_left updated (map (WEffect a) es) d) os l -> servedL a A L d (o :: os) (map (WEffect a) es ++ l).
Lemma sl_app a A L d os1 l1 : servedL a A L d os1 l1 -> forall os2 l2, servedL a A L (fold_left updated l1 d) os2 l2 -> servedL a A L d (os1 ++ os2) (l1 ++ l2).
Proof.
  induction 1 as [d|d x os l N _ IH|d o q es os l Hh Ha _ IH]; intros os2 l2 H2; cbn [app fold_left] in *.
  - exact H2.
  - apply SL_other; [exact N|]. apply IH, H2.
  - rewrite <- app_assoc. eapply SL_message; [exact Hh|exact Ha|]. apply IH. rewrite fold_left_app in H2. exact H2.
Qed.
Lemma sl_mono a (A B : zpi -> Z -> Prop) (L M : zpi -> Prop) d os l : (forall o b, A o b -> B o b) -> (forall o, L o -> M o) -> servedL a A L d os l -> servedL a B M d os l.
Proof.
  intros H1 H2. induction 1 as [d|d x os l N _ IH|d o q es os l Hh Ha _ IH]; [constructor|apply SL_other; assumption|].
  eapply SL_message; [|intros b Hb; apply H1, Ha, Hb|exact IH]. destruct Hh as [Hh|[He Hl]]; [left; exact Hh|right; split; [exact He|apply H2, Hl]].
Qed.
Lemma sl_plain a A L d os l : servedL a A L d os l -> (forall o, In o os -> ~ L o) -> served a A d os l.
Proof.
  induction 1 as [d|d x os l N _ IH|d o q es os l Hh Ha _ IH]; intro F; [constructor|apply SV_other; auto|].
  eapply SV_message; [|exact Ha|apply IH; intros; apply F; right; assumption]. destruct Hh as [Hh|[_ Hl]]; [exact Hh|]. exfalso. eapply F; [left; reflexivity|exact Hl].
Qed.
Lemma sl_others a A L l : (forall e, ~ In (WEffect a e) l) -> forall d, servedL a A L d [] l.
Proof.
  induction l as [|x l IH]; intros N d; [constructor|]. apply SL_other; [intros e ->; apply (N e); left; reflexivity|]. apply IH. intros e C. apply (N e). right. exact C.
Qed.
Lemma news_app l m : news (l ++ m) = news l ++ news m.
Proof. apply filter_app. Qed.
Lemma news_effects b es : news (map (WEffect b) es) = map (WEffect b) (traffic es).
Proof. induction es as [|e es IH]; [reflexivity|]. destruct e; cbn [map news filter traffic]; fold (news (map (WEffect b) es)); fold (traffic es); rewrite IH; reflexivity. Qed.
Lemma updated_effects b es : forall d, fold_left updated (map (WEffect b) es) d = after d es.
Proof. induction es as [|e es IH]; intro d; [reflexivity|]. cbn [map fold_left]. rewrite IH. destruct e; reflexivity. Qed.
Lemma news_unrelated l : Forall unrelated l -> news l = [].
Proof. induction 1 as [|x l [U1 U2] _ IH]; [reflexivity|]. destruct x; cbn [news filter]; try exact IH; [destruct (U2 _ _ eq_refl)|destruct (U1 _ _ eq_refl)]. Qed.

Record Sv (a : nat) (A : zpi -> Z -> Prop) (L : zpi -> Prop) (w w' : world) (os : list zpi) (l : list wobs) : Prop := mk_Sv {
  sv_log : w_log w' = w_log w ++ l;
  sv_devs : w_devs w' = fold_left updated (news l) (w_devs w);
  sv_served : servedL a A L (w_devs w) os (news l);
  sv_api : forall s, nth_error (w_apis w) a = Some s -> exists s', nth_error (w_apis w') a = Some s' /\ got (s_log s') = got (s_log s) ++ os /\ (s_app s = true -> s_app s' = true);
  sv_version : w_version w <> None -> w_version w' <> None }.
Lemma sv_trans a A L u v w os1 l1 os2 l2 : Sv a A L u v os1 l1 -> Sv a A L v w os2 l2 -> Sv a A L u w (os1 ++ os2) (l1 ++ l2).
Proof.
  intros [G1 D1 S1 P1 V1] [G2 D2 S2 P2 V2]. constructor.
  - rewrite G2, G1, app_assoc. reflexivity.
  - rewrite D2, D1, news_app, fold_left_app. reflexivity.
  - rewrite news_app. apply sl_app; [exact S1|]. rewrite <- D1. exact S2.
  - intros s H. destruct (P1 s H) as (s1 & N1 & E1 & A1). destruct (P2 s1 N1) as (s2 & N2 & E2 & A2). exists s2. rewrite E2, E1, app_assoc. auto.
  - auto.
Qed.
Lemma sv_mono a (A B : zpi -> Z -> Prop) (L M : zpi -> Prop) w w' os l : (forall o b, A o b -> B o b) -> (forall o, L o -> M o) -> Sv a A L w w' os l -> Sv a B M w w' os l.
Proof. intros H1 H2 [G D S P V]. constructor; try assumption. eapply sl_mono; eassumption. Qed.
Lemma sv_still a A L w w' : still a w w' -> aside w w' -> (w_version w <> None -> w_version w' <> None) -> exists l, Sv a A L w w' [] l.
Proof.
  intros S (D & l & El & F) V. exists l. pose proof (news_unrelated l F) as N. constructor; [exact El|rewrite N; exact D|rewrite N; constructor| |exact V].
  intros s H. destruct (S s H) as (s' & N' & G & _ & A'). exists s'. rewrite app_nil_r. auto.
Qed.

(** ** effects *)
Definition calm_apis (a : nat) (w w' : world) : Prop := forall s, nth_error (w_apis w) a = Some s ->
  exists s', nth_error (w_apis w') a = Some s' /\ quiet s s' /\ s_waiters s' = s_waiters s.
Lemma calm_refl a w : calm_apis a w w.
Proof. intros s H. exists s. split; [exact H|]. split; [apply quiet_refl|reflexivity]. Qed.
Lemma calm_effect a b e w : calm_apis a w (world_effect b w e).
Proof.
  unfold world_effect. assert (R : calm_apis a w (wnote (WEffect b e) w)) by apply (calm_refl a w). cbv zeta. destruct e; try exact R.
  destruct (y_cur (w_life (wnote (WEffect b (ELed mode)) w))) as [c|]; [|exact R]. intros s H. unfold on_api. wfld.
  destruct (nth_error (w_apis w) c) as [x|] eqn:C; [|exact (calm_refl a w s H)]. wfld. rewrite nth_set. destruct (Nat.eqb_spec a c) as [->|]; [|exact (calm_refl a w s H)].
  rewrite H. rewrite C in H. injection H as ->. eexists. split; [reflexivity|]. split; [apply quiet_spawn|reflexivity].
Qed.
Lemma calm_effects a b es : forall w, calm_apis a w (fold_left (world_effect b) es w) /\ w_version (fold_left (world_effect b) es w) = w_version w.
Proof.
  induction es as [|e es IH]; intro w; cbn [fold_left]; [split; [apply calm_refl|reflexivity]|]. destruct (IH (world_effect b w e)) as [C V]. split.
  - intros s H. destruct (calm_effect a b e w s H) as (s1 & N1 & Q1 & W1). destruct (C s1 N1) as (s2 & N2 & Q2 & W2). exists s2.
    split; [exact N2|]. split; [eapply quiet_trans; eassumption|congruence].
  - rewrite V. unfold world_effect. destruct e; try reflexivity. destruct (y_cur _) as [c|]; [|reflexivity]. unfold on_api. destruct (nth_error _ c); reflexivity.
Qed.

(** ** one message *)
Definition Fine (A : zpi -> Z -> Prop) (L : zpi -> Prop) (x : waiter) : Prop :=
  (forall o q, hit o x = true -> w_seq x = Some q -> q <> 0 -> A o q) /\
  (forall f r e, bytes_ok (f_data f) -> from_unpi_frame f = Ok r -> waiter_match (w_matcher x) r = Err e -> L r).
Lemma received_sv a (A : zpi -> Z -> Prop) L w f s v : nth_error (w_apis w) a = Some s -> s_app s = true -> w_version w = Some v -> bytes_ok (f_data f) ->
  (forall x, In x (s_waiters s) -> Fine A L x) -> (forall o q, A o q -> z_sub o = ZDO /\ In (z_cmd o) (map snd addressed_requests)) ->
  let x := world_received a w f in exists os l, Sv a A L w (fst x) os l /\
    (exists s', nth_error (w_apis (fst x)) a = Some s' /\ incl (s_waiters s') (s_waiters s) /\ s_buf s' = s_buf s) /\
    w_version (fst x) = Some v /\ (forall e, ~ In (WRaised a e) l) /\ (snd x = Ok tt -> exists o, from_unpi_frame f = Ok o /\ os = [o]).
Proof.
  intros N Ap V Hok HF HA. cbv zeta. unfold world_received. rewrite N.
  assert (NoR : forall es e, ~ In (WRaised a e) (map (WEffect a) es)) by (intros es e C; apply in_map_iff in C as (y & C & _); discriminate C).
  destruct (from_unpi_frame f) as [o|e] eqn:Hf.
  2: { exists [], []. cbn [fst snd]. split; [|split; [exists s; split; [exact N|]; split; [apply incl_refl|reflexivity]|split; [exact V|split; [intros ? []|discriminate]]]].
       constructor; rewrite ?app_nil_r; try reflexivity; [constructor| |congruence]. intros s0 H0. exists s0. rewrite app_nil_r. auto. }
  destruct (dispatch_spec o (s_waiters (note (OReceived o) s)) (note (OReceived o) s)) as (pre & post & o' & r & E & Ed & Hst).
  change (s_waiters (note (OReceived o) s)) with (s_waiters s) in *. cbv zeta. rewrite Ed.
  set (s1 := completes (filter (hit o) pre) o (note (OReceived o) s)) in *.
  set (cs := map (fun w => OCompleted (w_id w) o) (filter (hit o) pre)).
  assert (Hcs : Forall (fun x => exists i, x = OCompleted i o) cs).
  { apply Forall_forall. intros x Hx. apply in_map_iff in Hx as (y & <- & _). eauto. }
  assert (L1 : s_log s1 = s_log s ++ OReceived o :: cs) by (unfold s1; rewrite completes_nf; unfold note; fld; rewrite <- app_assoc; reflexivity).
  assert (A1 : s_app s1 = true) by (unfold s1; rewrite completes_nf; exact Ap).
  assert (B1 : s_buf s1 = s_buf s) by (unfold s1; rewrite completes_nf; reflexivity).
  assert (W1 : incl (s_waiters s1) (s_waiters s)).
  { unfold s1. rewrite completes_nf. fld. intros x Hx. apply filter_In in Hx. apply Hx. }
  assert (M1 : got (s_log s1) = got (s_log s) ++ [o]) by (rewrite L1, got_app; f_equal; cbn [got flat_map app]; fold (got cs); rewrite (proj1 (completed_nothing o cs Hcs)); reflexivity).
  set (w1 := on_api a (fun _ => s1) w).
  assert (X : nth_error (w_apis w1) a = Some s1) by (unfold w1, on_api; rewrite N; wfld; rewrite nth_set, Nat.eqb_refl, N; reflexivity).
  assert (Y : w_log w1 = w_log w /\ w_devs w1 = w_devs w /\ w_version w1 = w_version w) by (unfold w1, on_api; rewrite N; auto).
  destruct Y as (Y1 & Y2 & Y3).
  destruct r as [[]|e].
  2: { exists [o], []. inversion Hst as [| |p y e' po Hp H1]; subst. cbn [fst snd]. split; [|split; [eauto|split; [congruence|split; [intros ? []|discriminate]]]].
       constructor; rewrite ?app_nil_r; try congruence.
       - rewrite Y2. reflexivity.
       - change (@nil wobs) with (map (WEffect a) [] ++ []). apply (SL_message a A L (w_devs w) _ None []); [|discriminate|constructor]. right. split; [reflexivity|].
         apply (proj2 (HF y ltac:(rewrite E; apply in_or_app; right; left; reflexivity)) f o' e Hok Hf H1).
       - intros s0 H0. rewrite N in H0. injection H0 as <-. exists s1. auto. }
  rewrite A1. unfold world_handle.
  assert (Hq : exists q, o' = with_seq o q /\ forall b, q = Some b -> A o b).
  { inversion Hst as [p Hp|p y q po Hp H1 H2 H3|]; subst.
    - exists None. split; [|discriminate]. destruct (decoded_inv f o' Hok Hf) as (xs & c & ps & n & pl & _ & _ & _ & _ & Er & _ & _). rewrite Er. reflexivity.
    - exists (Some q). split; [reflexivity|]. intros b [= <-]. apply (proj1 (HF y ltac:(rewrite E; apply in_or_app; left; apply in_or_app; right; left; reflexivity)) o q H1 H2 H3). }
  destruct Hq as (q & -> & Hq). rewrite Y2, Y3, V. pose proof (handle_table (Some v) (w_devs w) (with_seq o q)) as Ht.
  assert (Hs : handed o q (w_devs w) (traffic (snd (fst (handle_znp (Some v) (w_devs w) (with_seq o q)))))).
  { apply handle_handed with (f := f); [exact Hok|exact Hf|]. intros b Hb. apply (HA o b), Hq, Hb. }
  destruct (handle_znp (Some v) (w_devs w) (with_seq o q)) as [[d es] r]. cbn [fst snd] in *. subst d.
  set (w2 := set_wdevs (join_all (w_devs w) (joins es)) w1).
  destruct (effects_world a es w2) as (Ed2 & El2 & _). destruct (calm_effects a a es w2) as [C2 V2].
  destruct (C2 s1 X) as (s2 & N2 & Q2 & W2). destruct (quiet_got _ _ Q2) as (G2 & Bf2 & Ap2).
  exists [o], (map (WEffect a) es). split; [|split; [|split; [rewrite V2; unfold w2; wfld; congruence|split; [apply NoR|intros _; exists o; auto]]]].
  - constructor.
    + rewrite El2. unfold w2. wfld. congruence.
    + rewrite Ed2, news_effects, updated_effects, after_joins. reflexivity.
    + rewrite news_effects, <- (app_nil_r (map (WEffect a) (traffic es))). apply (SL_message a A L (w_devs w) o q (traffic es) [] []); [left; exact Hs|exact Hq|constructor].
    + intros s0 H0. rewrite N in H0. injection H0 as <-. exists s2. split; [exact N2|]. split; [congruence|]. intros _. apply Ap2, A1.
    + intros _. rewrite V2. unfold w2. wfld. congruence.
  - exists s2. split; [exact N2|]. split; [rewrite W2; exact W1|congruence].
Qed.
Lemma other_sv a b A L w f : b <> a -> let x := world_received b w f in exists l, Sv a A L w (fst x) [] l /\ (forall e, ~ In (WRaised a e) l) /\
  forall s, nth_error (w_apis w) a = Some s -> exists s', nth_error (w_apis (fst x)) a = Some s' /\ s_buf s' = s_buf s.
Proof.
  intro Nab. cbv zeta. unfold world_received.
  assert (Same : forall w', w_log w' = w_log w -> w_devs w' = w_devs w -> w_version w' = w_version w -> nth_error (w_apis w') a = nth_error (w_apis w) a ->
    exists l, Sv a A L w w' [] l /\ (forall e, ~ In (WRaised a e) l) /\ forall s, nth_error (w_apis w) a = Some s -> exists s', nth_error (w_apis w') a = Some s' /\ s_buf s' = s_buf s).
  { intros w' E1 E2 E3 E4. exists []. split; [|split; [intros e []|intros s H; exists s; split; [congruence|reflexivity]]]. constructor; rewrite ?app_nil_r; try congruence; [exact E2|constructor|].
    intros s H. exists s. rewrite app_nil_r. split; [congruence|auto]. }
  destruct (nth_error (w_apis w) b) as [s|] eqn:N; [|apply Same; reflexivity]. destruct (from_unpi_frame f) as [o|e]; [|apply Same; reflexivity]. cbv zeta.
  destruct (dispatch _ o _) as [[s1 o'] r]. set (w1 := on_api b (fun _ => s1) w).
  assert (Y : w_log w1 = w_log w /\ w_devs w1 = w_devs w /\ w_version w1 = w_version w /\ nth_error (w_apis w1) a = nth_error (w_apis w) a).
  { unfold w1, on_api. rewrite N. wfld. rewrite nth_set. destruct (Nat.eqb_spec a b) as [->|]; [contradiction|auto]. }
  destruct Y as (Y1 & Y2 & Y3 & Y4). destruct r as [u|e]; [|apply Same; assumption]. destruct (s_app s1); [|apply Same; assumption]. unfold world_handle.
  pose proof (handle_table (w_version w1) (w_devs w1) o') as Ht. destruct (handle_znp _ _ o') as [[d es] r]. cbn [fst snd] in *. subst d.
  set (w2 := set_wdevs (join_all (w_devs w1) (joins es)) w1).
  destruct (effects_world b es w2) as (Ed2 & El2 & _). destruct (calm_effects a b es w2) as [C2 V2].
  exists (map (WEffect b) es). split; [|split; [intros e C; apply in_map_iff in C as (y & C & _); discriminate C|]].
  - constructor.
    + rewrite El2. unfold w2. wfld. congruence.
    + rewrite Ed2, news_effects, updated_effects, after_joins, <- Y2. reflexivity.
    + rewrite news_effects. apply sl_others. intros e C. apply in_map_iff in C as (y & C & _). congruence.
    + intros s0 H0. destruct (C2 s0) as (s2 & N2 & Q2 & _); [unfold w2; wfld; congruence|]. destruct (quiet_got _ _ Q2) as (G2 & _ & A2). exists s2. rewrite app_nil_r. auto.
    + intro H. rewrite V2. unfold w2. wfld. congruence.
  - intros s0 H0. destruct (C2 s0) as (s2 & N2 & Q2 & _); [unfold w2; wfld; congruence|]. exists s2. split; [exact N2|]. apply (Q_buf _ _ Q2).
Qed.

(** ** bytes *)
Lemma gw_sv a (A : zpi -> Z -> Prop) L (HA : forall o q, A o q -> z_sub o = ZDO /\ In (z_cmd o) (map snd addressed_requests)) data : forall b w s v,
  nth_error (w_apis w) a = Some s -> s_app s = true -> w_version w = Some v -> good_buffer b -> (forall x, In x (s_waiters s) -> Fine A L x) ->
  let x := gw_data_received (world_received a) b w data in exists os l, Sv a A L w (snd (fst x)) os l /\
    (forall e, ~ In (WRaised a e) l) /\ (snd x = Ok tt -> exists fs, parser_run b data = (fst (fst x), map Ok fs) /\ map from_unpi_frame fs = map Ok os).
Proof.
  induction data as [|y data IH]; intros b w s v N Ap V Gb HF; cbn [gw_data_received parser_run]; cbv zeta.
  - exists [], []. cbn [fst snd]. split; [|split; [intros e []|intros _; exists []; auto]].
    constructor; rewrite ?app_nil_r; try reflexivity; [constructor| |congruence]. intros s0 H0. exists s0. rewrite app_nil_r. auto.
  - destruct (parser_write b y) as [b1 r] eqn:E. destruct (write_bytes b y b1 r Gb E) as [Hb1 Hf]. destruct r as [[f|]|e].
    + destruct (received_sv a A L w f s v N Ap V (Hf f eq_refl) HF HA) as (os & l & S & (s' & N' & I' & _) & V' & NR & Ok1).
      pose proof (sv_api _ _ _ _ _ _ _ S s N) as (s0 & N0 & _ & Ap').
      destruct (world_received a w f) as [w1 [[]|e]]; cbn [fst snd] in *.
      * destruct (IH b1 w1 s' v N') as (os2 & l2 & S2 & NR2 & Ok2); [assert (s0 = s') as -> by congruence; apply Ap', Ap|exact V'|exact Hb1|intros x Hx; apply HF, I', Hx|].
        destruct (gw_data_received (world_received a) b1 w1 data) as [[b2 w2] r2]. cbn [fst snd] in *.
        exists (os ++ os2), (l ++ l2). split; [eapply sv_trans; eassumption|]. split; [intros e C; apply in_app_or in C as [C|C]; [exact (NR e C)|exact (NR2 e C)]|].
        intro Hr. destruct (Ok1 eq_refl) as (o & Hfo & ->). destruct (Ok2 Hr) as (fs & Ep & Em). rewrite Ep. exists (f :: fs). split; [reflexivity|]. cbn [map app]. rewrite Hfo, Em. reflexivity.
      * exists os, l. split; [exact S|]. split; [exact NR|discriminate].
    + destruct (IH b1 w s v N Ap V Hb1 HF) as (os2 & l2 & S2 & NR2 & Ok2). destruct (gw_data_received (world_received a) b1 w data) as [[b2 w2] r2]. cbn [fst snd] in *.
      exists os2, l2. split; [exact S2|]. split; [exact NR2|]. intro Hr. destruct (Ok2 Hr) as (fs & Ep & Em). rewrite Ep. exists fs. auto.
    + exists [], []. cbn [fst snd]. split; [|split; [intros e1 []|discriminate]].
      constructor; rewrite ?app_nil_r; try reflexivity; [constructor| |congruence]. intros s0 H0. exists s0. rewrite app_nil_r. auto.
Qed.
Lemma gw_other a b A L data : b <> a -> forall bf w, let x := gw_data_received (world_received b) bf w data in exists l, Sv a A L w (snd (fst x)) [] l /\
  (forall e, ~ In (WRaised a e) l) /\ forall s, nth_error (w_apis w) a = Some s -> exists s', nth_error (w_apis (snd (fst x))) a = Some s' /\ s_buf s' = s_buf s.
Proof.
  intro Nab. induction data as [|y data IH]; intros bf w; cbn [gw_data_received]; cbv zeta.
  - exists []. split; [|split; [intros e []|intros s H; exists s; auto]]. constructor; rewrite ?app_nil_r; auto; [constructor|]. intros s0 H0. exists s0. rewrite app_nil_r. auto.
  - destruct (parser_write bf y) as [b1 [[f|]|e]]; [|apply IH|].
    + destruct (other_sv a b A L w f Nab) as (l & S & NR & B). destruct (world_received b w f) as [w1 [[]|e]]; cbn [fst snd] in *; [|exists l; auto].
      destruct (IH b1 w1) as (l2 & S2 & NR2 & B2). destruct (gw_data_received (world_received b) b1 w1 data) as [[b2 w2] r2]. cbn [fst snd] in *. exists (l ++ l2).
      split; [change (@nil zpi) with ([] ++ @nil zpi); eapply sv_trans; eassumption|]. split; [intros e C; apply in_app_or in C as [C|C]; [exact (NR e C)|exact (NR2 e C)]|].
      intros s H. destruct (B s H) as (s1 & N1 & E1). destruct (B2 s1 N1) as (s2 & N2 & E2). exists s2. split; [exact N2|congruence].
    + exists []. split; [|split; [intros e1 []|intros s H; exists s; auto]]. constructor; rewrite ?app_nil_r; auto; [constructor|]. intros s0 H0. exists s0. rewrite app_nil_r. auto.
Qed.
Lemma sv_buf a b A L x w os l w0 : Sv a A L w0 w os l -> Sv a A L w0 (on_api b (set_buf x) w) os l.
Proof.
  intros [G D S P V]. constructor; try (unfold on_api; destruct (nth_error (w_apis w) b); assumption).
  intros s H. destruct (P s H) as (s1 & N1 & E1 & A1). unfold on_api. destruct (nth_error (w_apis w) b) as [y|] eqn:B; [|eauto]. wfld. rewrite nth_set.
  destruct (Nat.eqb_spec a b) as [->|]; [|eauto]. rewrite B. rewrite B in N1. injection N1 as ->. eexists. split; [reflexivity|]. auto.
Qed.
Lemma sv_raised a b A L e w os l w0 : Sv a A L w0 w os l -> Sv a A L w0 (wnote (WRaised b e) w) os (l ++ [WRaised b e]).
Proof. intros [G D S P V]. constructor; wfld; rewrite ?news_app; cbn [news filter]; rewrite ?app_nil_r; auto. rewrite G, app_assoc. reflexivity. Qed.

(** ** where waiters come from *)
Lemma reply_response j o m q n : build j = Ok o -> reply_number j = Some n -> reply_waiter o (Some n) (Ok (Some (m, q))) -> response_waiter j o = Ok (Some (m, q)).
Proof. intros _ H R. apply reply_waiter_iff in R. destruct j; try discriminate H; cbn [reply_number response_waiter] in *; [destruct expect_reply; [|discriminate H]|]; injection H as <-; exact R. Qed.
Lemma fine_origin w a s x : wreachable w -> nth_error (w_apis w) a = Some s -> In x (s_waiters s) -> Fine (replies_to w) (lacking s) x.
Proof.
  intros R N Hx. pose proof (world_waiters w a s x R N Hx) as O. split.
  - intros o q Hh Hq Hz. destruct O as [(t & k & G & M)|(n & p & _ & Hp & _ & M)].
    + exfalso. pose proof (V_tasks _ (wreach_winv w a s R N) _ _ G) as [U _]. rewrite Hq in M. inversion M as [| | |o1 n1 m1 q1 Bd Rn Rw]; subst. destruct (t_job k); try discriminate Rn; discriminate U.
    + rewrite Hq in M. inversion M as [| | |o1 n1 m1 q1 Bd Rn Rw]; subst.
      destruct (asks_response (op_job p) o1 (w_matcher x) q Bd (reply_response _ _ _ _ _ Bd Rn Rw)) as (nwk & cluster & data & rsp & v & Ha & Hin & Hm & Hd).
      apply hit_answers in Hh. rewrite Hm in Hh. destruct Hh as (B1 & B2 & B3 & B4). cbn [m_type m_sub m_cmd m_payload] in *.
      split; [exact Hz|]. split; [congruence|]. split; [congruence|]. exists n, p, nwk, cluster, data. rewrite <- B3. repeat (split; [assumption|]).
      intro Hb. specialize (Hd Hb). subst v. inversion B4 as [|? ? (z & Ez & Vz) _]; subst. cbn [fst snd] in *.
      unfold field. rewrite Ez. f_equal. inversion Vz as [| |? ? ? K|]; subst; [congruence|inversion K].
  - intros f r e Hok Hf He. eapply raise_lacking; [exact Hok|exact Hf| |exact He].
    assert (T : forall j, makes_waiter j (w_matcher x) (w_seq x) (w_timeout x) ->
      (w_seq x = None /\ exists o to, awaited o = Some (w_matcher x, to)) \/ (w_seq x = None /\ exists to, j = JWaitFor (w_matcher x) to) \/ exists sq, wanted (w_matcher x) (w_seq x) sq).
    { intros j M. inversion M as [m1 ms Hj|o1 Bd Ty|o1 Bd Ty Rs|o1 n1 m1 q1 Bd Rn Rw]; subst.
      - right. left. split; [reflexivity|]. eauto.
      - left. split; [reflexivity|]. exists o1. unfold awaited. rewrite Ty. eauto.
      - left. split; [reflexivity|]. exists o1. unfold awaited. rewrite Ty. 
        assert (is_reset_command o1 = true) as -> by (apply is_reset, Rs). eauto.
      - right. right. eapply response_shape; [exact Bd|]. eapply reply_response; eassumption. }
    destruct O as [(t & k & G & M)|(n & p & _ & Hp & Hr & M)].
    + destruct (T _ M) as [T1|[(T1 & to & T2)|T1]]; [left; exact T1|right; left; split; [exact T1|]; exists t, k, to; auto|right; right; exact T1].
    + destruct (T _ M) as [T1|[(T1 & to & T2)|T1]]; [left; exact T1| |right; right; exact T1]. exfalso. rewrite T2 in Hr. apply Hr. reflexivity.
Qed.

(** ** runs *)
Lemma replies_addressed w o q : replies_to w o q -> z_sub o = ZDO /\ In (z_cmd o) (map snd addressed_requests).
Proof. intros (_ & _ & S & n & p & nwk & cluster & data & _ & _ & Hin & _). split; [exact S|]. change (z_cmd o) with (snd (cluster, z_cmd o)). apply in_map, Hin. Qed.
Lemma receive_sv a w s data : wreachable w -> nth_error (w_apis w) a = Some s -> s_app s = true -> w_version w <> None -> let w' := world_receive a data w in
  exists os l s', Sv a (replies_to w) (lacking s) w w' os l /\ nth_error (w_apis w') a = Some s' /\
    ((forall e, ~ In (WRaised a e) l) -> exists fs, parser_run (s_buf s) data = (s_buf s', map Ok fs) /\ map from_unpi_frame fs = map Ok os).
Proof.
  intros R N Ap V. cbv zeta. unfold world_receive. rewrite N. destruct (w_version w) as [v|] eqn:Ev; [|congruence].
  destruct (gw_sv a (replies_to w) (lacking s) (replies_addressed w) data (s_buf s) w s v N Ap Ev (proj1 (wreach_kept w R a s N)) (fun x => fine_origin w a s x R N)) as (os & l & S & NR & Hok).
  destruct (gw_data_received (world_received a) (s_buf s) w data) as [[b w1] r]. cbn [fst snd] in *.
  pose proof (sv_buf a a _ _ b _ _ _ _ S) as S1. destruct (sv_api _ _ _ _ _ _ _ S s N) as (s1 & N1 & _).
  assert (N2 : nth_error (w_apis (on_api a (set_buf b) w1)) a = Some (set_buf b s1)) by (unfold on_api; rewrite N1; wfld; rewrite nth_set, Nat.eqb_refl, N1; reflexivity).
  destruct r as [[]|e].
  - exists os, l, (set_buf b s1). split; [exact S1|]. split; [exact N2|]. intros _. apply Hok. reflexivity.
  - exists os, (l ++ [WRaised a e]), (set_buf b s1). split; [apply sv_raised, S1|]. split; [exact N2|]. intro C. exfalso. apply (C e). apply in_or_app. right. left. reflexivity.
Qed.
Lemma still_version e w : w_version w <> None -> (forall a d, e <> VReceive a d) -> w_version (world_step e w) <> None.
Proof.
  intros V NR. assert (OA : forall a f v, w_version (on_api a f v) = w_version v) by (intros; unfold on_api; destruct (nth_error _ a); reflexivity).
  assert (G : forall n p v, w_version (op_goto n p v) = w_version v) by (intros; unfold op_goto; destruct (the_op v n); reflexivity).
  assert (SC : forall q d v, w_version (slot_change q d v) = w_version v) by (intros; unfold slot_change; destruct (nth_error _ q); reflexivity).
  assert (OE : forall n r v, w_version (op_end n r v) = w_version v) by (intros; unfold op_end; wfld; apply G).
  assert (OL : forall n q r v, w_version (op_leave n q r v) = w_version v) by (intros; unfold op_leave; rewrite OE; apply SC).
  assert (AF : forall n v, w_version (op_after n v) = w_version v).
  { intros. unfold op_after. destruct (the_op v n) as [o|]; [|reflexivity]. destruct (op_at o) as [| |q a t| |]; try reflexivity.
    destruct (nth_error (w_apis v) a) as [s|]; [|reflexivity]. destruct (get s t) as [k|]; [|reflexivity]. destruct (t_phase k) as [| | | | | | | | | |r]; try reflexivity.
    destruct r; try apply OL. destruct (settles _); [apply G|apply OL]. }
  assert (AFS : forall v, w_version (ops_after v) = w_version v).
  { intros. unfold ops_after. generalize (seq 0 (length (w_ops v))). intro l. revert v. induction l as [|n l IH]; intro v; [reflexivity|]. cbn [fold_left]. rewrite IH. apply AF. }
  assert (AD : forall n q v, w_version (op_admitted n q v) = w_version v).
  { intros. unfold op_admitted. destruct (the_op v n) as [o|]; [|apply OE]. destruct (y_cur _) as [a|]; [|apply OE]. destruct (nth_error _ a) as [s|]; [|reflexivity].
    destruct (op_obj o); [|reflexivity]. rewrite AF, G, OA. wfld. apply SC. }
  assert (SE : forall n v, w_version (op_semaphore n v) = w_version v).
  { intros. unfold op_semaphore. destruct (w_sem v) as [q|]; [|apply OE]. unfold op_acquire. destruct (nth_error _ q) as [z|]; [|reflexivity]. destruct (0 <? z); [apply AD|apply G]. }
  assert (BE : forall n o v, w_version (op_begin n o v) = w_version v).
  { intros. unfold op_begin. destruct (build _) as [obj|e1]; [|apply OE]. destruct (wants_waiter _) as [sq|]; [|rewrite SE; reflexivity].
    destruct (y_cur _) as [a|]; [|apply OE]. destruct (nth_error _ a) as [s|]; [|reflexivity]. destruct (create_response_waiter obj (Some sq)) as [[[m q]|]|e1]; [| |apply OE].
    - rewrite SE. wfld. apply OA.
    - rewrite SE. reflexivity. }
  destruct e; cbn [world_step]; rewrite ?AFS, ?OA; try exact V.
  - destruct (uses_sem j); exact V.
  - unfold op_run. destruct (the_op w n) as [o|]; [|exact V]. destruct (op_at o) as [|q|q a t|q u|r]; try exact V; [rewrite BE; exact V| |].
    + destruct (nth_error _ q) as [z|]; [|exact V]. destruct (0 <? z); [rewrite AD|]; exact V.
    + destruct (u <=? _); [rewrite OL|]; exact V.
  - unfold op_cancel. destruct (the_op w n) as [o|]; [|exact V]. destruct (op_at o) as [|q|q a t|q u|r]; try exact V; rewrite ?OE, ?OL, ?AF, ?OA; exact V.
  - destruct (uses_sem j); [|rewrite OA]; exact V.
  - destruct (NR _ _ eq_refl).
  - destruct (0 <=? ms); exact V.
  - destruct (starting w t); [discriminate|exact V].
  - destruct (starting w t); exact V.
Qed.
Lemma step_sv e a w s : wreachable w -> nth_error (w_apis w) a = Some s -> s_app s = true -> w_version w <> None -> let w' := world_step e w in
  exists os l s', Sv a (replies_to w) (lacking s) w w' os l /\ nth_error (w_apis w') a = Some s' /\
    ((forall e, ~ In (WRaised a e) l) -> exists fs, parser_run (s_buf s) (arrived_at a [e]) = (s_buf s', map Ok fs) /\ map from_unpi_frame fs = map Ok os).
Proof.
  intros R N Ap V w'.
  assert (Q : (forall b d, e <> VReceive b d) -> (exists s', nth_error (w_apis w') a = Some s' /\ s_buf s' = s_buf s) -> (exists l, Sv a (replies_to w) (lacking s) w w' [] l) ->
    exists os l s', Sv a (replies_to w) (lacking s) w w' os l /\ nth_error (w_apis w') a = Some s' /\
    ((forall e, ~ In (WRaised a e) l) -> exists fs, parser_run (s_buf s) (arrived_at a [e]) = (s_buf s', map Ok fs) /\ map from_unpi_frame fs = map Ok os)).
  { intros NR (s' & N' & B') (l & S). exists [], l, s'. split; [exact S|]. split; [exact N'|]. intros _. exists [].
    assert (arrived_at a [e] = []) as -> by (destruct e; try reflexivity; destruct (NR _ _ eq_refl)). rewrite B'. auto. }
  pose proof (wreach_good w R) as G. pose proof (L_linked w (wreach_all w R)) as Li.
  assert (St : (forall b d, e <> VReceive b d) -> exists s', nth_error (w_apis w') a = Some s' /\ s_buf s' = s_buf s).
  { intro NR. destruct (still_step a e w G Li NR s N) as (s' & N' & _ & B' & _). eauto. }
  assert (K : (forall b d, e <> VReceive b d) -> (forall t i n, e <> VGotDevice t i n) -> exists os l s', Sv a (replies_to w) (lacking s) w w' os l /\ nth_error (w_apis w') a = Some s' /\
    ((forall e, ~ In (WRaised a e) l) -> exists fs, parser_run (s_buf s) (arrived_at a [e]) = (s_buf s', map Ok fs) /\ map from_unpi_frame fs = map Ok os)).
  { intros N1 N2. apply Q; [exact N1|apply St, N1|]. apply sv_still; [apply still_step; assumption|apply aside_step; assumption|]. intros _. apply still_version; assumption. }
  destruct e; try (apply K; discriminate).
  - (* bytes *) cbn [arrived_at flat_map]. rewrite app_nil_r. destruct (Nat.eqb_spec a0 a) as [->|Nab]; [subst w'; cbn [world_step]; apply receive_sv; assumption|].
    subst w'. cbn [world_step]. unfold world_receive. destruct (nth_error (w_apis w) a0) as [s0|] eqn:N0.
    + destruct (gw_other a a0 (replies_to w) (lacking s) data Nab (s_buf s0) w) as (l & S & NR & B).
      destruct (gw_data_received (world_received a0) (s_buf s0) w data) as [[b w1] r]. cbn [fst snd] in *. destruct (B s N) as (s1 & N1 & B1).
      assert (N2 : nth_error (w_apis (on_api a0 (set_buf b) w1)) a = Some s1).
      { unfold on_api. destruct (nth_error (w_apis w1) a0); [|exact N1]. wfld. rewrite nth_set. destruct (Nat.eqb_spec a a0) as [->|]; [contradiction|exact N1]. }
      pose proof (sv_buf a a0 _ _ b _ _ _ _ S) as S1. destruct r as [[]|e].
      * exists [], l, s1. split; [exact S1|]. split; [exact N2|]. intros _. exists []. rewrite B1. auto.
      * exists [], (l ++ [WRaised a0 e]), s1. split; [apply sv_raised, S1|]. split; [exact N2|]. intros _. exists []. rewrite B1. auto.
    + exists [], [], s. split; [|split; [exact N|intros _; exists []; auto]]. constructor; rewrite ?app_nil_r; auto; [constructor|]. intros s1 H1. exists s1. rewrite app_nil_r. auto.
  - (* a start-up adds the coordinator *) apply Q; [discriminate|apply St; discriminate|]. subst w'. cbn [world_step]. destruct (starting w t); [|apply sv_still; [apply still_refl|apply aside_refl|auto]].
    exists [WAdded ieee nwk]. unfold got_device. constructor; wfld; auto.
    + cbn [news filter fold_left updated]. symmetry. apply enter_join.
    + cbn [news filter]. apply SL_other; [discriminate|constructor].
    + intros s1 H1. exists s1. rewrite app_nil_r. auto.
Qed.
Lemma step_job e a w s : wreachable w -> nth_error (w_apis w) a = Some s -> exists s', nth_error (w_apis (world_step e w)) a = Some s' /\ same_job s s'.
Proof.
  intros R N. pose proof (wreach_good w R) as G. destruct (ext_ps _ _ (world_step_p e w G) G (L_linked w (wreach_all w R)) a s N) as (s' & N' & X). exists s'. split; [exact N'|apply job_xs, X].
Qed.
Lemma replies_step e w o q : wreachable w -> replies_to w o q -> replies_to (world_step e w) o q.
Proof.
  intros R (H1 & H2 & H3 & n & p & nwk & cluster & data & Hp & Ha & Hr). split; [exact H1|]. split; [exact H2|]. split; [exact H3|].
  destruct (kept_ps _ _ (world_step_p e w (wreach_good w R)) n p Hp) as (p' & Hp' & Ej). exists n, p', nwk, cluster, data. rewrite Ej. auto.
Qed.
Lemma run_sv a es : forall w s, wreachable w -> nth_error (w_apis w) a = Some s -> s_app s = true -> w_version w <> None -> let w' := world_run es w in
  exists os l s', Sv a (replies_to w') (lacking s') w w' os l /\ nth_error (w_apis w') a = Some s' /\
    (forall o q, replies_to w o q -> replies_to w' o q) /\ (forall o, lacking s o -> lacking s' o) /\
    ((forall e, ~ In (WRaised a e) l) -> exists fs, parser_run (s_buf s) (arrived_at a es) = (s_buf s', map Ok fs) /\ map from_unpi_frame fs = map Ok os).
Proof.
  induction es as [|e es IH]; intros w s R N Ap V; cbv zeta.
  - exists [], [], s. split; [|split; [exact N|split; [auto|split; [auto|intros _; exists []; auto]]]]. constructor; rewrite ?app_nil_r; auto; [constructor|]. intros s1 H1. exists s1. rewrite app_nil_r. auto.
  - destruct (step_sv e a w s R N Ap V) as (os1 & l1 & s1 & S1 & N1 & P1). destruct (step_job e a w s R N) as (s1' & N1' & J). assert (s1' = s1) as -> by congruence.
    destruct (sv_api _ _ _ _ _ _ _ S1 s N) as (s2 & N2 & _ & A2). assert (s2 = s1) as -> by congruence.
    destruct (IH (world_step e w) s1 (wreach_run w [e] R) N1 (A2 Ap) (sv_version _ _ _ _ _ _ _ S1 V)) as (os2 & l2 & s3 & S2 & N3 & M1 & M2 & P2).
    exists (os1 ++ os2), (l1 ++ l2), s3. cbn [world_run fold_left]. fold (world_run es (world_step e w)).
    assert (K1 : forall o q, replies_to w o q -> replies_to (world_run es (world_step e w)) o q) by (intros o q H; apply M1, replies_step; assumption).
    assert (K2 : forall o, lacking s o -> lacking s3 o) by (intros o H; apply M2; eapply lacking_grow; eassumption).
    split; [eapply sv_trans; [eapply sv_mono; [exact K1|exact K2|exact S1]|exact S2]|]. split; [exact N3|]. split; [exact K1|]. split; [exact K2|]. intro NR.
    destruct P1 as (f1 & E1 & F1); [intros x C; apply (NR x), in_or_app; left; exact C|]. destruct P2 as (f2 & E2 & F2); [intros x C; apply (NR x), in_or_app; right; exact C|].
    exists (f1 ++ f2). replace (arrived_at a (e :: es)) with (arrived_at a [e] ++ arrived_at a es) by (cbn [arrived_at flat_map]; rewrite app_nil_r; reflexivity).
    rewrite parser_run_app, E1, E2, !map_app, F1, F2. auto.
Qed.
Theorem world_handed w es a s : wreachable w -> nth_error (w_apis w) a = Some s -> s_app s = true -> w_version w <> None -> let w' := world_run es w in
  exists os l s', nth_error (w_apis w') a = Some s' /\ got (s_log s') = got (s_log s) ++ os /\ w_log w' = w_log w ++ l /\ s_app s' = true /\
    (fields_exist s' -> served a (replies_to w') (w_devs w) os (news l)) /\ w_devs w' = fold_left updated (news l) (w_devs w) /\
    ((forall e, ~ In (WRaised a e) l) -> exists fs, parser_run (s_buf s) (arrived_at a es) = (s_buf s', map Ok fs) /\ map from_unpi_frame fs = map Ok os).
Proof.
  intros R N Ap V w'. destruct (run_sv a es w s R N Ap V) as (os & l & s' & S & N' & _ & _ & P). fold w' in S, N'. exists os, l, s'.
  destruct (sv_api _ _ _ _ _ _ _ S s N) as (s2 & N2 & G & A'). assert (s2 = s') as -> by congruence.
  split; [exact N'|]. split; [exact G|]. split; [apply (sv_log _ _ _ _ _ _ _ S)|]. split; [apply A', Ap|]. split; [|split; [apply (sv_devs _ _ _ _ _ _ _ S)|exact P]].
  intro F. eapply sl_plain; [apply (sv_served _ _ _ _ _ _ _ S)|]. intros o Hin (t & k & m & to & Gt & Hj & Nf). apply Nf. eapply F; [exact Gt|exact Hj|].
  assert (Hg : In o (got (s_log s'))) by (rewrite G; apply in_or_app; right; exact Hin). unfold got in Hg. apply in_flat_map in Hg as (x & Hx & Hi).
  destruct x; try destruct Hi as [->|[]]; try destruct Hi. exact Hx.
Qed.

(** ** before the application listens *)
Lemma received_app b w f s : nth_error (w_apis w) b = Some s -> exists s1, nth_error (w_apis (fst (world_received b w f))) b = Some s1 /\ s_app s1 = s_app s /\
  (s_app s = false -> w_log (fst (world_received b w f)) = w_log w).
Proof.
  intro N. unfold world_received. rewrite N. destruct (from_unpi_frame f) as [o|e]; [|exists s; auto]. cbv zeta.
  destruct (dispatch_spec o (s_waiters (note (OReceived o) s)) (note (OReceived o) s)) as (pre & post & o' & r & _ & Ed & _). rewrite Ed. set (s1 := completes _ _ _).
  assert (A1 : s_app s1 = s_app s) by (unfold s1; rewrite completes_nf; reflexivity). set (w1 := on_api b (fun _ => s1) w).
  assert (X : nth_error (w_apis w1) b = Some s1) by (unfold w1, on_api; rewrite N; wfld; rewrite nth_set, Nat.eqb_refl, N; reflexivity).
  assert (Y : w_log w1 = w_log w) by (unfold w1, on_api; rewrite N; reflexivity).
  destruct r as [u|e]; [|exists s1; auto]. destruct (s_app s1) eqn:E1; [|exists s1; split; [exact X|split; [congruence|auto]]]. unfold world_handle. destruct (handle_znp _ _ o') as [[d es] r]. cbn [fst].
  destruct (calm_effects b b es (set_wdevs d w1)) as [C _]. destruct (C s1 X) as (s2 & N2 & Q2 & _). exists s2. split; [exact N2|]. split; [rewrite (Q_app _ _ Q2); congruence|congruence].
Qed.
Lemma gw_app b data : forall bf w s, nth_error (w_apis w) b = Some s -> let w1 := snd (fst (gw_data_received (world_received b) bf w data)) in
  exists s1, nth_error (w_apis w1) b = Some s1 /\ s_app s1 = s_app s /\ (s_app s = false -> w_log w1 = w_log w).
Proof.
  induction data as [|y data IH]; intros bf w s N; cbn [gw_data_received]; cbv zeta; [exists s; auto|].
  destruct (parser_write bf y) as [b1 [[f|]|e]]; [|apply IH, N|exists s; auto].
  destruct (received_app b w f s N) as (s1 & N1 & A1 & L1). destruct (world_received b w f) as [w1 [[]|e]]; cbn [fst snd] in *; [|eauto].
  destruct (IH b1 w1 s1 N1) as (s2 & N2 & A2 & L2). exists s2. split; [exact N2|]. split; [congruence|]. intro H. rewrite L2 by congruence. apply L1, H.
Qed.
Definition Attended (w : world) : Prop := forall a e, In (WEffect a e) (w_log w) -> exists s, nth_error (w_apis w) a = Some s /\ s_app s = true.
Lemma attended_still w w' : Attended w -> (forall a, still a w w') -> (exists l, w_log w' = w_log w ++ l /\ forall a e, ~ In (WEffect a e) l) -> Attended w'.
Proof.
  intros H S (l & E & N) a e Hin. rewrite E in Hin. apply in_app_or in Hin as [Hin|Hin]; [|destruct (N _ _ Hin)]. destruct (H a e Hin) as (s & N0 & A0).
  destruct (S a s N0) as (s' & N' & _ & _ & A'). eauto.
Qed.
Lemma attended_step e w : wreachable w -> Attended w -> Attended (world_step e w).
Proof.
  intros R H. pose proof (wreach_good w R) as G. pose proof (L_linked w (wreach_all w R)) as Li.
  assert (K : (forall b d, e <> VReceive b d) -> (forall t i n, e <> VGotDevice t i n) -> Attended (world_step e w)).
  { intros N1 N2. eapply attended_still; [exact H|intro a; apply still_step; assumption|]. destruct (aside_step e w N1 N2) as (_ & l & E & F). exists l. split; [exact E|].
    intros a x C. rewrite Forall_forall in F. destruct (F _ C) as [U _]. exact (U _ _ eq_refl). }
  destruct e; try (apply K; discriminate).
  - cbn [world_step]. unfold world_receive. destruct (nth_error (w_apis w) a) as [s|] eqn:N; [|exact H].
    pose proof (gw_app a data (s_buf s) w s N) as (s1 & N1 & A1 & L1).
    assert (Ot : forall b, a <> b -> exists l, Sv b (fun _ _ => True) (fun _ => True) w (snd (fst (gw_data_received (world_received a) (s_buf s) w data))) [] l)
      by (intros b Nb; destruct (gw_other b a (fun _ _ => True) (fun _ => True) data Nb (s_buf s) w) as (l & S & _); eauto).
    destruct (E_log _ _ _ (heard_gw a data (s_buf s) w)) as (l & El & Fl).
    destruct (gw_data_received (world_received a) (s_buf s) w data) as [[b w1] r]. cbn [fst snd] in *.
    assert (W1 : Attended w1).
    { intros c x Hin. destruct (Nat.eq_dec a c) as [<-|Nc].
      - exists s1. split; [exact N1|]. rewrite A1. destruct (s_app s) eqn:As; [reflexivity|]. rewrite L1 in Hin by reflexivity. destruct (H a x Hin) as (s0 & N0 & A0). congruence.
      - rewrite El in Hin. apply in_app_or in Hin as [Hin|Hin]; [|destruct (Fl _ Hin) as [(y & C)|(y & C)]; [injection C as C _; congruence|discriminate C]].
        destruct (H c x Hin) as (s0 & N0 & A0). destruct (Ot c Nc) as (l2 & S). destruct (sv_api _ _ _ _ _ _ _ S s0 N0) as (s2 & N2 & _ & A2). eauto. }
    assert (W2 : Attended (on_api a (set_buf b) w1)).
    { intros c x Hin. unfold on_api in *. rewrite N1 in *. wfldin Hin. destruct (W1 c x Hin) as (s0 & N0 & A0). wfld. rewrite nth_set.
      destruct (Nat.eqb_spec c a) as [->|]; [|eauto]. rewrite N1. rewrite N1 in N0. injection N0 as <-. eauto. }
    destruct r as [u|e]; [exact W2|]. intros c x Hin. wfldin Hin. apply in_app_or in Hin as [Hin|[C|[]]]; [exact (W2 c x Hin)|discriminate C].
  - eapply attended_still; [exact H|intro a; apply still_step; try assumption; discriminate|]. cbn [world_step]. destruct (starting w t); [|exists []; rewrite app_nil_r; auto].
    exists [WAdded ieee nwk]. split; [reflexivity|]. intros a x [C|[]]. discriminate C.
Qed.
Theorem nothing_before w a s e : wreachable w -> nth_error (w_apis w) a = Some s -> s_app s = false -> ~ In (WEffect a e) (w_log w).
Proof.
  intros R N A C. enough (X : Attended w) by (destruct (X a e C) as (s0 & N0 & A0); congruence). destruct R as (devs & es & ->). clear. induction es as [|e es IH] using rev_ind; [intros a e []|].
  rewrite world_run_snoc. apply attended_step; [exists devs, es; reflexivity|exact IH].
Qed.
