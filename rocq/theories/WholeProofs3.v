(** * WholeProofs3: the attempts of the application as runs of its start-up program, and what they leave on the links *)
From Coq Require Import ZifyBool ZifyNat.
From Verif Require Import Base Types Uart Buffalo CmdTable Zpi Api App Machine Life World SpecWire SpecCodec SpecMachine SpecLife SpecWorld
  ApiProofs AppProofs AppProofs2 MachineBase MachineInv MachineInv2 DispatchProofs LifeProofs2 LifeProofs3 WorldInv WorldFace WorldBase WorldLife WorldProofs2 WorldProofs4
  Nv StartZnp AppStart SpecStart SpecAppStart StartProofs StartProofs2 StartSend AppStartProofs Host SpecHost HostProofs HostProofs2
  Whole WholeInv WholeHost WholeBase WholeProofs WholeProofs2 SpecWhole WholeBlind.

(** ** runs of compound programs *)
Lemma seq_lost {A B} (p : prog A) (g : A -> prog B) tr : runs p tr Interrupted -> runs (StartZnp.seq p g) tr Interrupted.
Proof.
  revert tr. induction p as [a|e|sub cmd d x k IH|m t k IH|w k IH|sub cmd d k IH]; intros tr H; cbn [StartZnp.seq]; inversion H; subst; try constructor; auto.
Qed.
Lemma seq_raised {A B} (p : prog A) (g : A -> prog B) tr e : runs p tr (Raised e) -> runs (StartZnp.seq p g) tr (Raised e).
Proof.
  revert tr. induction p as [a|x|sub cmd d x k IH|m t k IH|w k IH|sub cmd d k IH]; intros tr H; cbn [StartZnp.seq]; inversion H; subst; try constructor; auto.
Qed.
Lemma seq_then {A B} (p : prog A) (g : A -> prog B) t1 a t2 f : runs p t1 (Returned a) -> runs (g a) t2 f -> runs (StartZnp.seq p g) (t1 ++ t2) f.
Proof.
  revert t1. induction p as [b|x|sub cmd d x k IH|m t k IH|w k IH|sub cmd d k IH]; intros t1 H K; cbn [StartZnp.seq]; inversion H; subst; cbn [app]; try constructor; auto.
Qed.
(** [q] does what [p] does and goes on with [k] *)
Definition goes_on {A B} (p : prog A) (q : prog B) (k : A -> prog B) : Prop := forall tr g, runs p tr g ->
  match g with
  | Interrupted => runs q tr Interrupted
  | Raised e => runs q tr (Raised e)
  | Returned a => forall t f, runs (k a) t f -> runs q (tr ++ t) f
  end.
Lemma on_seq {A B} (p : prog A) (k : A -> prog B) : goes_on p (StartZnp.seq p k) k.
Proof. intros tr [a|e|] H; [intros t f K; eapply seq_then; eassumption|apply seq_raised, H|apply seq_lost, H]. Qed.
Lemma on_then {A B C} (p : prog A) (h : A -> prog B) (k : A -> prog C) (j : B -> prog C) : (forall a, goes_on (h a) (k a) j) ->
  goes_on (StartZnp.seq p h) (StartZnp.seq p k) j.
Proof.
  intros H tr g R. apply runs_seq in R as [(t1 & t2 & a & -> & R1 & R2)|[[R ->]|(e & R & ->)]].
  - pose proof (H a t2 g R2) as K. destruct g as [b|e|].
    + intros t f T. rewrite <- app_assoc. eapply seq_then; [exact R1|apply K, T].
    + eapply seq_then; eassumption.
    + eapply seq_then; eassumption.
  - apply seq_lost, R.
  - apply seq_raised, R.
Qed.
Lemma on_ret {A B} (a : A) (k : A -> prog B) : goes_on (DRet a) (k a) k.
Proof. intros tr g R. apply runs_ret_inv in R as [-> [->| ->]]; [constructor|]. intros t f T. exact T. Qed.
Lemma on_raise {A B} e (k : A -> prog B) : goes_on (DRaise e) (DRaise e) k.
Proof. intros tr g R. apply runs_raise_inv in R as [-> [->| ->]]; constructor. Qed.
Lemma on_lift {A B C} (p : prog A) (q : prog B) k (h : B -> prog C) : goes_on p q k -> goes_on p (StartZnp.seq q h) (fun a => StartZnp.seq (k a) h).
Proof.
  intros H tr g R. pose proof (H tr g R) as K. destruct g as [a|e|]; [|apply seq_raised, K|apply seq_lost, K].
  intros t f T. apply runs_seq in T as [(t1 & t2 & b & -> & T1 & T2)|[[T ->]|(e & T & ->)]].
  - rewrite app_assoc. eapply seq_then; [apply K, T1|exact T2].
  - apply seq_lost, K, T.
  - apply seq_raised, K, T.
Qed.
Lemma on_weaken {A B} (p : prog A) (q : prog B) k k' : (forall a t f, runs (k' a) t f -> runs (k a) t f) -> goes_on p q k -> goes_on p q k'.
Proof. intros W H tr g R. pose proof (H tr g R) as K. destruct g; auto. Qed.
Lemma runs_start {A} (p : prog A) : runs p [] Interrupted.
Proof. constructor. Qed.

(** ** the parts and the start-up program *)
Definition after_version (auto : bool) (c : nwk_config) (devs : devices) (product : Z) : prog ready :=
  let! status := form auto product c in finish devs product status.
Definition version_next (auto : bool) (c : nwk_config) (devs : devices) (r : part_result) : prog ready :=
  match r with TVersion z => let! product := check_product (VInt z) in after_version auto c devs product | _ => DRaise Unmodelled end.
Definition ping_next (auto : bool) (c : nwk_config) (devs : devices) (r : part_result) : prog ready :=
  let! version := ask_version in let! p := field version "product" in let! product := check_product p in after_version auto c devs product.
Lemma on_ping auto c devs : goes_on part_ping (app_startup auto c devs) (ping_next auto c devs).
Proof. rewrite app_eq. unfold part_ping. apply on_then. intros _. exact (on_ret TPong (ping_next auto c devs)). Qed.
Lemma on_version auto c devs r : goes_on part_version (ping_next auto c devs r) (version_next auto c devs).
Proof.
  unfold part_version, ping_next. apply on_then. intro m. apply on_then. intro v. destruct v as [z| | | |]; try (apply on_raise).
  exact (on_ret (TVersion z) (version_next auto c devs)).
Qed.
Lemma version_known auto c devs z : known_product z = true -> version_next auto c devs (TVersion z) = after_version auto c devs z.
Proof. unfold known_product, version_next, check_product. intros ->. reflexivity. Qed.
Lemma version_unknown auto c devs z : known_product z = false -> version_next auto c devs (TVersion z) = DRaise ValueError.
Proof. unfold known_product, version_next, check_product. intros ->. reflexivity. Qed.
Definition device_next (devs : devices) (product : Z) (status : option start_result) (r : part_result) : prog ready :=
  match r with TDevice i n => DRet (mk_ready product (concurrency product) i n (join devs n i) status) | _ => DRaise Unmodelled end.
Lemma on_device devs product status : goes_on part_device (finish devs product status) (device_next devs product status).
Proof.
  unfold finish. eapply on_weaken; [|apply (on_lift _ _ (fun r => match r with TDevice i n => DRet (i, n, join devs n i) | _ => DRaise Unmodelled end))].
  - intros [|z|r|i n] t f R; exact R.
  - unfold part_device, coordinator. apply on_then. intro m. apply on_then. intro i. apply on_then. intro n.
    destruct i; try apply on_raise. destruct n; try apply on_raise.
    exact (on_ret (TDevice _ _) (fun r => match r with TDevice i n => DRet (i, n, join devs n i) | _ => DRaise Unmodelled end)).
Qed.
Definition form_next (devs : devices) (product : Z) (r : part_result) : prog ready :=
  match r with
  | TFormed x => let! status := (let! y := (switch_led product LED_Off;; DRet x) in DRet (Some y)) in finish devs product status
  | _ => DRaise Unmodelled
  end.
Lemma on_form c devs product : goes_on (part_form product c) (after_version true c devs product) (form_next devs product).
Proof.
  unfold after_version, form. eapply on_weaken; [|apply on_lift; apply on_lift; apply (on_then _ _ _ (fun r => match r with TFormed x => switch_led product LED_Off;; DRet x | _ => DRaise Unmodelled end))].
  - intros [|z|r|i n] t f R; exact R.
  - intro r. exact (on_ret (TFormed r) (fun r => match r with TFormed x => switch_led product LED_Off;; DRet x | _ => DRaise Unmodelled end)).
Qed.
(** the LED command *)
Lemma led_acts_led p : but_led (led_acts p) = [].
Proof. unfold led_acts. destruct (p =? 1); reflexivity. Qed.
Lemma form_led devs product x t f : runs (finish devs product (Some x)) t f -> runs (form_next devs product (TFormed x)) (led_acts product ++ t) f.
Proof.
  intro R. unfold form_next. eapply seq_then; [|exact R]. rewrite <- (app_nil_r (led_acts product)). eapply seq_then; [|constructor].
  unfold switch_led, led_acts. fold zStack3x0. destruct (product =? zStack3x0); unfold spawn; cbn [StartZnp.seq]; [constructor|apply runs_spawn; constructor].
Qed.

(** ** acts of deeds *)
Definition acts_of (ds : list deed) : list act := map snd ds.
Lemma acts_app a b : acts_of (a ++ b) = acts_of a ++ acts_of b.
Proof. apply map_app. Qed.
Lemma acts_deeds a l : acts_of (deeds_of a l) = map snd l.
Proof. unfold acts_of, deeds_of. rewrite map_map. apply map_ext. intros [t y]. reflexivity. Qed.
Lemma but_led_app a b : but_led (a ++ b) = but_led a ++ but_led b.
Proof. apply filter_app. Qed.
Lemma like_led a b : like a b -> is_led a = is_led b.
Proof. unfold like. destruct a as [| |m [r|e]|]; try (intros <-; reflexivity). destruct b as [| |m' [r'|e]|]; try discriminate. reflexivity. Qed.
Lemma likes_but l l' : Forall2 like l l' -> Forall2 like (but_led l) (but_led l').
Proof. induction 1 as [|a b l l' E H IH]; [constructor|]. unfold but_led in *. cbn [filter]. rewrite (like_led a b E). destruct (is_led b); cbn [negb]; [exact IH|constructor; assumption]. Qed.
Lemma led_but w ds : led_deed w ds -> but_led (acts_of ds) = [].
Proof. intros [->|(a & t & s & -> & _)]; reflexivity. Qed.

(** ** one part *)
Definition place_deeds (pl : place part_result) : list (Z * act) := match pl with Requesting t sub cmd d x _ => [(t, ARequest sub cmd d x None)] | _ => [] end.
Definition place_end (pl : place part_result) : fin part_result := match pl with Ready (DRet a) => Returned a | Ready (DRaise e) => Raised e | _ => Interrupted end.
Lemma leg_run w p a l pl ws : Leg w p a l pl ws -> safe p -> exists tr, Forall2 like (map snd (l ++ place_deeds pl)) tr /\ runs p tr (place_end pl).
Proof. intros (s & A & G) S. apply ginv_goes in G. destruct (safe_runs p _ _ G S) as (tr & L & R). exists tr. split; [exact L|exact R]. Qed.
Lemma done_run w p a ds r : done_leg w p a ds r -> safe p -> exists tr, Forall2 like (acts_of ds) tr /\ runs p tr (Returned r).
Proof.
  intros (l & ws & -> & L) S. destruct (leg_run _ _ _ _ _ _ L S) as (tr & K & R). exists tr. split; [|exact R]. cbn [place_deeds] in K. rewrite app_nil_r in K. rewrite acts_deeds. exact K.
Qed.
(** ** the parts that are over *)
Definition far_next (auto : bool) (c : nwk_config) (devs : devices) (p : prog part_result) (pre : list act) : Prop := forall tr g, runs p tr g ->
  match g with
  | Interrupted => runs (app_startup auto c devs) (pre ++ tr) Interrupted
  | Raised e => runs (app_startup auto c devs) (pre ++ tr) (Raised e)
  | Returned (TVersion z) => p = part_version -> known_product z = false -> runs (app_startup auto c devs) (pre ++ tr) (Raised ValueError)
  | Returned (TDevice i n) => p = part_device -> exists rd, runs (app_startup auto c devs) (pre ++ tr) (Returned rd) /\ rd_ieee rd = i /\ rd_nwk rd = n
  | Returned _ => True
  end.
Lemma device_not_version : part_device <> part_version.
Proof. discriminate. Qed.
Lemma form_not_version p c : part_form p c <> part_version.
Proof. discriminate. Qed.
Lemma far_sim c auto w ds p devs : so_far c auto w ds p -> exists pre, Forall2 like (but_led (acts_of ds)) (but_led pre) /\ far_next auto c devs p pre.
Proof.
  intro H. destruct H as [|a ds D|a1 ds1 a2 ds2 z q D1 D2 K Q|a1 ds1 a2 ds2 z q a3 ds3 r led -> D1 D2 K Q D3 L].
  - exists []. split; [constructor|]. intros tr g R. pose proof (on_ping auto c devs tr g R) as O. destruct g as [[|z|r|i n]|e|]; auto; discriminate.
  - destruct (done_run _ _ _ _ _ D safe_ping) as (t1 & L1 & R1). exists t1. split; [apply likes_but, L1|]. intros tr g R.
    pose proof (on_ping auto c devs t1 _ R1) as O1. cbn beta iota in O1. pose proof (on_version auto c devs TPong tr g R) as O. destruct g as [[|z|r|i n]|e|]; auto; [|discriminate].
    intros _ U. rewrite <- (app_nil_r tr). apply O1, O. rewrite (version_unknown _ _ _ _ U). constructor.
  - destruct (done_run _ _ _ _ _ D1 safe_ping) as (t1 & L1 & R1). destruct (done_run _ _ _ _ _ D2 safe_version) as (t2 & L2 & R2).
    exists (t1 ++ t2). split; [rewrite acts_app; apply likes_but, Forall2_app; assumption|].
    pose proof (on_ping auto c devs t1 _ R1) as O1. pose proof (on_version auto c devs TPong t2 _ R2) as O2. cbn beta iota in O1, O2. rewrite (version_known _ _ _ _ K) in O2.
    intros tr g R. rewrite <- app_assoc. destruct auto.
    + pose proof (on_form c devs z tr g R) as O. destruct g as [[|y|r|i n]|e|]; auto; discriminate.
    + pose proof (on_device devs z None tr g R) as O. destruct g as [[|y|r|i n]|e|]; auto; try discriminate.
      intros _. eexists. split; [|split]. rewrite <- (app_nil_r tr). apply O1, O2. unfold after_version, form. cbn [StartZnp.seq]. apply O. constructor. reflexivity. reflexivity.
  - destruct (done_run _ _ _ _ _ D1 safe_ping) as (t1 & L1 & R1). destruct (done_run _ _ _ _ _ D2 safe_version) as (t2 & L2 & R2).
    destruct (done_run _ _ _ _ _ D3 (safe_form _ _)) as (t3 & L3 & R3).
    exists (t1 ++ t2 ++ t3 ++ led_acts z). split.
    + rewrite !acts_app, !but_led_app, (led_but _ _ L), led_acts_led, !app_nil_r, <- !but_led_app. apply likes_but. repeat apply Forall2_app; assumption.
    + pose proof (on_ping true c devs t1 _ R1) as O1. pose proof (on_version true c devs TPong t2 _ R2) as O2. pose proof (on_form c devs z t3 _ R3) as O3. cbn beta iota in O1, O2, O3.
      rewrite (version_known _ _ _ _ K) in O2.
      assert (O : forall tr f, runs (finish devs z (Some r)) tr f -> runs (app_startup true c devs) ((t1 ++ t2 ++ t3 ++ led_acts z) ++ tr) f).
      { intros tr f R. rewrite <- !app_assoc. apply O1, O2, O3, form_led, R. }
      intros tr g R. pose proof (on_device devs z (Some r) tr g R) as O4. destruct g as [[|y|x|i n]|e|]; auto; try discriminate.
      intros _. eexists. split; [|split]. rewrite <- (app_nil_r tr). apply O, O4. constructor. reflexivity. reflexivity.
Qed.
Lemma far_safe c auto w ds p : so_far c auto w ds p -> safe p.
Proof. intro H. destruct H; [apply safe_ping|apply safe_version|destruct auto; [apply safe_form|apply safe_device]|apply safe_device]. Qed.
(** ** every attempt is a run of the start-up program, but for LED commands and what waits ended with *)
Lemma over_sim c auto w ds r devs : over c auto w ds r ->
  exists tr f, runs (app_startup auto c devs) tr f /\ Forall2 like (but_led (acts_of ds)) (but_led tr) /\ same_end f r.
Proof.
  intro H. destruct H as [ds p a l ws e F L|a1 ds1 a2 ds2 z D1 D2 U|ds a ds' i n F D _].
  - destruct (far_sim c auto w ds p devs F) as (pre & Lp & N). destruct (leg_run _ _ _ _ _ _ L (far_safe _ _ _ _ _ F)) as (tr & Lt & R). cbn [place_deeds place_end] in Lt, R.
    rewrite app_nil_r in Lt. exists (pre ++ tr), (Raised e). split; [exact (N tr _ R)|]. split; [|reflexivity].
    rewrite acts_app, acts_deeds, !but_led_app. apply Forall2_app; [exact Lp|apply likes_but, Lt].
  - destruct (far_sim c auto w ds1 part_version devs) as (pre & Lp & N); [econstructor; exact D1|]. destruct (done_run _ _ _ _ _ D2 safe_version) as (tr & Lt & R).
    exists (pre ++ tr), (Raised ValueError). split; [exact (N tr _ R eq_refl U)|]. split; [|reflexivity].
    rewrite acts_app, !but_led_app. apply Forall2_app; [exact Lp|apply likes_but, Lt].
  - destruct (far_sim c auto w ds part_device devs F) as (pre & Lp & N). destruct (done_run _ _ _ _ _ D safe_device) as (tr & Lt & R).
    destruct (N tr _ R eq_refl) as (rd & R' & _). exists (pre ++ tr), (Returned rd). split; [exact R'|]. split; [|exact I].
    rewrite acts_app, !but_led_app. apply Forall2_app; [exact Lp|apply likes_but, Lt].
Qed.
