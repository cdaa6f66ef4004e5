(** * HostBlame: why a start-up on the request machine fails, and when it succeeds *)
From Coq Require Import ZifyBool ZifyNat.
From Verif Require Import Base Types Uart Buffalo CmdTable Zpi Api App Machine SpecWire SpecCodec SpecApi SpecMachine SpecProgress SpecFirst SpecBlame Nv StartZnp SpecStart Host SpecHost SpecEnds
  AppStart SpecAppStart ApiProofs AppProofs MachineBase MachineInv MachineInv2 MachineInv3 MachineInv4 MachineInv5 DispatchProofs MachineProofs MachineProofs2 MachineProofs4 MachineBlame
  StartProofs StartProofs5 StartLink StartSend AppStartProofs HostProofs HostEnds WholeInv WholeHost Whole SpecWhole SpecWholeFail WholeEnds WholeFail SpecHostBlame.

(** ** the waits of a program were registered by it *)
Definition Heard {A} (h : host A) : Prop :=
  (forall m to t, In (m, to, t) (h_waiters h) -> In (t, AListen m to) (h_trace h)) /\
  (forall t m r, In (t, AAwait m r) (h_trace h) -> exists to, In (t, AListen m to) (h_trace h)) /\
  match h_place h with Awaiting t m _ => exists to, In (t, AListen m to) (h_trace h) | _ => True end.
Lemma heard_step {A} e (h : host A) : Heard h -> Heard (hstep e h).
Proof.
  intro H. destruct e; [|exact H]. cbn [hstep]. unfold go. pose proof H as (H1 & H2 & H3).
  destruct (h_place h) as [[a|e|sub cmd d x k|m to k|w k|sub cmd d k]|t sub cmd d x k|t m k]; try exact H; unfold Heard; cbn [h_waiters h_trace h_place].
  - auto.
  - split; [|split; [|exact I]].
    + intros m0 to0 t0 Hin. apply in_app_or in Hin as [Hin|[Hin|[]]]; apply in_or_app; [left; auto|]. right. left. congruence.
    + intros t0 m0 r Hin. apply in_app_or in Hin as [Hin|[Hin|[]]]; [|discriminate Hin]. destruct (H2 _ _ _ Hin) as [to0 X]. exists to0. apply in_or_app. auto.
  - destruct (object w (h_waiters h)) as [t|] eqn:E; [|exact H]. split; [exact H1|]. split; [exact H2|]. exists (snd w). apply H1. destruct w. apply object_in, E.
  - split; [|split; [|exact I]].
    + intros m0 to0 t0 Hin. apply in_or_app. auto.
    + intros t0 m0 r Hin. apply in_app_or in Hin as [Hin|[Hin|[]]]; [|discriminate Hin]. destruct (H2 _ _ _ Hin) as [to0 X]. exists to0. apply in_or_app. auto.
  - destruct (came_back (h_st h) t) as [r0|]; [|exact H]. split; [|split; [|exact I]].
    + intros m0 to0 t0 Hin. apply in_or_app. auto.
    + intros t0 m0 r Hin. apply in_app_or in Hin as [Hin|[Hin|[]]]; [|discriminate Hin]. destruct (H2 _ _ _ Hin) as [to0 X]. exists to0. apply in_or_app. auto.
  - destruct (came_back (h_st h) t) as [r0|]; [|exact H]. destruct H3 as [to3 H3]. split; [|split; [|exact I]].
    + intros m0 to0 t0 Hin. apply in_or_app. auto.
    + intros t0 m0 r Hin. apply in_app_or in Hin as [Hin|[Hin|[]]].
      * destruct (H2 _ _ _ Hin) as [to0 X]. exists to0. apply in_or_app. auto.
      * injection Hin as <- <- <-. exists to3. apply in_or_app. auto.
Qed.
Lemma heard_run {A} es : forall h : host A, Heard h -> Heard (hrun es h).
Proof. induction es as [|e es IH]; intros h H; [exact H|]. apply IH, heard_step, H. Qed.
Lemma heard_start {A} (p : prog A) s : Heard (hosted p s).
Proof. split; [intros m to t []|]. split; [intros t m r []|exact I]. Qed.

(** ** no wait of a start-up is over at once *)
Definition act_long (y : act) : Prop := match y with AListen _ to => 0 < to | _ => True end.
Lemma start_long v o g b : StartProofs.only act_long (start_znp v o g b).
Proof.
  unfold start_znp, has_configured, configure, needs_init, validate_pan, validate_item, initialise, soft_reset, nv_write, StartZnp.boot, register_endpoints, add_to_group, await_started.
  repeat (onl; cbn [act_long]; try exact I; try (unfold Timeouts_default; lia)).
  apply (only_seq act_long (request SYS "osalNvRead" (item_pan (o_pan o)) [0])); [onl; exact I|intro; onl].
Qed.
Lemma app_long auto c devs : StartProofs.only act_long (app_startup auto c devs).
Proof.
  intros tr f H. apply app_course in H.
  assert (P4 : forall p, Forall act_long (led_acts p)) by (intro p; unfold led_acts; destruct (p =? 1); repeat constructor).
  inversion H; subst; repeat (constructor; [exact I|]); try constructor.
  apply body_inv in H1 as (t1 & t2 & -> & g & H1 & H2). apply Forall_app. split.
  - apply form_inv in H1. destruct auto; [|destruct H1 as [-> _]; constructor]. destruct H1 as (t3 & t4 & g' & -> & R & G).
    apply Forall_app. split; [exact (start_long _ _ _ _ _ _ R)|].
    destruct g'; [destruct G as [[-> _]|[[->| ->] _]]|destruct G as [-> _]..]; try constructor; apply P4.
  - destruct g; [|destruct H2 as [-> _]; constructor..]. apply finish_inv in H2 as [[->|[r ->]] _]; repeat constructor.
Qed.

(** ** a start-up raises only because of its last act *)
Lemma runs_goes {A} (p : prog A) tr f : runs p tr f -> goes p tr f.
Proof. induction 1; constructor; auto. destruct r; [discriminate|]. cbn in H. congruence. Qed.
Lemma fair_app auto c devs : fair (app_startup auto c devs) (fun _ => True) none.
Proof.
  unfold app_startup. eapply fair_seq with (P := fun _ => True).
  { unfold ping, request. cbn [attempt]. intros tr f G F. inversion G; subst; try exact I. destruct r as [m|e]; cbn [of_result attempt] in *.
    - match goal with K : goes (DRet _) _ _ |- _ => inversion K; subst; exact I end.
    - assert (N : f = Interrupted \/ tr0 = [] /\ f = Raised (match e with CommandError _ => GenericException | _ => e end)).
      { destruct e; (match goal with K : goes (DRaise _) _ _ |- _ => inversion K; subst end); auto. }
      destruct N as [->|[-> ->]]; [exact I|]. left. apply blame_last. destruct e; reflexivity. }
  intros _ _ tr f G F. unfold ask_version, request in G. cbn [StartZnp.seq] in G. inversion G; subst; try exact I. inversion F as [|? ? F1 F2]; subst.
  destruct r as [m|e]; cbn [of_result StartZnp.seq] in *.
  2:{ match goal with K : goes (DRaise _) _ _ |- _ => inversion K; subst; [exact I|] end. left. apply blame_last. cbn [failed]. destruct e; reflexivity. }
  assert (Rs : response SYS "version" m) by (apply F1; discriminate).
  assert (X : exists v, dict_get (z_payload m) "product" = Some v /\ kind UINT8 v) by has. destruct X as (v & Ep & Hk). 
  assert (exists z, v = VInt z) as (z & ->) by (destruct v; try contradiction Hk; eauto).
  unfold field in *. rewrite Ep in *. cbn [StartZnp.seq] in *. unfold check_product in *.
  destruct ((z =? zStack12) || (z =? zStack3x0) || (z =? zStack30x)) eqn:Ek; cbn [StartZnp.seq] in *.
  2:{ match goal with K : goes (DRaise _) _ _ |- _ => inversion K; subst; [exact I|] end. left. apply blame_last. cbn [failed].
      split; [reflexivity|]. split; [reflexivity|]. split; [reflexivity|]. exists z. split; [exact Ep|]. apply unknown_product. exact Ek. }
  match goal with K : goes _ tr0 f |- _ => pose proof K as G2 end. 
  assert (K : match f with Returned _ => True | Raised e => blame tr0 e \/ none e | Interrupted => True end); [|destruct f; auto; destruct K as [K|K]; [left; apply blame_cons, K|right; exact K]].
  refine (_ tr0 f G2 F2). clear. change (fair
   (StartZnp.seq (if auto then let! r := form_network z c in DRet (Some r) else DRet None) (fun status => let! x := coordinator devs in
     let '(ieee, nwk, devs') := x in DRet (mk_ready z (concurrency z) ieee nwk devs' status))) (fun _ => True) none).
  eapply fair_seq with (P := fun _ => True).
  - destruct auto; [|apply fair_ret; exact I]. eapply fair_seq with (P := fun _ => True); [|intros r _; apply fair_ret; exact I].
    unfold form_network. eapply fair_seq; [apply fair_start|]. intros st _. eapply fair_seq with (P := fun _ => True); [|intros _ _; apply fair_ret; exact I].
    unfold switch_led. destruct (z =? zStack3x0); [apply fair_ret; exact I|].
    intros tr f G _. unfold StartZnp.spawn in G. inversion G; subst; [exact I|]. match goal with K : goes (DRet _) _ _ |- _ => inversion K; subst; exact I end.
  - intros status _. eapply fair_seq with (P := fun _ => True).
    + unfold coordinator. ask P. eapply fair_seq; [apply (fair_field _ "ieeeaddr" IEEEADDR); has|]. intros i (_ & b & ->).
      eapply fair_seq; [apply (fair_field _ "shortaddr" UINT16); has|]. intros n (_ & w & ->). apply fair_ret. exact I.
    + intros [[i n] d] _. apply fair_ret. exact I.
Qed.
(** a wait that succeeds got what it waited for *)
Definition matched (y : act) : Prop := match y with AAwait m (Ok r) => waiter_match m r = Ok true | _ => True end.
Lemma runs_matched {A} (p : prog A) tr f : runs p tr f -> Forall matched tr.
Proof. induction 1; repeat constructor; auto; try exact I. destruct r; [exact H|exact I]. Qed.

(** ** why it raises *)
Lemma command_sendable sub cmd d x e : can_send sub cmd d -> ~ unsendable (JCommand sub cmd d x) e.
Proof.
  intros (o & f & Eo & Ak & Ef & Hs & _). unfold unsendable. cbn [build]. rewrite Eo. cbn [in_coroutine]. intros [H|(o' & H & K)]; [discriminate H|].
  injection H as <-. cbn [response_waiter] in K. destruct K as [K|[K|[(f' & K1 & K2)|(K1 & K2 & _)]]]; try discriminate K; try congruence.
  - assert (f' = f) as -> by congruence. rewrite (UartProofs.to_buffer_wire f Hs) in K2. discriminate K2.
  - unfold answered_kind in Ak. destruct (z_type o); congruence.
Qed.
Lemma startup_blamed cap v d a es0 auto c devs es e : 0 <= cap -> valid_config c ->
  let s0 := init cap v d a in let h0 := hosted (app_startup auto c devs) (run es0 s0) in let h := hrun es h0 in
  fields_exist (h_st h) -> ending h = Raised e ->
  exists pre t y, doings h = pre ++ [(t, y)] /\ failed y e /\ let_act (es0 ++ SpecEnds.flat h0 es) s0 (s_log (h_st h)) (doings h) t y.
Proof.
  intros Hc Hv s0 h0 h Hf He. set (E := es0 ++ SpecEnds.flat h0 es).
  assert (R0 : reachable cap (run es0 s0)) by (exists v, d, a, es0; reflexivity).
  pose proof (host_inv cap (app_startup auto c devs) (run es0 s0) es Hc R0) as HI. fold h0 in HI. fold h in HI.
  assert (Es : h_st h = run E s0) by (unfold E, h; rewrite flat_st, MachineProgress.run_app; reflexivity).
  pose proof (host_runs _ _ _ HI) as R. rewrite He in R.
  assert (G : Forall good (acts h)).
  { apply Forall_forall. intros y Hy. apply in_map_iff in Hy as ([t z] & <- & Hi). eapply evidence_good; [|apply (H_done _ _ _ HI t z), Hi].
    apply (I_received cap). apply reachable_inv; [exact Hc|apply (H_reach _ _ _ HI)]. }
  destruct (fair_app auto c devs _ _ (runs_goes _ _ _ R) G) as [(pre & y & Ea & B)|[]].
  unfold acts in Ea. apply map_eq_app in Ea as (l1 & l2 & Ed & _ & Ea). destruct l2 as [|[t y'] [|]]; try discriminate Ea. cbn [map snd] in Ea. injection Ea as ->.
  exists l1, t, y. split; [exact Ed|]. split; [exact B|].
  assert (Hin : In (t, y) (doings h)) by (rewrite Ed; apply in_or_app; right; left; reflexivity).
  assert (Ha : In y (acts h)) by (apply in_map_iff; exists (t, y); auto).
  pose proof (H_done _ _ _ HI t y Hin) as Hev. destruct (H_jobs _ _ _ HI t y Hin) as (j & (k & Gk & Ej) & Hj).
  pose proof (runs_matched _ _ _ R) as M. rewrite Forall_forall in M. specialize (M y Ha).
  assert (Hs0 : fields_exist (run E s0)) by (rewrite <- Es; exact Hf). rewrite Es in Gk, Hev. rewrite Es.
  destruct y as [sub cmd d1 x [[m|e']|]|m to|m [r|e']|sub cmd d1]; cbn [failed let_act evidence job_of matched] in *; try contradiction.
  - destruct B as (_ & _ & _ & p & B). exists p. exact B.
  - pose proof (app_sendable auto c devs Hv _ _ R) as S. rewrite Forall_forall in S. specialize (S _ Ha). cbn [act_sendable] in S.
    pose proof (operation_blamed cap v d a E t k e' Hc Hs0 Gk) as X. rewrite Ej, Hj in X.
    specialize (X ltac:(discriminate) Hev). inversion X; subst; try (econstructor; eassumption).
    + exfalso. eapply command_sendable; eassumption.
    + exfalso. match goal with W : response_waiter _ _ = Ok (Some _) |- _ => discriminate W end.
  - destruct B as (_ & _ & B). contradiction.
  - pose proof (heard_run es h0 (heard_start _ _)) as (_ & Hh & _). fold h in Hh. destruct (Hh t m (Err e')) as [to Ht].
    { unfold doings in Hin. unfold ending in He. destruct (h_place h); try discriminate He. rewrite app_nil_r in Hin. exact Hin. }
    assert (Hd : In (t, AListen m to) (doings h)) by (unfold doings; apply in_or_app; left; exact Ht).
    exists to. split; [exact Hd|].
    assert (L : 0 < to).
    { pose proof (app_long auto c devs _ _ R) as L. rewrite Forall_forall in L. apply (L (AListen m to)). apply in_map_iff. exists (t, AListen m to). auto. }
    destruct (H_jobs _ _ _ HI t _ Hd) as (j' & (k' & Gk' & Ej') & Hj'). cbn [job_of] in Hj'. rewrite Es in Gk'. assert (k' = k) as -> by congruence. subst j'.
    destruct (wait_blamed cap v d a E t k m to e' Hc Hs0 Gk Hj' L Hev) as [[-> K]|[-> K]]; [apply D_waiter_cancelled, K|apply D_unheard, K].
Qed.

(** ** when it succeeds *)
Lemma startup_works cap v d a es0 auto c devs T rs : 0 < cap -> valid_config c -> 30000 <= T ->
  let s0 := init cap v d a in let s := run es0 s0 in let h0 := hosted (app_startup auto c devs) s in let h := hrun (concat rs) h0 in
  (forall t k m to, get (h_st h) t = Some k -> t_job k = JWaitFor m to -> to <= T) -> fields_exist (h_st h) -> host_rounds T h0 rs ->
  106 * (1 + 7 * (Z.of_nat (length (pending (s_log s))) + (calls (s_log (h_st h)) - calls (s_log s)))) <= Z.of_nat (length rs) ->
  works_for (es0 ++ SpecEnds.flat h0 (concat rs)) s0 (s_log (h_st h)) (doings h) -> exists r, ending h = Returned r.
Proof.
  intros Hc Hv HT s0 s h0 h Hw Hf HF Hn [W1 W2].
  assert (R0 : reachable cap s) by (exists v, d, a, es0; reflexivity).
  assert (N : ending h <> Interrupted).
  { apply (hosted_ends cap (app_startup auto c devs) 53 s T rs Hc R0); [apply fits_app|apply sendable_expects, app_sendable; exact Hv|exact HT|exact Hw|exact HF|exact Hn]. }
  destruct (ending h) as [r|e|] eqn:E; [exists r; reflexivity| |congruence]. exfalso.
  assert (Hc' : 0 <= cap) by lia.
  destruct (startup_blamed cap v d a es0 auto c devs (concat rs) e Hc' Hv Hf E) as (pre & t & y & Ed & B & L). fold s0 s h0 h in Ed, B, L.
  assert (Hin : In (t, y) (doings h)) by (rewrite Ed; apply in_or_app; right; left; reflexivity).
  destruct (W2 t y Hin) as [W3 W4].
  destruct y as [sub cmd d1 x [[m|e']|]|m to|m [r|e']|sub cmd d1]; cbn [failed let_act] in *; try contradiction.
  - destruct B as (_ & _ & -> & p & Hp & Np). destruct W4 as (_ & _ & W4). apply Np. eapply W4; [reflexivity|reflexivity|exact Hp].
  - destruct W4 as (W4 & W5 & _). inversion L; subst; try contradiction; [|eapply W5; eassumption].
    cbn [build] in *. eapply W4; [|eassumption]. match goal with K : in_coroutine ?q = Ok _ |- _ => destruct q as [|[]]; cbn [in_coroutine] in K; congruence end.
  - destruct L as (to & Hl & L). destruct (W2 _ _ Hl) as [W5 W6]. inversion L; contradiction.
Qed.
