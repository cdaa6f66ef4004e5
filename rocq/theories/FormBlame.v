(** * FormBlame: why forming the network by itself fails *)
From Coq Require Import ZifyBool ZifyNat.
From Verif Require Import Base Types Uart Buffalo CmdTable Zpi Api App Machine SpecWire SpecCodec SpecApi SpecMachine SpecProgress SpecFirst SpecBlame Nv StartZnp SpecStart Host SpecHost SpecEnds
  AppStart SpecAppStart ApiProofs AppProofs MachineBase MachineInv MachineInv2 MachineInv3 MachineInv4 MachineInv5 DispatchProofs MachineProofs MachineProofs2 MachineProofs4 MachineBlame
  StartProofs StartProofs5 StartLink StartSend AppStartProofs HostProofs HostEnds WholeInv WholeHost Whole SpecWhole SpecWholeFail WholeEnds WholeFail SpecHostBlame Form HostBlame FormProofs.

(** as for a start-up (HostBlame.v), for any program that raises only because of its last act *)
Lemma program_blamed {A} (p : prog A) cap v d a es0 es e : 0 <= cap -> fair p (fun _ => True) none -> StartProofs.only act_long p -> StartProofs.only act_sendable p ->
  let s0 := init cap v d a in let h0 := hosted p (run es0 s0) in let h := hrun es h0 in
  fields_exist (h_st h) -> ending h = Raised e ->
  exists pre t y, doings h = pre ++ [(t, y)] /\ failed y e /\ let_act (es0 ++ SpecEnds.flat h0 es) s0 (s_log (h_st h)) (doings h) t y.
Proof.
  intros Hc Hfair Hlong Hsend s0 h0 h Hf He. set (E := es0 ++ SpecEnds.flat h0 es).
  assert (R0 : reachable cap (run es0 s0)) by (exists v, d, a, es0; reflexivity).
  pose proof (host_inv cap p (run es0 s0) es Hc R0) as HI. fold h0 in HI. fold h in HI.
  assert (Es : h_st h = run E s0) by (unfold E, h; rewrite flat_st, MachineProgress.run_app; reflexivity).
  pose proof (host_runs _ _ _ HI) as R. rewrite He in R.
  assert (G : Forall good (acts h)).
  { apply Forall_forall. intros y Hy. apply in_map_iff in Hy as ([t z] & <- & Hi). eapply evidence_good; [|apply (H_done _ _ _ HI t z), Hi].
    apply (I_received cap). apply reachable_inv; [exact Hc|apply (H_reach _ _ _ HI)]. }
  destruct (Hfair _ _ (runs_goes _ _ _ R) G) as [(pre & y & Ea & B)|[]].
  unfold acts in Ea. apply map_eq_app in Ea as (l1 & l2 & Ed & _ & Ea). destruct l2 as [|[t y'] [|]]; try discriminate Ea. cbn [map snd] in Ea. injection Ea as ->.
  exists l1, t, y. split; [exact Ed|]. split; [exact B|].
  assert (Hin : In (t, y) (doings h)) by (rewrite Ed; apply in_or_app; right; left; reflexivity).
  assert (Ha : In y (acts h)) by (apply in_map_iff; exists (t, y); auto).
  pose proof (H_done _ _ _ HI t y Hin) as Hev. destruct (H_jobs _ _ _ HI t y Hin) as (j & (k & Gk & Ej) & Hj).
  pose proof (runs_matched _ _ _ R) as M. rewrite Forall_forall in M. specialize (M y Ha).
  assert (Hs0 : fields_exist (run E s0)) by (rewrite <- Es; exact Hf). rewrite Es in Gk, Hev. rewrite Es.
  destruct y as [sub cmd d1 x [[m|e']|]|m to|m [r|e']|sub cmd d1]; cbn [failed let_act evidence job_of matched] in *; try contradiction.
  - destruct B as (_ & _ & _ & p0 & B). exists p0. exact B.
  - pose proof (Hsend _ _ R) as S. rewrite Forall_forall in S. specialize (S _ Ha). cbn [act_sendable] in S.
    pose proof (operation_blamed cap v d a E t k e' Hc Hs0 Gk) as X. rewrite Ej, Hj in X.
    specialize (X ltac:(discriminate) Hev). inversion X; subst; try (econstructor; eassumption).
    + exfalso. eapply command_sendable; eassumption.
    + exfalso. match goal with W : response_waiter _ _ = Ok (Some _) |- _ => discriminate W end.
  - destruct B as (_ & _ & B). contradiction.
  - pose proof (heard_run es h0 (heard_start _ _)) as (_ & Hh & _). fold h in Hh. destruct (Hh t m (Err e')) as [to Ht].
    { unfold doings in Hin. unfold ending in He. destruct (h_place h); try discriminate He. rewrite app_nil_r in Hin. exact Hin. }
    assert (Hd : In (t, AListen m to) (doings h)) by (unfold doings; apply in_or_app; left; exact Ht).
    exists to. split; [exact Hd|].
    assert (L : 0 < to).
    { pose proof (Hlong _ _ R) as L. rewrite Forall_forall in L. apply (L (AListen m to)). apply in_map_iff. exists (t, AListen m to). auto. }
    destruct (H_jobs _ _ _ HI t _ Hd) as (j' & (k' & Gk' & Ej') & Hj'). cbn [job_of] in Hj'. rewrite Es in Gk'. assert (k' = k) as -> by congruence. subst j'.
    destruct (wait_blamed cap v d a E t k m to e' Hc Hs0 Gk Hj' L Hev) as [[-> K]|[-> K]]; [apply D_waiter_cancelled, K|apply D_unheard, K].
Qed.


Lemma fair_form z c : fair (form_network z c) (fun _ => True) none.
Proof.
  unfold form_network. eapply fair_seq; [apply fair_start|]. intros st _. eapply fair_seq with (P := fun _ => True); [|intros _ _; apply fair_ret; exact I].
  unfold switch_led. destruct (z =? zStack3x0); [apply fair_ret; exact I|].
  intros tr f G _. unfold StartZnp.spawn in G. inversion G; subst; [exact I|]. match goal with K : goes (DRet _) _ _ |- _ => inversion K; subst; exact I end.
Qed.
Lemma form_long v c : StartProofs.only act_long (form_network (version_of v) c).
Proof.
  intros tr f H. apply form_call_inv in H as (t3 & t4 & g & -> & R & G). apply Forall_app. split; [exact (start_long _ _ _ _ _ _ R)|].
  assert (P4 : forall p, Forall act_long (led_acts p)) by (intro p; unfold led_acts; destruct (p =? 1); repeat constructor).
  destruct g; [destruct G as [[-> _]|[[->| ->] _]]|destruct G as [-> _]..]; try constructor; apply P4.
Qed.
Lemma form_works cap v0 d a es0 v c T rs : 0 < cap -> valid_config c -> 30000 <= T ->
  let s0 := init cap v0 d a in let s := run es0 s0 in let h0 := hosted (form_network (version_of v) c) s in let h := hrun (concat rs) h0 in
  (forall t k m to, get (h_st h) t = Some k -> t_job k = JWaitFor m to -> to <= T) -> fields_exist (h_st h) -> host_rounds T h0 rs ->
  100 * (1 + 7 * (Z.of_nat (length (pending (s_log s))) + (calls (s_log (h_st h)) - calls (s_log s)))) <= Z.of_nat (length rs) ->
  works_for (es0 ++ SpecEnds.flat h0 (concat rs)) s0 (s_log (h_st h)) (doings h) -> exists r, ending h = Returned r.
Proof.
  intros Hc Hv HT s0 s h0 h Hw Hf HF Hn [W1 W2].
  assert (R0 : reachable cap s) by (exists v0, d, a, es0; reflexivity).
  assert (N : ending h <> Interrupted).
  { apply (hosted_ends cap (form_network (version_of v) c) 50 s T rs Hc R0); [apply fits_form|apply sendable_expects, form_sendable; exact Hv|exact HT|exact Hw|exact HF|exact Hn]. }
  destruct (ending h) as [r|e|] eqn:E; [exists r; reflexivity| |congruence]. exfalso.
  assert (Hc' : 0 <= cap) by lia.
  destruct (program_blamed (form_network (version_of v) c) cap v0 d a es0 (concat rs) e Hc' (fair_form _ _) (form_long v c) (form_sendable v c Hv) Hf E) as (pre & t & y & Ed & B & L).
  fold s0 s h0 h in Ed, B, L.
  assert (Hin : In (t, y) (doings h)) by (rewrite Ed; apply in_or_app; right; left; reflexivity).
  destruct (W2 t y Hin) as [W3 W4].
  destruct y as [sub cmd d1 x [[m|e']|]|m to|m [r|e']|sub cmd d1]; cbn [failed let_act] in *; try contradiction.
  - destruct B as (_ & _ & -> & p & Hp & Np). destruct W4 as (_ & _ & W4). apply Np. eapply W4; [reflexivity|reflexivity|exact Hp].
  - destruct W4 as (W4 & W5 & _). inversion L; subst; try contradiction; [|eapply W5; eassumption].
    cbn [build] in *. eapply W4; [|eassumption]. match goal with K : in_coroutine ?q = Ok _ |- _ => destruct q as [|[]]; cbn [in_coroutine] in K; congruence end.
  - destruct L as (to & Hl & L). destruct (W2 _ _ Hl) as [W5 W6]. inversion L; contradiction.
Qed.
Lemma form_blamed cap v0 d a es0 v c es e : 0 <= cap -> valid_config c ->
  let s0 := init cap v0 d a in let h0 := hosted (form_network (version_of v) c) (run es0 s0) in let h := hrun es h0 in
  fields_exist (h_st h) -> ending h = Raised e ->
  exists pre t y, doings h = pre ++ [(t, y)] /\ failed y e /\ let_act (es0 ++ SpecEnds.flat h0 es) s0 (s_log (h_st h)) (doings h) t y.
Proof.
  intros Hc Hv. apply program_blamed; [exact Hc|apply fair_form|apply form_long|apply form_sendable, Hv].
Qed.
