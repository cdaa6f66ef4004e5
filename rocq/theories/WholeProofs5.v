(** * WholeProofs5: the stick and the application after the attempts of start-ups *)
From Coq Require Import ZifyBool ZifyNat.
From Verif Require Import Base Types Uart Buffalo CmdTable Zpi Api App Machine Life World SpecWire SpecCodec SpecMachine SpecLife SpecWorld
  ApiProofs AppProofs AppProofs2 MachineBase MachineInv MachineInv2 MachineInv5 DispatchProofs LifeProofs2 LifeProofs3 WorldInv WorldFace WorldBase WorldLife WorldProofs2 WorldProofs4
  Nv StartZnp AppStart SpecStart SpecAppStart StartProofs StartProofs2 StartProofs5 StartProofs8 StartSend AppStartProofs Host SpecHost HostProofs HostProofs2
  Whole WholeInv WholeHost WholeBase WholeProofs WholeProofs2 SpecWhole WholeBlind WholeProofs3 WholeProofs4.

(** ** a stick sees no difference *)
Lemma led_stick s a s' : is_led a = true -> stick_act s a s' -> s' = s.
Proof. destruct a; try discriminate. auto. Qed.
Lemma stick_but s l s' : stick s l s' -> stick s (but_led l) s'.
Proof.
  induction 1 as [s|s a s1 tr s2 H K IH]; [constructor|]. unfold but_led in *. cbn [filter]. destruct (is_led a) eqn:E; cbn [negb].
  - rewrite (led_stick _ _ _ E H) in IH. exact IH.
  - econstructor; eassumption.
Qed.
Lemma stick_with s l s' : stick s (but_led l) s' -> stick s l s'.
Proof.
  revert s. induction l as [|a l IH]; intros s H; [exact H|]. unfold but_led in *. cbn [filter] in H. destruct (is_led a) eqn:E; cbn [negb] in H.
  - econstructor; [|apply IH, H]. destruct a; try discriminate E. reflexivity.
  - inversion H; subst. econstructor; [eassumption|apply IH; assumption].
Qed.
Lemma like_stick a b s s' : like a b -> stick_act s a s' -> stick_act s b s'.
Proof. destruct a as [| |m [r|e]|]; cbn [like]; try (intros <-; auto). destruct b as [| |m' [r'|e]|]; try discriminate. auto. Qed.
Lemma stick_likes l l' s s' : Forall2 like l l' -> stick s l s' -> stick s l' s'.
Proof.
  intro H. revert s. induction H as [|a b l l' E H IH]; intros s K; [exact K|]. inversion K; subst. econstructor; [eapply like_stick; eassumption|apply IH; assumption].
Qed.
Lemma like_sym a b : like a b -> like b a.
Proof. destruct a as [| |m [r|e]|]; cbn [like]; try (intros <-; apply like_refl). destruct b as [| |m' [r'|e]|]; try discriminate. intros ->. reflexivity. Qed.
Lemma likes_sym l l' : Forall2 like l l' -> Forall2 like l' l.
Proof. induction 1; constructor; [apply like_sym|]; assumption. Qed.
Lemma stick_same l tr s s' : Forall2 like (but_led l) (but_led tr) -> stick s l s' -> stick s tr s'.
Proof. intros L H. apply stick_with. eapply stick_likes; [exact L|apply stick_but, H]. Qed.
Lemma but_in y l : In y l -> is_led y = false -> In y (but_led l).
Proof. intros H E. apply filter_In. rewrite E. auto. Qed.
(** the acts other than waits and LED commands are the same *)
Lemma same_acts l tr y : Forall2 like (but_led l) (but_led tr) -> In y l -> is_led y = false -> match y with AAwait _ _ => False | _ => True end -> In y tr.
Proof.
  intros L H E N. destruct (likes_in _ _ y L (but_in y l H E)) as (y' & H' & Ly). apply filter_In in H' as [H' _].
  destruct y as [| |m r|]; cbn [like] in Ly; try (rewrite Ly; exact H'). contradiction.
Qed.
Lemma same_reports l tr p : Forall2 like (but_led l) (but_led tr) -> reports l p -> reports tr p.
Proof. intros L (d & x & m & H & E). exists d, x, m. split; [|exact E]. eapply same_acts; [exact L|exact H|reflexivity|exact I]. Qed.
Lemma same_harmless l tr : Forall2 like (but_led l) (but_led tr) -> Forall harmless tr -> Forall harmless l.
Proof.
  intros L H. rewrite Forall_forall in *. intros y Hy. destruct (is_led y) eqn:E.
  - destruct y as [| | |sub cmd d]; try discriminate E. destruct sub; try discriminate E. exact I.
  - destruct y as [| |m r|]; try exact I; apply H; eapply same_acts; try eassumption; exact I.
Qed.
(** ** left alone *)
Lemma attempt_untouched c x t auto ds v s s' : valid_config c -> xreachable c x -> attempted x t auto ds -> stick s (map snd ds) s' ->
  (forall p, reports (map snd ds) p -> p = version_of v) -> auto = false \/ accepted v (network_options c) s ->
  s' = s /\ Forall harmless (map snd ds) /\
  forall a u y at_ bs ct sub id data, In (a, u, y) ds -> In (OWritten u at_ bs) (history (x_world x) a) -> In (ct, sub, id) changing -> bs <> wire ct sub id data.
Proof.
  intros V R T K Rp Ac. pose proof (attempted_shape c x t auto ds R T) as Sh. destruct (shape_sim c auto (x_world x) ds [] Sh) as (tr & Rt & L).
  destruct (stick_left_alone auto c [] v tr Interrupted s s' V Rt) as [H E].
  - eapply stick_same; [exact L|exact K].
  - intros p Hp. apply Rp. eapply same_reports; [apply likes_sym, L|exact Hp].
  - exact Ac.
  - pose proof (same_harmless _ _ L H) as Hh. split; [exact E|]. split; [exact Hh|].
    intros a u y at_ bs ct sub id data Hi Hw Hc Eb. pose proof (I_world c x (xreach_inv c x R)) as Rw.
    destruct (attempt_frame c auto _ ds a u y at_ bs V Rw (shape_legs _ _ _ _ _ _ _ Sh Hi) Hw) as (v0 & sub0 & cmd & d & z & Ey & W0 & C0 & F0 & B0).
    rewrite Forall_forall in Hh. pose proof (Hh y (in_acts _ _ Hi)) as Hy.
    eapply harmless_frame; [exact W0|exact C0|exact F0|exact B0| | |exact Eb|exact Hc].
    + destruct Ey as [->|(x0 & r & ->)]; exact Hy.
    + unfold changing in Hc. cbn [In] in Hc. repeat (destruct Hc as [Hc|Hc]; [injection Hc as _ <- _; lia|]). contradiction.
Qed.
(** ** a start-up that ended well *)
Lemma over_simulates c x t auto ds r at_ devs : xreachable c x -> In (XOver t auto ds r at_) (x_log x) ->
  exists tr f, runs (app_startup auto c devs) tr f /\ Forall2 like (but_led (map snd ds)) (but_led tr) /\ same_end f r.
Proof. intros R H. apply xreach_inv in R. eapply over_sim. apply (I_over c x R t auto ds r at_ H). Qed.
Lemma going_simulates c x t auto ds devs : xreachable c x -> attempted x t auto ds ->
  exists tr, runs (app_startup auto c devs) tr Interrupted /\ Forall2 like (but_led (map snd ds)) (but_led tr).
Proof. intros R H. eapply shape_sim, attempted_shape; eassumption. Qed.
Lemma likes_split l tr p a q : Forall2 like l tr -> tr = p ++ a :: q -> exists p' a' q', l = p' ++ a' :: q' /\ Forall2 like p' p /\ like a' a /\ Forall2 like q' q.
Proof.
  intros H ->. apply Forall2_app_inv_r in H as (p' & l' & F1 & F2 & ->). inversion F2; subst. eauto 10.
Qed.
Lemma well_formed_network c x t ds at_ s s' : valid_config c -> xreachable c x -> In (XOver t true ds (Ok tt) at_) (x_log x) -> stick s (map snd ds) s' ->
  exists v, (forall p, reports (map snd ds) p <-> p = version_of v) /\
    (accepted v (network_options c) s /\ s' = s \/ ~ accepted v (network_options c) s /\ config_matches v (network_options c) s').
Proof.
  intros V R H K. destruct (over_simulates c x t true ds (Ok tt) at_ [] R H) as (tr & f & Rt & L & E). destruct f as [rd|e|]; try contradiction.
  destruct (forms_network c [] tr rd s s' V Rt) as (v & r & Ev & _ & D); [eapply stick_same; eassumption|].
  destruct (limit_by_product true c [] tr rd Rt) as (Rp & _). exists v. split.
  - intro p. rewrite <- Ev. rewrite <- (Rp p). split; [apply same_reports, L|apply same_reports, likes_sym, L].
  - destruct D as [(D1 & _ & D2 & _)|(D1 & _ & D2 & _)]; auto.
Qed.
(** ** the course of a start-up that ended well *)
Lemma done_ping w a ds : done_leg w part_ping a ds TPong -> exists u m, ds = [(a, u, ARequest SYS "ping" [("capabilities", VInt 1)] [0] (Some (Ok m)))].
Proof.
  intros (l & ws & -> & L). apply leg_goes in L. destruct (ping_goes _ _ L) as (_ & m & E & _). destruct l as [|[u y] [|]]; try discriminate E. injection E as ->. exists u, m. reflexivity.
Qed.
Lemma done_version w a ds z : done_leg w part_version a ds (TVersion z) -> exists u m, ds = [(a, u, ARequest SYS "version" [] [0] (Some (Ok m)))] /\ dict_get (z_payload m) "product" = Some (VInt z).
Proof.
  intros (l & ws & -> & L). apply leg_goes in L. destruct (version_goes _ _ L) as (m & p & [= <-] & D & E & _). destruct l as [|[u y] [|]]; try discriminate E. injection E as ->. exists u, m. split; [reflexivity|exact D].
Qed.
Lemma done_device w a ds i n : done_leg w part_device a ds (TDevice i n) -> exists u m, ds = [(a, u, ARequest UTIL "getDeviceInfo" [] [0] (Some (Ok m)))] /\
  dict_get (z_payload m) "ieeeaddr" = Some (VEui i) /\ dict_get (z_payload m) "shortaddr" = Some (VInt n).
Proof.
  intros (l & ws & -> & L). apply leg_goes in L. destruct (device_goes _ _ L) as (m & i' & n' & [= <- <-] & D1 & D2 & E & _). destruct l as [|[u y] [|]]; try discriminate E. injection E as ->. exists u, m.
  split; [reflexivity|]. split; assumption.
Qed.
Lemma done_form w c v a ds r : done_leg w (part_form (version_of v) c) a ds (TFormed r) -> exists l tr, ds = deeds_of a l /\ Forall2 like (map snd l) tr /\
  runs (start_znp (version_of v) (network_options c) 2948 false) tr (Returned r).
Proof.
  intros (l & ws & -> & L). apply leg_goes in L. apply form_goes in L as (r' & [= <-] & G). destruct (safe_runs _ _ _ G (safe_start _ _ _ _)) as (tr & F & Rt). exists l, tr. auto.
Qed.
Lemma done_exchanged w p a ds r u sub cmd d x m : done_leg w p a ds r -> In (a, u, ARequest sub cmd d x (Some (Ok m))) ds -> exchanged u sub cmd d m (history w a).
Proof.
  intros (l & ws & -> & (s & A & G)) H. apply in_deeds in H as [_ H]. rewrite (history_of _ _ _ A).
  apply (G_done _ _ G u (ARequest sub cmd d x (Some (Ok m)))). unfold doings. cbn [h_trace h_place]. rewrite app_nil_r. exact H.
Qed.
Definition limit_for (product : Z) : Z := if product =? 1 then 16 else 2.
Lemma well_course c x t auto ds at_ : xreachable c x -> In (XOver t auto ds (Ok tt) at_) (x_log x) ->
  exists a1 u1 m1 a2 u2 m2 forming a4 u4 m4 v i n q,
    ds = (a1, u1, ARequest SYS "ping" [("capabilities", VInt 1)] [0] (Some (Ok m1))) :: (a2, u2, ARequest SYS "version" [] [0] (Some (Ok m2))) ::
         forming ++ [(a4, u4, ARequest UTIL "getDeviceInfo" [] [0] (Some (Ok m4)))] /\
    dict_get (z_payload m2) "product" = Some (VInt (version_of v)) /\
    dict_get (z_payload m4) "ieeeaddr" = Some (VEui i) /\ dict_get (z_payload m4) "shortaddr" = Some (VInt n) /\
    In (WNewSem q (if version_of v =? 1 then 16 else 2)) (w_log (x_world x)) /\ In (WAdded i n) (w_log (x_world x)) /\
    if auto
    then exists a3 l led tr r, forming = map (fun y => (a3, fst y, snd y)) l ++ led /\ Forall2 like (map snd l) tr /\
      runs (start_znp (version_of v) (network_options c) 2948 false) tr (Returned r) /\
      (led = [] \/ exists a u, led = [(a, u, ASpawn UTIL "ledControl" (led_payload 0))])
    else forming = [].
Proof.
  intros R H. apply xreach_inv in R. destruct (I_over c x R t auto ds (Ok tt) at_ H) as [O _]. remember (Ok tt) as r0 eqn:Er.
  destruct O as [ds p a l ws e F L|a1 ds1 a2 ds2 z D1 D2 U|ds a ds' i n F D W]; try discriminate Er.
  destruct (done_device _ _ _ _ _ D) as (u4 & m4 & -> & Ei & En). remember part_device as p eqn:Ep.
  destruct F as [|a1 ds1 D1|a1 ds1 a2 ds2 z q D1 D2 K Q|a1 ds1 a2 ds2 z q a3 ds3 r led Ea D1 D2 K Q D3 Ld].
  - discriminate Ep.
  - discriminate Ep.
  - destruct auto; [discriminate Ep|]. destruct (done_ping _ _ _ D1) as (u1 & m1 & ->). destruct (done_version _ _ _ _ D2) as (u2 & m2 & -> & Ez).
    destruct (known_firmware z K) as [v ->]. exists a1, u1, m1, a2, u2, m2, [], a, u4, m4, v, i, n, q.
    split; [reflexivity|]. split; [exact Ez|]. split; [exact Ei|]. split; [exact En|]. split; [exact Q|]. split; [exact W|reflexivity].
  - destruct (done_ping _ _ _ D1) as (u1 & m1 & ->). destruct (done_version _ _ _ _ D2) as (u2 & m2 & -> & Ez).
    destruct (known_firmware z K) as [v ->]. destruct (done_form _ _ _ _ _ _ D3) as (l & tr & -> & F & Rt).
    exists a1, u1, m1, a2, u2, m2, (deeds_of a3 l ++ led), a, u4, m4, v, i, n, q. rewrite Ea.
    split; [cbn [app]; rewrite <- !app_assoc; reflexivity|]. split; [exact Ez|]. split; [exact Ei|]. split; [exact En|]. split; [exact Q|]. split; [exact W|].
    exists a3, l, led, tr, r. split; [reflexivity|]. split; [exact F|]. split; [exact Rt|]. destruct Ld as [->|(b & u & s & -> & _)]; [left; reflexivity|right; eauto].
Qed.
(** ** where the application's knowledge comes from *)
Lemma sem_source c x q n : xreachable c x -> In (WNewSem q n) (w_log (x_world x)) ->
  exists a u m p, exchanged u SYS "version" [] m (history (x_world x) a) /\ dict_get (z_payload m) "product" = Some (VInt p) /\ n = if p =? 1 then 16 else 2.
Proof.
  intros R H. apply xreach_inv in R. destruct (I_sems c x R q n H) as (a & ds & p & D & ->). destruct (done_version _ _ _ _ D) as (u & m & E & Ez).
  exists a, u, m, p. split; [|split; [exact Ez|reflexivity]]. eapply done_exchanged; [exact D|]. rewrite E. left. reflexivity.
Qed.
Lemma device_source c x i n : xreachable c x -> In (WAdded i n) (w_log (x_world x)) ->
  exists a u m, exchanged u UTIL "getDeviceInfo" [] m (history (x_world x) a) /\ dict_get (z_payload m) "ieeeaddr" = Some (VEui i) /\ dict_get (z_payload m) "shortaddr" = Some (VInt n).
Proof.
  intros R H. apply xreach_inv in R. destruct (I_devs c x R i n H) as (a & ds & D). destruct (done_device _ _ _ _ _ D) as (u & m & E & Ei & En).
  exists a, u, m. split; [|split; [exact Ei|exact En]]. eapply done_exchanged; [exact D|]. rewrite E. left. reflexivity.
Qed.
Lemma reconnect_forms c x t auto ds k : xreachable c x -> attempted x t auto ds -> nth_error (y_tasks (w_life (x_world x))) t = Some k -> k_loop k = true -> auto = true.
Proof.
  intros R H G K. apply xreach_inv in R. destruct H as [(r & at_ & H)|(p & P & A & _)].
  - destruct (I_over c x R t auto ds r at_ H) as (_ & [E|(k' & G' & K')]); congruence.
  - destruct (I_loops c x R t) as [E|(k' & G' & K')]; congruence.
Qed.
(** ** what an attempt is told comes over the link *)
Lemma attempt_evidence c x t auto ds a u y : xreachable c x -> attempted x t auto ds -> In (a, u, y) ds ->
  match y with
  | ARequest sub cmd d _ (Some (Ok m)) => exchanged u sub cmd d m (history (x_world x) a)
  | ARequest sub cmd d _ (Some (Err e)) => In (OEnded u (OExn e)) (history (x_world x) a)
  | AAwait m (Ok r) => In (OReceived r) (history (x_world x) a)
  | AAwait m (Err e) => In (OEnded u (OExn e)) (history (x_world x) a)
  | _ => True
  end.
Proof.
  intros R H Hi. destruct (some_evidence _ _ _ _ _ _ _ (shape_legs _ _ _ _ _ _ _ (attempted_shape _ _ _ _ _ R H) Hi)) as (s & A & _ & E & _).
  rewrite (history_of _ _ _ A). destruct y as [? ? ? ? [[|]|]| |? [|]|]; exact E.
Qed.
