(** * WholeParts: to which API objects a start-up makes its requests *)
From Coq Require Import ZifyBool ZifyNat.
From Verif Require Import Base Types Uart Buffalo CmdTable Zpi Api App Machine Life World SpecMachine SpecLife SpecWorld WorldLife WorldProofs2
  Nv StartZnp AppStart SpecStart SpecAppStart StartProofs AppStartProofs Host SpecHost
  Whole WholeBase WholeProofs WholeProofs2 SpecWhole WholeBlind WholeProofs3 WholeProofs4 WholeTime.

Lemma one_command p tr f sub cmd : runs p tr f ->
  (sub = SYS /\ cmd = "ping" /\ p = part_ping \/ sub = SYS /\ cmd = "version" /\ p = part_version \/ sub = UTIL /\ cmd = "getDeviceInfo" /\ p = part_device) ->
  forall y, In y tr -> exists d x r, y = ARequest sub cmd d x r.
Proof.
  assert (Q : forall {A} s c d x (k : zpi -> prog A) tr f, (forall m t g, runs (k m) t g -> t = []) -> runs (StartZnp.seq (request s c d x) k) tr f -> forall y, In y tr -> exists r, y = ARequest s c d x r).
  { clear. intros A sub cmd d x k tr f K H y Hy. apply runs_seq in H as [(t1 & t2 & m & -> & H1 & H2)|[[H ->]|(e & H & ->)]].
    - apply K in H2. subst t2. rewrite app_nil_r in Hy. apply request_inv in H1 as [[-> _]|[[-> _]|(r & -> & _)]]; [contradiction|destruct Hy as [<-|[]]; eauto..].
    - apply request_inv in H as [[-> _]|[[-> _]|(r & -> & _)]]; [contradiction|destruct Hy as [<-|[]]; eauto..].
    - apply request_inv in H as [[-> _]|[[-> _]|(r & -> & _)]]; [contradiction|destruct Hy as [<-|[]]; eauto..]. }
  intros R [(-> & -> & ->)|[(-> & -> & ->)|(-> & -> & ->)]] y Hy.
  - unfold part_ping in R. assert (P : forall t g, runs ping t g -> In y t -> exists d x r, y = ARequest SYS "ping" d x r).
    { intros t g H Hi. apply ping_inv in H as [[-> _]|[[-> _]|(r & -> & _)]]; [contradiction|destruct Hi as [<-|[]]; unfold ping_act; eauto..]. }
    apply runs_seq in R as [(t1 & t2 & m & -> & H1 & H2)|[[H ->]|(e & H & ->)]]; eauto.
    apply runs_ret_inv in H2 as [-> _]. rewrite app_nil_r in Hy. eauto.
  - unfold part_version, ask_version in R. eapply Q in R as (r & E); [eauto| |exact Hy].
    intros m t g K. unfold field in K. destruct (dict_get (z_payload m) "product") as [[]|]; cbn [StartZnp.seq] in K; inversion K; reflexivity.
  - unfold part_device in R. eapply Q in R as (r & E); [eauto| |exact Hy].
    intros m t g K. unfold field in K. destruct (dict_get (z_payload m) "ieeeaddr") as [i|]; cbn [StartZnp.seq] in K; [|inversion K; reflexivity].
    destruct (dict_get (z_payload m) "shortaddr") as [n|]; cbn [StartZnp.seq] in K; [|inversion K; reflexivity]. destruct i; try (inversion K; reflexivity). destruct n; inversion K; reflexivity.
Qed.
Lemma leg_only w p a l pl ws sub cmd : Leg w p a l pl ws ->
  (sub = SYS /\ cmd = "ping" /\ p = part_ping \/ sub = SYS /\ cmd = "version" /\ p = part_version \/ sub = UTIL /\ cmd = "getDeviceInfo" /\ p = part_device) ->
  only sub cmd (l ++ place_deeds pl).
Proof.
  intros L P. assert (S : safe p) by (destruct P as [(_ & _ & ->)|[(_ & _ & ->)|(_ & _ & ->)]]; [apply safe_ping|apply safe_version|apply safe_device]).
  destruct (leg_run _ _ _ _ _ _ L S) as (tr & F & R). apply Forall_forall. intros [u y] Hi. destruct (likes_in _ _ y F) as (y' & Hy & Ly); [apply in_map_iff; exists (u, y); auto|].
  destruct (one_command p tr _ sub cmd R P y' Hy) as (d & x & r & ->). apply like_request in Ly. subst y. cbn [snd]. eauto.
Qed.
Lemma done_only w p a ds r sub cmd : done_leg w p a ds r ->
  (sub = SYS /\ cmd = "ping" /\ p = part_ping \/ sub = SYS /\ cmd = "version" /\ p = part_version \/ sub = UTIL /\ cmd = "getDeviceInfo" /\ p = part_device) ->
  exists l, ds = made_to a l /\ only sub cmd l.
Proof. intros (l & ws & -> & L) P. exists l. split; [reflexivity|]. apply leg_only with (sub := sub) (cmd := cmd) in L; [|exact P]. cbn [place_deeds] in L. rewrite app_nil_r in L. exact L. Qed.
Lemma form_part w c v a l pl ws : Leg w (part_form (version_of v) c) a l pl ws ->
  exists tr f, Forall2 like (map snd (l ++ place_deeds pl)) tr /\ runs (start_znp (version_of v) (network_options c) 2948 false) tr f.
Proof. intro L. destruct (leg_run _ _ _ _ _ _ L (safe_form _ _)) as (tr & F & R). apply form_runs in R as (g & R). eauto. Qed.
Lemma reports_made a l p : reports (acts_of (made_to a l)) p -> reports (map snd l) p.
Proof. unfold acts_of, made_to. rewrite map_map. cbn [snd]. auto. Qed.
Definition formed (c : nwk_config) (auto : bool) (p2 p3 : list (Z * act)) (led : list deed) : Prop :=
  p3 = [] /\ led = [] \/
  auto = true /\ (led = [] \/ exists a u, led = [(a, u, ASpawn UTIL "ledControl" (led_payload 0))]) /\
  exists v tr f, reports (map snd p2) (version_of v) /\ Forall2 like (map snd p3) tr /\ runs (start_znp (version_of v) (network_options c) 2948 false) tr f.
Lemma attempt_parts c x t auto ds : xreachable c x -> attempted x t auto ds -> exists a1 p1 a2 p2 a3 p3 led a4 p4,
  ds = made_to a1 p1 ++ made_to a2 p2 ++ made_to a3 p3 ++ led ++ made_to a4 p4 /\
  only SYS "ping" p1 /\ only SYS "version" p2 /\ only UTIL "getDeviceInfo" p4 /\ formed c auto p2 p3 led.
Proof.
  intros R H. apply (attempted_shape c x t auto ds R) in H as (pre & p & a & l & pl & ws & -> & F & L). change (deeds_of a) with (made_to a) in *.
  assert (N : forall sub cmd, only sub cmd []) by constructor. assert (No : forall p2, formed c auto p2 [] []) by (left; auto).
  destruct F as [|a1 ds1 D1|a1 ds1 a2 ds2 z q D1 D2 K Q|a1 ds1 a2 ds2 z q a3 ds3 r led Ea D1 D2 K Q D3 Ld].
  - exists a, (l ++ place_deeds pl), a, [], a, [], [], a, []. split; [cbn [made_to map app]; rewrite app_nil_r; reflexivity|]. split; [eapply leg_only; [exact L|auto]|auto].
  - destruct (done_only _ _ _ _ _ SYS "ping" D1) as (l1 & -> & O1); [auto|].
    exists a1, l1, a, (l ++ place_deeds pl), a, [], [], a, []. split; [cbn [made_to map app]; rewrite app_nil_r; reflexivity|]. split; [exact O1|]. split; [eapply leg_only; [exact L|auto]|auto].
  - destruct (done_only _ _ _ _ _ SYS "ping" D1) as (l1 & -> & O1); [auto|]. pose proof (version_reported _ _ _ _ D2) as Rp. destruct (done_only _ _ _ _ _ SYS "version" D2) as (l2 & -> & O2); [auto|].
    apply reports_made in Rp. destruct (known_firmware z K) as [v ->]. destruct auto.
    + exists a1, l1, a2, l2, a, (l ++ place_deeds pl), [], a, []. split; [cbn [made_to map app]; rewrite app_nil_r, <- app_assoc; reflexivity|].
      split; [exact O1|]. split; [exact O2|]. split; [apply N|]. right. split; [reflexivity|]. split; [left; reflexivity|]. destruct (form_part _ _ _ _ _ _ _ L) as (tr & f & ? & ?). exists v, tr, f. auto.
    + exists a1, l1, a2, l2, a, [], [], a, (l ++ place_deeds pl). split; [cbn [made_to map app]; rewrite <- app_assoc; reflexivity|].
      split; [exact O1|]. split; [exact O2|]. split; [eapply leg_only; [exact L|auto 10]|apply No].
  - destruct (done_only _ _ _ _ _ SYS "ping" D1) as (l1 & -> & O1); [auto|]. pose proof (version_reported _ _ _ _ D2) as Rp. destruct (done_only _ _ _ _ _ SYS "version" D2) as (l2 & -> & O2); [auto|].
    apply reports_made in Rp. destruct (known_firmware z K) as [v ->]. destruct D3 as (l3 & ws3 & -> & L3).
    exists a1, l1, a2, l2, a3, l3, led, a, (l ++ place_deeds pl). split; [rewrite <- !app_assoc; reflexivity|].
    split; [exact O1|]. split; [exact O2|]. split; [eapply leg_only; [exact L|auto 10]|]. right. split; [exact Ea|].
    split; [destruct Ld as [->|(b & u & s & -> & _)]; [left; reflexivity|right; eauto]|].
    destruct (form_part _ _ _ _ _ _ _ L3) as (tr & f & H1 & H2). cbn [place_deeds] in H1. rewrite app_nil_r in H1. exists v, tr, f. auto.
Qed.
(** a part is made to the API object that the application has when the part begins *)
Definition begun (b b' : boot) (cur : option nat) : Prop :=
  forall p', b_part b' = Some p' -> (exists p, b_part b = Some p /\ r_api p = r_api p') \/ cur = Some (r_api p').
Lemma begun_same b cur : begun b b cur.
Proof. intros p' H. left. eauto. Qed.
Lemma part_goes_api p w : r_api (snd (fst (part_goes p w))) = r_api p.
Proof.
  unfold part_goes. destruct (nth_error _ _) as [s|]; [|reflexivity].
  destruct (r_place p) as [[v|e|sub cmd d x0 k|m to k|o k|sub cmd d k]|t0 sub cmd d x0 k|t0 m k]; try reflexivity; [destruct (object o _)|destruct (came_back s t0)..]; reflexivity.
Qed.
Lemma over_boots t r x u : x_boots (attempt_over t r x) u = put_at t (idle (b_auto (x_boots x t))) (x_boots x) u.
Proof. unfold attempt_over. rewrite asleep_boots. reflexivity. Qed.
Lemma next_begun t p x : starting (x_world x) t = true -> forall u, begun (x_boots x u) (x_boots (next_part t p x) u) (y_cur (w_life (x_world (next_part t p x)))).
Proof.
  intros S u. unfold next_part. destruct (y_cur (w_life (x_world x))) as [a|] eqn:C.
  - cbn [put_boot x_boots x_world]. rewrite C. destruct (Nat.eq_dec u t) as [->|N]; [rewrite put_at_same|rewrite put_at_other by exact N; apply begun_same]. intros p' [= <-]. right. reflexivity.
  - rewrite over_boots. destruct (Nat.eq_dec u t) as [->|N]; [rewrite put_at_same; discriminate|rewrite put_at_other by exact N; apply begun_same].
Qed.
Lemma over_begun t r x cur u : begun (x_boots x u) (x_boots (attempt_over t r x) u) cur.
Proof. rewrite over_boots. destruct (Nat.eq_dec u t) as [->|N]; [rewrite put_at_same; discriminate|rewrite put_at_other by exact N; apply begun_same]. Qed.
Lemma part_current c x e u : xreachable c x -> begun (x_boots x u) (x_boots (whole_step c e x) u) (y_cur (w_life (x_world (whole_step c e x)))).
Proof.
  intro R. apply xreach_inv in R. destruct e as [auto r|t|e]; cbn [whole_step].
  - rewrite asleep_boots. cbn [put_boot x_boots]. destruct (Nat.eq_dec u (length (y_tasks (w_life (x_world x))))) as [->|N]; [rewrite put_at_same; discriminate|rewrite put_at_other by exact N; apply begun_same].
  - pose proof (I_boots c x R t) as B. unfold boot_goes. unfold boot_ok in B. destruct (b_part (x_boots x t)) as [p|] eqn:Bp; [|apply begun_same]. destruct B as (S & _).
    assert (Rest : begun (x_boots x u) (x_boots (let '(w, p', ds) := part_goes p (x_world x) in
        put_boot t (mk_boot (b_auto (x_boots x t)) (Some p') (b_deeds (x_boots x t) ++ ds)) (mk_whole w (x_boots x) (x_until x) (x_log x))) u)
        (y_cur (w_life (x_world (let '(w, p', ds) := part_goes p (x_world x) in
        put_boot t (mk_boot (b_auto (x_boots x t)) (Some p') (b_deeds (x_boots x t) ++ ds)) (mk_whole w (x_boots x) (x_until x) (x_log x))))))).
    { pose proof (part_goes_api p (x_world x)) as E. destruct (part_goes p (x_world x)) as [[w' p'] ds]. cbn [fst snd] in E. cbn [put_boot x_boots x_world].
      destruct (Nat.eq_dec u t) as [->|N]; [rewrite put_at_same|rewrite put_at_other by exact N; apply begun_same]. intros q [= <-]. left. exists p. auto. }
    destruct (r_place p) as [[v|e|sub cmd d x0 k|m to k|o k|sub cmd d k]|t0 sub cmd d x0 k|t0 m k]; try exact Rest; clear Rest.
    + destruct v as [|product|r|ieee nwk].
      * apply next_begun, S.
      * cbv zeta. destruct (known_product product); [|apply (over_begun t (Err ValueError) (happens (VGotVersion t product) x))].
        apply (next_begun t _ (happens (VGotVersion t product) x)). rewrite got_starting; [exact S|exact I].
      * destruct (set_led _ _) as [[|z zs]|e]; [apply next_begun, S| |apply over_begun].
        assert (S2 : starting (x_world (led_off t x)) t = true).
        { unfold led_off. destruct (y_cur _) as [a|]; [|exact S]. destruct (nth_error _ a) as [s|]; [|exact S]. cbn [put_boot happens x_world]. rewrite starting_other; [exact S|reflexivity]. }
        intros p' H. destruct (next_begun t part_device (led_off t x) S2 u p' H) as [(p0 & B0 & E0)|C]; [|right; exact C]. left. exists p0. split; [|exact E0]. rewrite <- B0.
        unfold led_off. destruct (y_cur _) as [a|]; [|reflexivity]. destruct (nth_error _ a) as [s|]; [|reflexivity]. cbn [put_boot happens x_boots].
        destruct (Nat.eq_dec u t) as [->|N]; [rewrite put_at_same|rewrite put_at_other by exact N]; reflexivity.
      * apply (over_begun t (Ok tt) (happens (VGotDevice t ieee nwk) x)).
    + apply over_begun.
  - destruct (from_outside x e); [|apply begun_same]. destruct e as [| | | | | | | | | |e| |]; try apply begun_same. destruct e as [| | |t r]; try apply begun_same. cbv zeta.
    set (x1 := match stage_of (x_world x) t with Some KSleep => _ | _ => _ end). assert (E1 : x_boots x1 = x_boots x).
    { unfold x1. destruct (stage_of (x_world x) t) as [[]|]; try reflexivity. destruct r as [v|[]]; reflexivity. }
    set (x2 := falls_asleep t (happens (VLife (VGo t r)) x1)). assert (E2 : x_boots x2 = x_boots x) by (unfold x2; rewrite asleep_boots; exact E1). rewrite <- E2.
    destruct (starting (x_world x2) t) eqn:S; [apply next_begun, S|apply begun_same].
Qed.
