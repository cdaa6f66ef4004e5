(** * ShutProofs: proofs for PropsShut *)
From Coq Require Import ZifyBool ZifyNat.
From Verif Require Import Base Types Uart Buffalo CmdTable Zpi Api App Machine Life World SpecWire SpecCodec SpecApi SpecMachine SpecProgress SpecFirst SpecBlame SpecLife SpecWorld SpecWorldProgress SpecWorldBlame
  MachineBase MachineInv MachineInv2 MachineInv3 MachineInv4 MachineInv5 DispatchProofs MachineProofs MachineProgress LifeProofs2 LifeProofs3 WorldInv WorldBase WorldLife WorldOps WorldProofs2 WorldProofs3 WorldProgress WorldProgress2
  Nv StartZnp AppStart SpecStart Host HostProofs SpecHost SpecEnds StartProofs StartProofs5 StartLink AppStartProofs StartSend HostEnds
  Whole WholeInv WholeHost WholeBlind WholeBase WorldOwn WholeProofs WholeProofs2 WholeProofs3 SpecWhole WholeProofs4 WholeProofs5 WholeTime WholeInd WholeOwn WholeParts SpecWholeEnds
  SpecAppStart SpecWholeFail WholeEnds WholeEnds2 WholeFail HostBlame SpecFair WholeFair SpecWholeBlame WorldBlame2 WholeBlame SpecSerial SerialProofs SpecChron ChronProofs SpecUndisturbed UndisturbedProofs.

(** ** one event of the world, an open port *)
Notation shut_out u := (OEnded u (OExn AttributeError)).
Lemma open_step w e a s s' u k sub cmd d y : wreachable w -> wfields_exist (world_step e w) -> nth_error (w_apis w) a = Some s -> nth_error (w_apis (world_step e w)) a = Some s' ->
  s_open s = true -> get s' u = Some k -> t_job k = JCommand sub cmd d y -> can_send sub cmd d -> In (shut_out u) (s_log s') -> In (shut_out u) (s_log s).
Proof.
  intros (devs & es & ->) F A A' O G J C Hin.
  assert (E : world_step e (world_run es (world_init devs)) = world_run (es ++ [e]) (world_init devs)) by (unfold world_run; rewrite fold_left_app; reflexivity).
  rewrite E in F, A'. pose proof (wtask_blamed devs (es ++ [e]) a s' u k AttributeError F A' G) as X. rewrite J in X. specialize (X ltac:(discriminate) Hin).
  inversion X as [| |e0 U|S| | |]; subst.
  - rewrite J in U. destruct (command_sendable _ _ _ _ _ C U).
  - destruct S as (es1 & e1 & es2 & Es & (s1 & A1 & O1 & _) & (s2 & A2 & H2)). destruct es2 as [|e2 es2 _] using rev_ind.
    + apply app_inj_tail in Es as [<- <-]. congruence.
    + rewrite app_comm_cons, app_assoc in Es. apply app_inj_tail in Es as [-> _].
      destruct (ext_run (world_run (es1 ++ [e1]) (world_init devs)) es2 (wreach_run _ _ (wreach_init devs)) a s2 A2) as (s3 & A3 & P).
      replace (world_run es2 (world_run (es1 ++ [e1]) (world_init devs))) with (world_run (es1 ++ e1 :: es2) (world_init devs)) in A3 by (unfold world_run; rewrite <- fold_left_app, <- app_assoc; reflexivity).
      assert (s3 = s) as -> by congruence. eapply MachineInv2.grows_in; [apply log_xs, P|exact H2].
Qed.

(** ** one event and the request that is under way *)
Lemma next_there t q x p : b_part (x_boots (next_part t q x) t) = Some p -> exists q', r_place p = Ready q'.
Proof.
  unfold next_part. destruct (y_cur _) as [a|].
  - cbn [put_boot x_boots]. rewrite put_at_same. cbn [b_part]. intro E. injection E as <-. eexists. reflexivity.
  - rewrite over_boots, put_at_same. discriminate.
Qed.
Lemma next_elsewhere t q x u : u <> t -> x_boots (next_part t q x) u = x_boots x u.
Proof.
  intro N. unfold next_part. destruct (y_cur _) as [a|]; [cbn [put_boot x_boots]; apply put_at_other, N|]. rewrite over_boots. apply put_at_other, N.
Qed.
Definition stays (x x' : whole) (t : nat) (p : part) : Prop :=
  b_part (x_boots x t) = Some p /\ (x_world x' = x_world x \/ exists e, x_world x' = world_step e (x_world x)).
Definition begins (x x' : whole) (t : nat) (p : part) (u : Z) : Prop :=
  exists p0 s e, b_part (x_boots x t) = Some p0 /\ r_api p0 = r_api p /\ nth_error (w_apis (x_world x)) (r_api p) = Some s /\ u = s_ntid s /\ x_world x' = world_step e (x_world x).
Lemma request_step c e x t p u sub cmd d y k : XInv c x -> one_at_work (x_world x) ->
  b_part (x_boots (whole_step c e x) t) = Some p -> r_place p = Requesting u sub cmd d y k -> stays x (whole_step c e x) t p \/ begins x (whole_step c e x) t p u.
Proof.
  intros I W B Hp. destruct e as [auto r|t0|e]; cbn [whole_step] in *.
  - left. rewrite asleep_boots in B. cbn [put_boot x_boots tries xnote happens] in B. destruct (Nat.eq_dec t (length (y_tasks (w_life (x_world x))))) as [->|N]; [rewrite put_at_same in B; discriminate B|].
    rewrite put_at_other in B by exact N. split; [exact B|]. right. eexists. rewrite asleep_world. reflexivity.
  - destruct (b_part (x_boots x t0)) as [p0|] eqn:B0.
    2: { unfold boot_goes in *. rewrite B0 in *. left. split; auto. }
    destruct (Nat.eq_dec t t0) as [->|N].
    + unfold boot_goes in *. rewrite B0 in *.
      assert (Rest : forall w' p' ds, b_part (x_boots (put_boot t0 (mk_boot (b_auto (x_boots x t0)) (Some p') (b_deeds (x_boots x t0) ++ ds)) (mk_whole w' (x_boots x) (x_until x) (x_log x))) t0) = Some p -> p = p').
      { intros w' p' ds E. cbn [put_boot x_boots] in E. rewrite put_at_same in E. cbn [b_part] in E. congruence. }
      assert (No : forall q z, b_part (x_boots (next_part t0 q z) t0) = Some p -> False) by (intros q z E; apply next_there in E as [q' E]; congruence).
      assert (No2 : forall q z, b_part (x_boots (attempt_over t0 q z) t0) = Some p -> False) by (intros q z E; rewrite over_boots, put_at_same in E; discriminate E).
      unfold part_goes in *.
      destruct (r_place p0) as [[v|e|sub0 cmd0 d0 x0 k0|m to k0|o k0|sub0 cmd0 d0 k0]|u0 sub0 cmd0 d0 x0 k0|u0 m k0] eqn:P0.
      * exfalso. destruct v as [|product|r|ieee nwk].
        -- eapply No, B.
        -- cbv zeta in B. destruct (Whole.known_product product); [eapply No, B|eapply No2, B].
        -- destruct (set_led _ _) as [[|z zs]|e]; [eapply No, B|eapply No, B|eapply No2, B].
        -- eapply No2, B.
      * exfalso. eapply No2, B.
      * destruct (nth_error (w_apis (x_world x)) (r_api p0)) as [s|] eqn:A; cbv beta iota zeta in *; pose proof (Rest _ _ _ B) as Ep; subst p; [|congruence].
        right. cbn [r_place] in Hp. injection Hp as <- <- <- <- <-. exists p0, s. eexists. cbn [r_api]. repeat (split; [assumption || reflexivity|]). reflexivity.
      * destruct (nth_error (w_apis (x_world x)) (r_api p0)) as [s|] eqn:A; cbv beta iota zeta in *; pose proof (Rest _ _ _ B) as Ep; subst p; [discriminate Hp|congruence].
      * destruct (nth_error (w_apis (x_world x)) (r_api p0)) as [s|] eqn:A; [destruct (object o (r_waiters p0))|]; cbv beta iota zeta in *; pose proof (Rest _ _ _ B) as Ep; subst p; [discriminate Hp|congruence|congruence].
      * destruct (nth_error (w_apis (x_world x)) (r_api p0)) as [s|] eqn:A; cbv beta iota zeta in *; pose proof (Rest _ _ _ B) as Ep; subst p; [discriminate Hp|congruence].
      * destruct (nth_error (w_apis (x_world x)) (r_api p0)) as [s|] eqn:A; [destruct (came_back s u0)|]; cbv beta iota zeta in *; pose proof (Rest _ _ _ B) as Ep; subst p; [discriminate Hp| |];
          (left; split; [exact B0|left; reflexivity]).
      * destruct (nth_error (w_apis (x_world x)) (r_api p0)) as [s|] eqn:A; [destruct (came_back s u0)|]; cbv beta iota zeta in *; pose proof (Rest _ _ _ B) as Ep; subst p; [discriminate Hp|congruence|congruence].
    + exfalso. destruct (moved_boot_goes c t0 x) as [ext M]. assert (E : x_boots (boot_goes c t0 x) t = x_boots x t) by (destruct M as [(U & _)|(U & _)]; apply U, N). rewrite E in B.
      pose proof (I_boots c x I t) as B1. pose proof (I_boots c x I t0) as B2. unfold boot_ok in B1, B2. rewrite B in B1. rewrite B0 in B2.
      destruct (N (W t t0 (starting_work _ _ (proj1 B1)) (starting_work _ _ (proj1 B2)))).
  - left. destruct (from_outside x e) eqn:O; [|split; [exact B|left; reflexivity]].
    assert (Z : b_part (x_boots (happens e x) t) = Some p -> stays x (happens e x) t p) by (intro E; split; [exact E|right; eexists; reflexivity]).
    destruct e as [| | | | | | | | | |e| |]; try exact (Z B). destruct e as [r| |g|t0 r]; try exact (Z B). clear Z. cbv zeta in *.
    set (x1 := match stage_of (x_world x) t0 with Some KSleep => _ | _ => _ end) in *.
    assert (H1 : x_world x1 = x_world x /\ x_boots x1 = x_boots x) by (unfold x1; destruct (stage_of (x_world x) t0) as [[]|]; auto; destruct r as [v|[]]; auto).
    destruct H1 as (W1 & B1). clearbody x1. set (x2 := falls_asleep t0 (happens (VLife (VGo t0 r)) x1)) in *.
    assert (W2 : x_world x2 = world_step (VLife (VGo t0 r)) (x_world x)) by (unfold x2; rewrite asleep_world; cbn [happens x_world]; rewrite W1; reflexivity).
    assert (B2 : x_boots x2 = x_boots x) by (unfold x2; rewrite asleep_boots; exact B1). clearbody x2.
    destruct (starting (x_world x2) t0) eqn:St; [|rewrite B2 in B; split; [exact B|right; eexists; exact W2]].
    destruct (Nat.eq_dec t t0) as [->|N]; [apply next_there in B as [q E]; congruence|]. rewrite next_elsewhere, B2 in B by exact N. split; [exact B|].
    right. unfold next_part in *. destruct (y_cur (w_life (x_world x2))) eqn:Cu; [eexists; exact W2|].
    exfalso. assert (R2 : wreachable (x_world x2)) by (rewrite W2; apply wreach_step, (I_world c x I)). destruct (starting_cur _ _ R2 St) as (a & s & Ca & _). congruence.
Qed.

(** ** no request of a start-up that is alone finds its port closed *)
Definition Clear (x : whole) : Prop := forall t p u sub cmd d y k s, b_part (x_boots x t) = Some p -> r_place p = Requesting u sub cmd d y k ->
  nth_error (w_apis (x_world x)) (r_api p) = Some s -> ~ In (shut_out u) (s_log s).
Definition linked_all (x : whole) : Prop := forall t p, b_part (x_boots x t) = Some p -> link_open (x_world x) (r_api p).
Lemma request_job c x t p u sub cmd d y k s : valid_config c -> xreachable c x -> b_part (x_boots x t) = Some p -> r_place p = Requesting u sub cmd d y k ->
  nth_error (w_apis (x_world x)) (r_api p) = Some s -> can_send sub cmd d /\ exists q, get s u = Some q /\ t_job q = JCommand sub cmd d y.
Proof.
  intros V R B Hp A. pose proof (I_boots c x (xreach_inv c x R) t) as Bt. unfold boot_ok in Bt. rewrite B in Bt. destruct Bt as (_ & pre & p0 & l & E & F & L).
  assert (D : attempted x t (b_auto (x_boots x t)) (b_deeds (x_boots x t) ++ deeds_of (r_api p) (place_deeds (r_place p)))) by (right; exists p; rewrite Hp; auto).
  pose proof (attempted_shape c x t _ _ R D) as Sh.
  assert (Hi : In (r_api p, u, ARequest sub cmd d y None) (b_deeds (x_boots x t) ++ deeds_of (r_api p) (place_deeds (r_place p)))) by (apply in_or_app; right; rewrite Hp; left; reflexivity).
  pose proof (shape_legs _ _ _ _ _ _ _ Sh Hi) as Lg. destruct (some_evidence _ _ _ _ _ _ _ Lg) as (s' & A' & (j & (q & G & J1) & J2) & _).
  assert (s' = s) as -> by congruence. split.
  - destruct Lg as [(p1 & l1 & pl & ws & L1 & Hil & _ & P)|(s' & C & _)]; [|discriminate C].
    exact (proj1 (leg_acts _ _ _ _ _ _ c V L1 ltac:(destruct P as [P|(v & _ & P & _)]; eauto) u _ Hil)).
  - exists q. split; [exact G|]. cbn [job_of] in J2. congruence.
Qed.
Lemma clear_step c e x : valid_config c -> xreachable c x -> one_at_work (x_world x) -> linked_all x -> wfields_exist (x_world (whole_step c e x)) -> Clear x -> Clear (whole_step c e x).
Proof.
  intros V R W O F H t p u sub cmd d y k s' B Hp A' Hin. pose proof (xreach_inv c x R) as I. pose proof (I_world c x I) as Rw.
  assert (R' : xreachable c (whole_step c e x)) by (destruct R as (devs & es & ->); exists devs, (es ++ [e]); unfold whole_run; rewrite fold_left_app; reflexivity).
  destruct (request_job c _ t p u sub cmd d y k s' V R' B Hp A') as (C & q & G & J).
  destruct (request_step c e x t p u sub cmd d y k I W B Hp) as [[B0 [E|(e1 & E)]]|(p0 & s & e1 & B0 & Ea & A & Eu & E)].
  - rewrite E in A'. exact (H t p u sub cmd d y k s' B0 Hp A' Hin).
  - destruct (O t p B0) as (_ & y0 & g & z & s & _ & _ & _ & _ & A & Op). rewrite E in A', F.
    exact (H t p u sub cmd d y k s B0 Hp A (open_step _ e1 _ s s' u q sub cmd d y Rw F A A' Op G J C Hin)).
  - destruct (O t p0 B0) as (_ & y0 & g & z & s1 & _ & _ & _ & _ & A1 & Op). rewrite Ea in A1. assert (s1 = s) as -> by congruence. rewrite E in A', F.
    pose proof (open_step _ e1 _ s s' u q sub cmd d y Rw F A A' Op G J C Hin) as H1. pose proof (wreach_winv _ _ s Rw A) as Wi.
    destruct (life_of s u (V_life _ Wi)) as (_ & _ & L3). destruct (L3 _ H1) as (k' & G' & _). destruct (V_tids _ Wi) as [_ T]. specialize (T u k' G'). lia.
Qed.

(** ** what they did *)
Definition shut_act (d : deed) : Prop := match snd d with ARequest _ _ _ _ (Some (Err AttributeError)) => True | _ => False end.
Definition Told (x : whole) : Prop := (forall d, In d (by_attempt x) -> ~ shut_act d) /\ forall t d, In d (b_deeds (x_boots x t)) -> ~ shut_act d.
Lemma told_goes c t x : exists ext, moved t x (boot_goes c t x) ext /\ forall d, In d ext -> shut_act d ->
  exists p u sub cmd z y k s, b_part (x_boots x t) = Some p /\ r_place p = Requesting u sub cmd z y k /\ nth_error (w_apis (x_world x)) (r_api p) = Some s /\ came_back s u = Some (Err AttributeError).
Proof.
  unfold boot_goes. destruct (b_part (x_boots x t)) as [p|] eqn:B; [|exists []; split; [left; apply on_refl; reflexivity|intros d []]].
  assert (Rest : forall w' p' ds, moved t x (put_boot t (mk_boot (b_auto (x_boots x t)) (Some p') (b_deeds (x_boots x t) ++ ds)) (mk_whole w' (x_boots x) (x_until x) (x_log x))) ds).
  { intros w' p' ds. left. split; [intros u N; cbn [put_boot x_boots]; rewrite put_at_other by exact N; reflexivity|]. split; [reflexivity|].
    cbn [put_boot x_boots]. rewrite put_at_same. reflexivity. }
  unfold part_goes. destruct (r_place p) as [[v|e|sub cmd d x0 k|m to k|o k|sub cmd d k]|t0 sub cmd d x0 k|t0 m k] eqn:P.
  - destruct v as [|product|r|ieee nwk].
    + exists []. split; [apply moved_next, on_refl; reflexivity|intros d []].
    + exists []. cbv zeta. split; [destruct (Whole.known_product product); [apply moved_next|apply moved_over]; apply on_refl; reflexivity|intros d []].
    + destruct (set_led _ _) as [[|z zs]|e]; [exists []; split; [apply moved_next, on_refl; reflexivity|intros d []]| |exists []; split; [apply moved_over, on_refl; reflexivity|intros d []]].
      assert (K : exists ext, on_with t x (led_off t x) ext /\ forall d, In d ext -> ~ shut_act d).
      { assert (Z : exists ext, on_with t x x ext /\ forall d, In d ext -> ~ shut_act d) by (exists []; split; [apply on_refl; reflexivity|intros d []]). unfold led_off. destruct (y_cur _) as [a|]; [|exact Z]. destruct (nth_error _ a) as [m|]; [|exact Z].
        eexists. split; [split; [intros u N; cbn [put_boot x_boots happens]; rewrite put_at_other by exact N; reflexivity|]; split; [reflexivity|]; cbn [put_boot x_boots happens]; rewrite put_at_same; reflexivity|].
        intros d [<-|[]] []. }
      destruct K as (ext & K & N). exists ext. split; [apply moved_next, K|]. intros d Hd Sd. destruct (N d Hd Sd).
    + exists []. split; [apply moved_over, on_refl; reflexivity|intros d []].
  - exists []. split; [apply moved_over, on_refl; reflexivity|intros d []].
  - destruct (nth_error (w_apis (x_world x)) (r_api p)) as [s|]; eexists; (split; [apply Rest|intros d0 []]).
  - destruct (nth_error (w_apis (x_world x)) (r_api p)) as [s|]; eexists; (split; [apply Rest|]); [intros d0 [<-|[]] []|intros d0 []].
  - destruct (nth_error (w_apis (x_world x)) (r_api p)) as [s|]; [destruct (object o (r_waiters p))|]; eexists; (split; [apply Rest|intros d0 []]).
  - destruct (nth_error (w_apis (x_world x)) (r_api p)) as [s|]; eexists; (split; [apply Rest|]); [intros d0 [<-|[]] []|intros d0 []].
  - destruct (nth_error (w_apis (x_world x)) (r_api p)) as [s|] eqn:A; [destruct (came_back s t0) as [r|] eqn:Cb|]; eexists; (split; [apply Rest|]); [|intros d0 []|intros d0 []].
    intros d0 [<-|[]] S. exists p, t0, sub, cmd, d, x0, k, s. repeat (split; [assumption || reflexivity|]). destruct r as [m|[]]; try destruct S. exact Cb.
  - destruct (nth_error (w_apis (x_world x)) (r_api p)) as [s|] eqn:A; [destruct (came_back s t0) as [r|] eqn:Cb|]; eexists; (split; [apply Rest|]); [intros d0 [<-|[]] []|intros d0 []|intros d0 []].
Qed.
Lemma told_step c e x : XInv c x -> Clear x -> Told x -> Told (whole_step c e x).
Proof.
  intros I H [T1 T2]. assert (O : (forall t, e <> XGo t) -> Told (whole_step c e x)).
  { intro N. destruct (other_moves c e x I N) as [L B]. unfold Told. rewrite L. split; [exact T1|]. intros t d. rewrite B. apply T2. }
  destruct e as [auto r|t|e]; [apply O; discriminate| |apply O; discriminate]. clear O. cbn [whole_step].
  destruct (told_goes c t x) as (ext & M & N).
  assert (N' : forall d, In d ext -> ~ shut_act d).
  { intros d Hd Sd. destruct (N d Hd Sd) as (p & u & sub & cmd & z & y & k & s & B & Hp & A & Cb). apply (H t p u sub cmd z y k s B Hp A).
    unfold came_back in Cb. destruct (get s u) as [q|] eqn:G; [|discriminate Cb]. eapply ended_logged; [apply (V_life _ (wreach_winv _ _ s (I_world c x I) A))|exact G|].
    destruct (t_phase q); try discriminate Cb. match goal with r : outcome |- _ => destruct r as [[m|]|e|] end; try discriminate Cb; congruence. }
  set (x' := boot_goes c t x) in *. clearbody x'.
  assert (D : forall d, In d (b_deeds (x_boots x t) ++ ext) -> ~ shut_act d) by (intros d Hd; apply in_app_or in Hd as [Hd|Hd]; [apply (T2 t d Hd)|apply (N' d Hd)]).
  destruct M as [(U & L & K)|(U & K & auto & r & at_ & L)]; split.
  - unfold by_attempt. rewrite L. exact T1.
  - intros u d. destruct (Nat.eq_dec u t) as [->|Nu]; [rewrite K; apply D|rewrite U by exact Nu; apply T2].
  - rewrite (by_note x x' _ L). cbn [map over_deeds concat]. rewrite app_nil_r. intros d Hd. apply in_app_or in Hd as [Hd|Hd]; [apply T1, Hd|apply D, Hd].
  - intros u d. destruct (Nat.eq_dec u t) as [->|Nu]; [rewrite K; intros []|rewrite U by exact Nu; apply T2].
Qed.
Lemma one_by_one_app c es es' : forall x, one_by_one c (es ++ es') x -> one_by_one c es x.
Proof. induction es as [|e es IH]; intros x H; [exact Logic.I|]. split; [apply H|apply IH, H]. Qed.
Lemma clear_run c es devs : valid_config c -> one_by_one c es (whole_init devs) -> Forall no_shutdown es -> let x := whole_run c es (whole_init devs) in
  wfields_exist (x_world x) -> Clear x /\ Told x.
Proof.
  intro V. induction es as [|e es IH] using rev_ind; intros H N x F.
  - split; [intros t p u sub cmd d y k s B; discriminate B|]. split; [intros d []|intros t d []].
  - pose proof (one_by_one_app c es [e] _ H) as H1. apply Forall_app in N as [N1 _]. set (x0 := whole_run c es (whole_init devs)) in *.
    assert (E : x = whole_step c e x0) by (unfold x, x0, whole_run; rewrite fold_left_app; reflexivity). clearbody x. subst x.
    assert (R : xreachable c x0) by (exists devs, es; reflexivity). pose proof (xreach_inv c x0 R) as I.
    assert (F0 : wfields_exist (x_world x0)).
    { intros a s A. destruct (ext_of c [e] x0 I a s A) as (s' & A' & P). eapply fields_x; [exact P|exact (F a s' A')]. }
    destruct (IH H1 N1 F0) as [C T]. split; [|apply told_step; assumption].
    apply clear_step; try assumption; [apply (solo_init c es devs H1)|]. intros t p B. exact (undisturbed c es devs t p H1 N1 B).
Qed.
Lemma never_shut_out c es devs t auto ds r at_ : valid_config c -> one_by_one c es (whole_init devs) -> Forall no_shutdown es -> let x := whole_run c es (whole_init devs) in
  wfields_exist (x_world x) -> In (XOver t auto ds r at_) (x_log x) -> r <> Err AttributeError /\ forall a u sub cmd d y, ~ In (a, u, ARequest sub cmd d y (Some (Err AttributeError))) ds.
Proof.
  intros V H N x F Hi. destruct (clear_run c es devs V H N F) as [_ [T _]]. fold x in T.
  assert (D : forall a u sub cmd d y, ~ In (a, u, ARequest sub cmd d y (Some (Err AttributeError))) ds).
  { intros a u sub cmd d y Hd. apply (T (a, u, ARequest sub cmd d y (Some (Err AttributeError)))); [|exact Logic.I]. unfold by_attempt. apply in_concat. exists ds. split; [apply in_map_iff; exists (XOver t auto ds r at_); auto|exact Hd]. }
  split; [|exact D]. intros ->. assert (R : xreachable c x) by (exists devs, es; reflexivity). destruct (histories_exist c x R) as (devs' & es' & E).
  destruct (xstartup_blamed c devs' es' x t auto ds AttributeError at_ V R E F Hi) as (ds' & a & u & y & -> & Fl & (s & _ & k & _ & Y)).
  destruct y as [sub cmd d1 z [[m|e']|]|m to|m [m'|e']|sub cmd d1]; cbn [failed] in Fl; try contradiction.
  - destruct Fl as (Fl & _). discriminate Fl.
  - apply (D a u sub cmd d1 z). apply in_or_app. right. left. repeat f_equal. destruct e'; try (symmetry; exact Fl); try discriminate Fl. destruct (_ && _) in Fl; discriminate Fl.
  - destruct Fl as (Fl & _). discriminate Fl.
  - destruct Fl as [Fl|(Fl & _)]; [|discriminate Fl]. subst e'. destruct Y as (to & _ & Y). inversion Y.
Qed.
