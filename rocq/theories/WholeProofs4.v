(** * WholeProofs4: what the attempts of start-ups leave on the links *)
From Coq Require Import ZifyBool ZifyNat.
From Verif Require Import Base Types Uart Buffalo CmdTable Zpi Api App Machine Life World SpecWire SpecCodec SpecMachine SpecLife SpecWorld
  ApiProofs AppProofs AppProofs2 MachineBase MachineInv MachineInv2 MachineInv5 DispatchProofs LifeProofs2 LifeProofs3 WorldInv WorldFace WorldBase WorldLife WorldProofs2 WorldProofs4
  Nv StartZnp AppStart SpecStart SpecAppStart StartProofs StartProofs2 StartProofs5 StartProofs8 StartSend AppStartProofs Host SpecHost HostProofs HostProofs2
  Whole WholeInv WholeHost WholeBase WholeProofs WholeProofs2 SpecWhole WholeBlind WholeProofs3.

Lemma xreach_inv c x : xreachable c x -> XInv c x.
Proof. intros (devs & es & ->). apply xinv_run, xinv_init. Qed.

(** ** every attempt: complete parts, and then one part, under way or over *)
Definition shape (c : nwk_config) (auto : bool) (w : world) (ds : list deed) : Prop :=
  exists pre p a l pl ws, ds = pre ++ deeds_of a (l ++ place_deeds pl) /\ so_far c auto w pre p /\ Leg w p a l pl ws.
Lemma over_shape c auto w ds r : over c auto w ds r -> shape c auto w ds.
Proof.
  intro H. destruct H as [ds p a l ws e F L|a1 ds1 a2 ds2 z D1 (l & ws & -> & L) U|ds a ds' i n F (l & ws & -> & L) _].
  - exists ds, p, a, l, (Ready (DRaise e)), ws. cbn [place_deeds]. rewrite app_nil_r. auto.
  - eexists ds1, part_version, a2, l, _, ws. split; [|split; [econstructor; exact D1|exact L]]. cbn [place_deeds]. rewrite app_nil_r. reflexivity.
  - eexists ds, part_device, a, l, _, ws. split; [|split; [exact F|exact L]]. cbn [place_deeds]. rewrite app_nil_r. reflexivity.
Qed.
Lemma attempted_shape c x t auto ds : xreachable c x -> attempted x t auto ds -> shape c auto (x_world x) ds.
Proof.
  intros R H. apply xreach_inv in R. destruct H as [(r & at_ & H)|(p & P & A & ->)].
  - eapply over_shape. apply (I_over c x R t auto ds r at_ H).
  - pose proof (I_boots c x R t) as B. unfold boot_ok in B. rewrite P in B. destruct B as (_ & pre & p0 & l & E & F & L). subst auto.
    exists pre, p0, (r_api p), l, (r_place p), (r_waiters p). split; [|auto]. rewrite E, <- app_assoc. f_equal. unfold deeds_of. rewrite map_app. f_equal.
    destruct (r_place p); reflexivity.
Qed.
Lemma runs_cut {A} (p : prog A) tr f : runs p tr f -> runs p tr Interrupted.
Proof. induction 1; constructor; auto. Qed.
Lemma shape_sim c auto w ds devs : shape c auto w ds ->
  exists tr, runs (app_startup auto c devs) tr Interrupted /\ Forall2 like (but_led (acts_of ds)) (but_led tr).
Proof.
  intros (pre & p & a & l & pl & ws & -> & F & L). destruct (far_sim c auto w pre p devs F) as (pr & Lp & N).
  destruct (leg_run _ _ _ _ _ _ L (far_safe _ _ _ _ _ F)) as (tr & Lt & R). exists (pr ++ tr). split; [exact (N tr _ (runs_cut _ _ _ R))|].
  rewrite acts_app, acts_deeds, !but_led_app. apply Forall2_app; [exact Lp|apply likes_but, Lt].
Qed.

(** ** the parts of an attempt *)
Definition version_part (p : prog part_result) : Prop := p = part_ping \/ p = part_version \/ p = part_device.
Definition some_leg (c : nwk_config) (auto : bool) (w : world) (ds : list deed) (a : nat) (u : Z) (y : act) : Prop :=
  (exists p l pl ws, Leg w p a l pl ws /\ In (u, y) (l ++ place_deeds pl) /\ incl (deeds_of a (l ++ place_deeds pl)) ds /\
     (version_part p \/ exists v, auto = true /\ p = part_form (version_of v) c /\ reports (acts_of ds) (version_of v))) \/
  exists s, y = ASpawn UTIL "ledControl" (led_payload LED_Off) /\ nth_error (w_apis w) a = Some s /\ has_job s u (JCommand UTIL "ledControl" (led_payload LED_Off) [0]).
Lemma in_deeds a u y b l : In (a, u, y) (deeds_of b l) -> a = b /\ In (u, y) l.
Proof. intro H. apply in_map_iff in H as ([t z] & E & Hi). injection E as <- <- <-. auto. Qed.
Lemma in_acts (d : deed) ds : In d ds -> In (snd d) (acts_of ds).
Proof. intro H. apply in_map, H. Qed.
Lemma known_firmware z : Whole.known_product z = true -> exists v, z = version_of v.
Proof.
  unfold Whole.known_product, zStack12, zStack3x0, zStack30x. intro E. assert (z = 0 \/ z = 1 \/ z = 2) as [->|[->| ->]] by lia; [exists Stack12|exists Stack3x0|exists Stack30x]; reflexivity.
Qed.
Lemma version_reported w a ds z : done_leg w part_version a ds (TVersion z) -> reports (acts_of ds) z.
Proof.
  intros (l & ws & -> & L). apply leg_goes in L. destruct (version_goes _ _ L) as (m & p & [= <-] & E & T & _). exists [], [0], m. split; [|exact E].
  rewrite acts_deeds, T. left. reflexivity.
Qed.
Lemma reports_in ds ds' z : incl ds ds' -> reports (acts_of ds) z -> reports (acts_of ds') z.
Proof. intros H (d & x & m & Hi & E). exists d, x, m. split; [|exact E]. apply in_map_iff in Hi as (e & E1 & E2). rewrite <- E1. apply in_acts, H, E2. Qed.
Lemma done_some c auto w ds p a b ds1 r u y : done_leg w p b ds1 r -> incl ds1 ds -> In (a, u, y) ds1 ->
  (version_part p \/ exists v, auto = true /\ p = part_form (version_of v) c /\ reports (acts_of ds) (version_of v)) -> some_leg c auto w ds a u y.
Proof.
  intros (l & ws & -> & L) I Hi P. apply in_deeds in Hi as [-> Hi]. left. exists p, l, (Ready (DRet r)), ws. cbn [place_deeds]. rewrite app_nil_r. auto.
Qed.
Lemma led_some c auto w ds led a u y : led_deed w led -> In (a, u, y) led -> some_leg c auto w ds a u y.
Proof. intros [->|(b & t & s & -> & A & J)]; [contradiction|]. intros [E|[]]. injection E as <- <- <-. right. exists s. auto. Qed.
Lemma shape_legs c auto w ds a u y : shape c auto w ds -> In (a, u, y) ds -> some_leg c auto w ds a u y.
Proof.
  intros (pre & p & b & l & pl & ws & -> & F & L) Hi. set (ds := pre ++ deeds_of b (l ++ place_deeds pl)).
  assert (Ip : incl pre ds) by apply incl_appl, incl_refl.
  assert (V : version_part part_ping /\ version_part part_version /\ version_part part_device) by (unfold version_part; auto). destruct V as (V1 & V2 & V3).
  assert (Last : version_part p \/ exists v, auto = true /\ p = part_form (version_of v) c /\ reports (acts_of ds) (version_of v)).
  { destruct F as [|a1 ds1 D|a1 ds1 a2 ds2 z q D1 D2 K Q|]; auto. destruct auto; [right|auto]. destruct (known_firmware z K) as [v ->]. exists v.
    split; [reflexivity|]. split; [reflexivity|]. eapply reports_in; [|eapply version_reported, D2]. eapply incl_tran; [|exact Ip]. apply incl_appr, incl_refl. }
  apply in_app_or in Hi as [Hi|Hi].
  2: { apply in_deeds in Hi as [-> Hi]. left. exists p, l, pl, ws. split; [exact L|]. split; [exact Hi|]. split; [apply incl_appr, incl_refl|exact Last]. }
  destruct F as [|a1 ds1 D|a1 ds1 a2 ds2 z q D1 D2 K Q|a1 ds1 a2 ds2 z q a3 ds3 r led Ea D1 D2 K Q D3 Ld].
  - contradiction.
  - eapply done_some; [exact D|exact Ip|exact Hi|auto].
  - apply in_app_or in Hi as [Hi|Hi]; [eapply done_some; [exact D1| |exact Hi|auto]|eapply done_some; [exact D2| |exact Hi|auto]]; (eapply incl_tran; [|exact Ip]).
    + apply incl_appl, incl_refl.
    + apply incl_appr, incl_refl.
  - apply in_app_or in Hi as [Hi|Hi]; [eapply done_some; [exact D1| |exact Hi|auto]; eapply incl_tran; [|exact Ip]; apply incl_appl, incl_refl|].
    assert (I2 : incl ds2 ds) by (eapply incl_tran; [|exact Ip]; apply incl_appr, incl_appl, incl_refl).
    apply in_app_or in Hi as [Hi|Hi]; [eapply done_some; [exact D2|exact I2|exact Hi|auto]|].
    apply in_app_or in Hi as [Hi|Hi]; [|eapply led_some; eassumption].
    eapply done_some; [exact D3| |exact Hi|].
    + eapply incl_tran; [|exact Ip]. apply incl_appr, incl_appr, incl_appl, incl_refl.
    + right. destruct (known_firmware z K) as [v ->]. exists v. split; [exact Ea|]. split; [reflexivity|]. eapply reports_in; [exact I2|eapply version_reported, D2].
Qed.

(** ** evidence *)
Lemma some_evidence c auto w ds a u y : some_leg c auto w ds a u y ->
  exists s, nth_error (w_apis w) a = Some s /\ (exists j, has_job s u j /\ job_of y j) /\ evidence u y (s_log s) /\ wait_evidence s y.
Proof.
  intros [(p & l & pl & ws & (s & A & G) & Hi & _)|(s & -> & A & J)]; exists s; (split; [exact A|]).
  - split; [apply (G_jobs p _ G u y), Hi|]. split; [apply (G_done p _ G u y), Hi|apply (G_came p _ G u y), Hi].
  - split; [exists (JCommand UTIL "ledControl" (led_payload LED_Off) [0]); split; [exact J|reflexivity]|]. split; exact I.
Qed.
Lemma history_of w a s : nth_error (w_apis w) a = Some s -> history w a = s_log s.
Proof. unfold history. intros ->. reflexivity. Qed.

(** ** frames *)
Lemma version_acts p tr f : version_part p -> runs p tr f -> forall y, In y tr -> exists r, y = ping_act r \/ y = version_act r \/ y = info_act r.
Proof.
  assert (Q : forall {A} sub cmd d x (k : zpi -> prog A) tr f, (forall m t g, runs (k m) t g -> t = []) -> runs (StartZnp.seq (request sub cmd d x) k) tr f -> forall y, In y tr -> exists r, y = ARequest sub cmd d x r).
  { clear. intros A sub cmd d x k tr f K H y Hy. apply runs_seq in H as [(t1 & t2 & m & -> & H1 & H2)|[[H ->]|(e & H & ->)]].
    - apply K in H2. subst t2. rewrite app_nil_r in Hy. apply request_inv in H1 as [[-> _]|[[-> _]|(r & -> & _)]]; [contradiction|destruct Hy as [<-|[]]; eauto..].
    - apply request_inv in H as [[-> _]|[[-> _]|(r & -> & _)]]; [contradiction|destruct Hy as [<-|[]]; eauto..].
    - apply request_inv in H as [[-> _]|[[-> _]|(r & -> & _)]]; [contradiction|destruct Hy as [<-|[]]; eauto..]. }
  intros [->|[->| ->]] R y Hy.
  - unfold part_ping in R. apply runs_seq in R as [(t1 & t2 & m & -> & H1 & H2)|[[H ->]|(e & H & ->)]].
    + apply runs_ret_inv in H2 as [-> _]. rewrite app_nil_r in Hy. apply ping_inv in H1 as [[-> _]|[[-> _]|(r & -> & _)]]; [contradiction|destruct Hy as [<-|[]]; eauto..].
    + apply ping_inv in H as [[-> _]|[[-> _]|(r & -> & _)]]; [contradiction|destruct Hy as [<-|[]]; eauto..].
    + apply ping_inv in H as [[-> _]|[[-> _]|(r & -> & _)]]; [contradiction|destruct Hy as [<-|[]]; eauto..].
  - unfold part_version, ask_version in R. eapply Q in R as (r & E); [exists r; right; left; exact E| |exact Hy].
    intros m t g K. unfold field in K. destruct (dict_get (z_payload m) "product") as [[]|]; cbn [StartZnp.seq] in K; inversion K; reflexivity.
  - unfold part_device in R. eapply Q in R as (r & E); [exists r; right; right; exact E| |exact Hy].
    intros m t g K. unfold field in K. destruct (dict_get (z_payload m) "ieeeaddr") as [i|]; cbn [StartZnp.seq] in K; [|inversion K; reflexivity].
    destruct (dict_get (z_payload m) "shortaddr") as [n|]; cbn [StartZnp.seq] in K; [|inversion K; reflexivity]. destruct i; try (inversion K; reflexivity). destruct n; inversion K; reflexivity.
Qed.
Lemma form_runs p c tr f : runs (part_form p c) tr f -> exists g, runs (start_znp p (network_options c) 2948 false) tr g.
Proof.
  intro R. apply runs_seq in R as [(t1 & t2 & m & -> & H1 & H2)|[[H ->]|(e & H & ->)]]; eauto. apply runs_ret_inv in H2 as [-> _]. rewrite app_nil_r. eauto.
Qed.
Lemma likes_in l tr y : Forall2 like l tr -> In y l -> exists y', In y' tr /\ like y y'.
Proof.
  induction 1 as [|b b' k k' E Lt IH]; [contradiction|]. intros [->|Hy]; [exists b'; split; [left; reflexivity|exact E]|].
  destruct (IH Hy) as (y' & ? & ?). exists y'. split; [right; assumption|assumption].
Qed.
Lemma leg_acts w p a l pl ws c : valid_config c -> Leg w p a l pl ws -> version_part p \/ (exists v, p = part_form (version_of v) c) -> forall u y, In (u, y) (l ++ place_deeds pl) ->
  act_sendable y /\ exists v, act_well_formed v (network_options c) y.
Proof.
  intros V L P u y Hi. destruct (options_valid c V) as [W _].
  assert (S : safe p) by (destruct P as [[->|[->| ->]]|[v ->]]; [apply safe_ping|apply safe_version|apply safe_device|apply safe_form]).
  destruct (leg_run _ _ _ _ _ _ L S) as (tr & Lt & R).
  assert (Hy : exists y', In y' tr /\ like y y') by (eapply likes_in; [exact Lt|]; apply in_map_iff; exists (u, y); auto).
  destruct Hy as (y' & Hy & Ly).
  enough (K : act_sendable y' /\ exists v, act_well_formed v (network_options c) y').
  { destruct y as [sub cmd d x r|m to|m [r|e]|sub cmd d]; cbn [like] in Ly; try (rewrite Ly; exact K); split; try exact I; exists Stack12; exact I. }
  destruct P as [P|[v ->]].
  - assert (Q : forall r, (act_sendable (ping_act r) /\ exists v, act_well_formed v (network_options c) (ping_act r)) /\
      (act_sendable (version_act r) /\ exists v, act_well_formed v (network_options c) (version_act r)) /\ (act_sendable (info_act r) /\ exists v, act_well_formed v (network_options c) (info_act r))).
    { intro r. cbn [act_sendable ping_act version_act info_act act_well_formed]. split; [|split]; (split; [sends; fits|exists Stack12; discriminate]). }
    destruct (version_acts p tr _ P R y' Hy) as (r & [->|[->| ->]]); apply (Q r).
  - apply form_runs in R as (g & R). split.
    + pose proof (start_sendable v _ 2948 false W ltac:(lia) _ _ R) as F. rewrite Forall_forall in F. apply F, Hy.
    + exists v. pose proof (start_well_formed v _ 2948 false W _ _ R) as F. rewrite Forall_forall in F. apply F, Hy.
Qed.
Lemma job_wrote s u y j at_ bs : Winv s -> has_job s u j -> job_of y j -> In (OWritten u at_ bs) (s_log s) ->
  match y with ARequest sub cmd d _ _ | ASpawn sub cmd d => exists o, from_command sub cmd d = Ok o /\ frame_bytes o bs | _ => False end.
Proof.
  intros V (k & G & Ej) Hj Hw. destruct (V_wrote _ V) as [_ W]. destruct (W u at_ bs Hw) as (_ & k' & o & G' & Hb & _ & Hf).
  assert (k' = k) by congruence. subst k'. rewrite Ej in Hb.
  assert (K : forall sub cmd d x, j = JCommand sub cmd d x -> exists o, from_command sub cmd d = Ok o /\ frame_bytes o bs).
  { intros sub cmd d x ->. exists o. split; [|exact Hf]. cbn [build] in Hb. destruct (from_command sub cmd d) as [|[]]; cbn [in_coroutine] in Hb; congruence. }
  destruct y; cbn [job_of] in Hj; [eapply K, Hj| | |eapply K, Hj].
  - rewrite Hj in Hb. discriminate Hb.
  - destruct Hj as (? & Hj). rewrite Hj in Hb. discriminate Hb.
Qed.
(** the act behind a frame of an attempt *)
Lemma attempt_frame c auto w ds a u y at_ bs : valid_config c -> wreachable w -> some_leg c auto w ds a u y -> In (OWritten u at_ bs) (history w a) ->
  exists v sub cmd d z, (y = ASpawn sub cmd d \/ exists x r, y = ARequest sub cmd d x r) /\
    item_well_formed v (network_options c) sub cmd d /\ can_send sub cmd d /\ from_command sub cmd d = Ok z /\ frame_bytes z bs.
Proof.
  intros V R H Hw. destruct (some_evidence _ _ _ _ _ _ _ H) as (s & A & (j & J1 & J2) & _). rewrite (history_of _ _ _ A) in Hw.
  pose proof (proj2 (proj2 (wreach_good _ R)) a s A) as Wi. pose proof (job_wrote s u y j at_ bs Wi J1 J2 Hw) as K.
  assert (Q : act_sendable y /\ exists v, act_well_formed v (network_options c) y).
  { destruct H as [(p & l & pl & ws & L & Hi & _ & P)|(s' & -> & _ & _)].
    - eapply leg_acts; [exact V|exact L| |exact Hi]. destruct P as [P|(v & _ & P & _)]; eauto.
    - split; [cbn [act_sendable]; unfold led_payload; sends; fits|exists Stack12; discriminate]. }
  destruct Q as (Q1 & v & Q2). destruct y as [sub cmd d x r|m to|m r|sub cmd d]; try contradiction; destruct K as (z & K1 & K2); exists v, sub, cmd, d, z.
  - split; [right; eauto|]. auto.
  - split; [left; reflexivity|]. auto.
Qed.

(** ** the marker comes last *)
Definition alike (d d' : Z * act) : Prop := fst d = fst d' /\ like (snd d) (snd d').
Lemma alike_of D tr : Forall2 like (map snd D) tr -> exists D', Forall2 alike D D' /\ map snd D' = tr.
Proof.
  revert tr. induction D as [|[t y] D IH]; intros tr H; cbn [map] in H; inversion H; subst; [exists []; split; constructor|].
  destruct (IH l' H4) as (D' & F & E). exists ((t, y0) :: D'). split; [constructor; [split; [reflexivity|assumption]|exact F]|cbn [map snd]; rewrite E; reflexivity].
Qed.
Lemma alike_fst D D' : Forall2 alike D D' -> map fst D' = map fst D.
Proof. induction 1 as [|d d' D D' [E _] F IH]; [reflexivity|]. cbn [map]. rewrite E, IH. reflexivity. Qed.
Lemma alike_in D D' d : Forall2 alike D D' -> In d D' -> exists d0, In d0 D /\ alike d0 d.
Proof. induction 1 as [|d1 d' D D' E F IH]; [contradiction|]. intros [->|H]; [exists d1; split; [left; reflexivity|exact E]|]. destruct (IH H) as (d0 & ? & ?). exists d0. split; [right|]; assumption. Qed.
Lemma like_request y sub cmd d x r : like y (ARequest sub cmd d x r) -> y = ARequest sub cmd d x r.
Proof. destruct y as [| |m [|]|]; cbn [like]; auto. Qed.
Lemma like_starts y y' : like y y' -> starts y' -> starts y.
Proof. destruct y as [| |m [r|e]|]; cbn [like starts]; auto; destruct y'; try discriminate; auto. Qed.
Lemma marker_same v v' o i b : In (i, b) (settings v' o ++ [(marker v', set_mark)]) -> i = marker v -> marker v = marker v' /\ settings v o = settings v' o.
Proof.
  intros H ->. unfold settings in H. destruct v, v'; cbn [app In marker] in *; try (split; reflexivity); exfalso;
    repeat (destruct H as [H|H]; [apply (f_equal fst) in H; discriminate H|]); contradiction.
Qed.
Lemma marker_last_attempt c x t auto ds a u y at_ bs la lb v e : valid_config c -> xreachable c x -> attempted x t auto ds -> In (a, u, y) ds ->
  history (x_world x) a = la ++ OWritten u at_ bs :: lb -> In bs (item_frames (marker v) e) ->
  e = set_mark /\
  forall i b, In (i, b) (settings v (network_options c)) -> exists u' y' at' bs' lb' m,
    In (a, u', y') ds /\ In bs' (item_frames i b) /\ outstanding u' at' bs' lb' la /\ In (OReceived m) lb' /\ stored_ok m.
Proof.
  intros V R T Hi El Hb. pose proof (attempted_shape c x t auto ds R T) as Sh. set (w := x_world x) in *.
  pose proof (I_world c x (xreach_inv c x R)) as Rw. pose proof (shape_legs _ _ _ _ _ _ _ Sh Hi) as Lg.
  assert (Hw : In (OWritten u at_ bs) (history w a)) by (rewrite El; apply in_or_app; right; left; reflexivity).
  destruct (attempt_frame c auto w ds a u y at_ bs V Rw Lg Hw) as (v0 & sub & cmd & d & z & Ey & W0 & C0 & F0 & B0).
  pose proof (frame_act _ _ _ _ _ _ _ _ _ W0 C0 F0 B0 (marker_range v) Hb) as St.
  destruct Lg as [(p & l & pl & ws & L & Hil & Inc & P)|(s & -> & _)].
  2: { destruct Ey as [Ey|(x0 & r & Ey)]; [|discriminate]. injection Ey as <- <- <-. discriminate St. }
  destruct P as [P|(v' & _ & -> & _)].
  { exfalso. assert (S : safe p) by (destruct P as [->|[->| ->]]; [apply safe_ping|apply safe_version|apply safe_device]).
    destruct (leg_run _ _ _ _ _ _ L S) as (tr & Lt & Rt). destruct (likes_in _ _ y Lt) as (y' & Hy & Ly); [apply in_map_iff; exists (u, y); auto|].
    destruct (version_acts p tr _ P Rt y' Hy) as (r & E). assert (y = y') as <-.
    { destruct E as [E|[E|E]]; subst y'; apply like_request in Ly; exact Ly. }
    destruct E as [->|[->| ->]]; destruct Ey as [Ey|(x0 & r0 & Ey)]; try discriminate Ey; injection Ey as <- <- <- _ _; discriminate St. }
  destruct (leg_run _ _ _ _ _ _ L (safe_form _ _)) as (tr & Lt & Rt). destruct (alike_of _ _ Lt) as (D & FD & <-). apply form_runs in Rt as (g & Rt).
  destruct L as (s & A & G). rewrite (history_of _ _ _ A) in *. destruct (options_valid c V) as [W _].
  set (h := mk_host s pl ws l) in G. assert (Ed : doings h = l ++ place_deeds pl) by reflexivity. rewrite <- Ed in FD, Hil, Inc.
  assert (Hwrote : forall t y at_ bs, In (t, y) D -> In (OWritten t at_ bs) (s_log s) ->
    match y with ARequest sub cmd d _ _ | ASpawn sub cmd d => exists o, from_command sub cmd d = Ok o /\ frame_bytes o bs | _ => False end).
  { intros t0 y0 at0 bs0 H0 H1. destruct (alike_in _ _ _ FD H0) as ([t1 y1] & H2 & E1 & E2). cbn [fst snd] in E1, E2. subst t1.
    pose proof (ginv_wrote _ h t0 y1 at0 bs0 G H2 H1) as K. destruct y1 as [| |m [r|r]|]; cbn [like] in E2; try (subst y0; exact K); destruct y0; try discriminate E2; exact K. }
  assert (Hord : forall a t1 sub cmd d x m b t2 y2 la at_ bs lb, D = a ++ (t1, ARequest sub cmd d x (Some (Ok m))) :: b -> In (t2, y2) b -> starts y2 ->
    s_log s = la ++ OWritten t2 at_ bs :: lb -> exchanged t1 sub cmd d m la).
  { intros a0 t1 sub0 cmd0 d0 x0 m0 b0 t2 y2 la0 at0 bs0 lb0 E0 H0 H1 H2. rewrite E0 in FD. apply Forall2_app_inv_r in FD as (a1 & b1 & F1 & F2 & E1).
    inversion F2 as [|[t1' y1] d' b1' b1'' [Ea Eb] F3]; subst. cbn [fst snd] in Ea, Eb. subst t1'. apply like_request in Eb. subst y1.
    destruct (alike_in _ _ _ F3 H0) as ([t2' y2'] & H3 & Ec & Ee). cbn [fst snd] in Ec, Ee. subst t2'.
    exact (ginv_order _ h a1 t1 _ b1' t2 y2' la0 at0 bs0 lb0 G E1 H3 (like_starts _ _ Ee H1) H2). }
  assert (Mv : marker v = marker v' /\ settings v (network_options c) = settings v' (network_options c)).
  { pose proof (start_well_formed v' _ 2948 false W _ _ Rt) as F. rewrite Forall_forall in F. destruct (likes_in _ _ y Lt) as (y' & Hy & Ly); [apply in_map_iff; exists (u, y); auto|].
    assert (y = y') as <- by (destruct Ey as [->|(x0 & r & ->)]; exact Ly). pose proof (F y Hy) as Wy.
    assert (Q : item_well_formed v' (network_options c) sub cmd d) by (destruct Ey as [->|(x0 & r & ->)]; exact Wy).
    assert (Sc : storage_command sub cmd = true) by (destruct (storage_writes _ _ _ _ _ St) as [[-> ->]|[-> ->]]; reflexivity).
    specialize (Q Sc). rewrite St in Q. destruct Q as (Q & _). eapply marker_same; [exact Q|reflexivity]. }
  destruct Mv as [Mv Ms]. rewrite Mv in Hb. rewrite Ms.
  assert (Hu : In u (map fst D)) by (rewrite (alike_fst _ _ FD); apply in_map_iff; exists (u, y); auto).
  destruct (marker_last_in v' _ 2948 false D (s_log s) g W ltac:(lia) Rt Hwrote Hord (V_received s (G_api _ _ G)) u at_ bs la lb e Hu El Hb) as [He Hs].
  split; [exact He|]. intros i b Hib. destruct (Hs i b Hib) as (u' & at' & bs' & lb' & m & H1 & H2).
  rewrite (alike_fst _ _ FD) in H1. apply in_map_iff in H1 as ([u1 y'] & E1 & H1). cbn [fst] in E1. subst u1.
  exists u', y', at', bs', lb', m. split; [|exact H2]. apply Inc. apply in_map_iff. exists (u', y'). split; [reflexivity|exact H1].
Qed.
