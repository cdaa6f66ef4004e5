(** * HonestProofs: the mark of a stick that only this application sets up can be believed *)
From Coq Require Import ZifyBool ZifyNat.
From Verif Require Import Base Types Buffalo Zpi Api App Machine World SpecMachine SpecCodec Nv StartZnp SpecStart Host SpecHost AppStart SpecAppStart
  StartProofs StartProofs2 StartProofs3 StartProofs4 StartProofs5 StartProofs6 StartProofs8 HostProofs AppStartProofs
  Whole SpecWhole WholeProofs4 WholeProofs5 SpecLinkStart SpecHonest.

(** ** one start *)
Definition marks (v : firmware) (a : act) : bool :=
  match a with
  | ARequest sub cmd d _ _ | ASpawn sub cmd d => match storage_of sub cmd d with Writes i _ => i =? marker v | _ => false end
  | _ => false
  end.
Lemma marks_writes v a : marks v a = true -> exists b, writes a (marker v) b.
Proof.
  destruct a as [sub cmd d x r| | |sub cmd d]; try discriminate; cbn [marks writes];
    destruct (storage_of sub cmd d) as [|i b| | |]; try discriminate; intro H; apply Z.eqb_eq in H; subst i; eauto.
Qed.
Lemma writes_marks v a b : writes a (marker v) b -> marks v a = true.
Proof. destruct a as [sub cmd d x r| | |sub cmd d]; cbn [marks writes]; try contradiction; intros ->; apply Z.eqb_refl. Qed.
(** had the last request been answered, the sequence would be complete *)
Definition silent : zpi := mk_zpi SRSP SYS "osalNvWrite" 9 [] [] None.
Lemma follows_last pre : forall l q sub cmd d x r f, l = q ++ [OpRequest sub cmd d x] -> length q = length pre ->
  follows l (pre ++ [ARequest sub cmd d x r]) f -> follows l (pre ++ [ARequest sub cmd d x (Some (Ok silent))]) (Returned tt).
Proof.
  induction pre as [|y pre IH]; intros l q sub cmd d x r f -> Lq F.
  - destruct q; [|discriminate Lq]. cbn [app]. apply fo_done; [intros c E; discriminate E|constructor].
  - destruct q as [|o q]; [discriminate Lq|]. cbn [app] in *. injection Lq as Lq.
    inversion F; subst; try (exfalso; match goal with K : [] = _ ++ [_] |- _ => destruct pre; discriminate K end).
    + apply fo_done; [assumption|]. eapply IH; [reflexivity|exact Lq|eassumption].
    + apply fo_listen. eapply IH; [reflexivity|exact Lq|eassumption].
    + apply fo_await; [assumption|]. eapply IH; [reflexivity|exact Lq|eassumption].
Qed.
Lemma init_marked v o t2 k s s' : wf_options o -> follows (init_ops (version_of v) o) t2 k -> stick s t2 s' ->
  Forall (act_well_formed v o) t2 -> ~ marked v s -> marked v s' -> config_matches v o s'.
Proof.
  intros Hwf F S W N M. destruct (existsb (marks v) t2) eqn:E.
  - apply existsb_exists in E as (a & Ha & Em). apply marks_writes in Em as [b Hb]. apply in_split in Ha as (pre & post & ->).
    destruct (follows_mark v o pre a post k b Hwf F Hb) as (-> & -> & D).
    apply stick_app in S as (s1 & S1 & S2). inversion S2; subst. inversion H4; subst. apply Forall_app in W as [W1 _].
    assert (N1 : ~ marked v s1).
    { eapply mark_not_set; [exact S1|exact W1| |exact N]. intros w bs Hw Hww.
      destruct (forall2_in_r _ _ _ w D Hw) as (q & Hq & Hd). pose proof (begun_writes _ _ _ _ (done_begun _ _ Hd) Hww) as Hst.
      eapply marker_setting, before_mark_writes; eassumption. }
    assert (Q : exists sub cmd d x r, OpWrite (item_configured (version_of v)) = OpRequest sub cmd d x /\ a = ARequest sub cmd d x r).
    { pose proof F as F'. apply follows_split in F' as (l1 & q & l2 & g & El & Dl & Bg & _). rewrite init_ops_last in El.
      apply last_split in El as [(_ & -> & _)|[Hq _]].
      - destruct a as [sub cmd d x r| | |]; cbn [begun OpWrite] in Bg; try contradiction. destruct Bg as (-> & -> & -> & ->). do 5 eexists. split; reflexivity.
      - exfalso. pose proof (begun_writes _ _ _ _ Bg Hb) as Hst. eapply marker_setting, before_mark_writes; eassumption. }
    destruct Q as (sub & cmd & d & x & r & Eq & ->). cbn [writes] in Hb. cbn [stick_act] in H2. rewrite Hb in H2.
    assert (K : s' = s1 \/ s' = put s1 (marker v) set_mark) by (destruct r as [[?|?]|]; tauto). destruct K as [->| ->]; [contradiction|].
    eapply (init_store v o (pre ++ [ARequest sub cmd d x (Some (Ok silent))]) s); [exact Hwf| |].
    + rewrite init_ops_last in *. rewrite Eq in *. eapply (follows_last pre _ (before_mark v o)); [reflexivity|clear - D; induction D; cbn [length]; congruence|exact F].
    + clear - S1 Hb. induction S1; cbn [app]; [|econstructor; [eassumption|apply IHS1; assumption]].
      econstructor; [|constructor]. cbn [stick_act]. rewrite Hb. reflexivity.
  - exfalso. eapply mark_not_set; [exact S|exact W| |exact N|exact M]. intros a bs Ha Hw.
    assert (existsb (marks v) t2 = true); [|congruence]. apply existsb_exists. exists a. split; [exact Ha|eapply writes_marks, Hw].
Qed.
Lemma marked_dec v s : marked v s \/ ~ marked v s.
Proof.
  unfold marked. destruct (s (marker v)) as [c|]; [|right; discriminate].
  destruct (list_eq_dec Z.eq_dec c set_mark) as [->|N]; [left; reflexivity|right; congruence].
Qed.
Lemma start_honest v o g b s tr f s' : wf_options o -> honest v o s -> runs (start_znp (version_of v) o g b) tr f -> stick s tr s' -> honest v o s'.
Proof.
  intros Hwf Ho H Hs. destruct (marked_dec v s) as [M|N].
  - destruct (accepted_left_alone v o g b s tr f s' Hwf (config_accepted _ _ _ (Ho M)) H Hs) as (_ & -> & _). exact Ho.
  - intro M. pose proof (start_well_formed v o g b Hwf tr f H) as W. apply start_course in H as (t1 & t2 & t3 & -> & HC).
    apply Forall_app in W as [_ W]. apply Forall_app in W as [W _].
    apply stick_app in Hs as (s1 & S1 & Hs). apply stick_app in Hs as (s2 & S2 & S3).
    assert (K1 : Forall harmless t1) by (inversion HC; assumption). pose proof (harmless_stick _ _ _ K1 S1) as ->.
    inversion HC; subst.
    + inversion S2; subst. inversion S3; subst. contradiction.
    + inversion S2; subst. exfalso. pose proof (rest_resumed_harmless _ _ _ _ H1) as K3. pose proof (harmless_stick _ _ _ K3 S3) as ->. contradiction.
    + inversion S3; subst. eapply init_marked; eassumption.
    + eapply rewrite_store; [exact Hwf| |eassumption|exact S3]. eapply init_store; eassumption.
Qed.

(** ** a start-up of the application *)
Lemma app_honest auto c devs v tr f s s' : valid_config c -> honest v (network_options c) s -> runs (app_startup auto c devs) tr f -> stick s tr s' ->
  (forall p, reports tr p -> p = version_of v) -> honest v (network_options c) s'.
Proof.
  intros V Ho H S Hv. destruct (options_valid c V) as [W _]. apply app_course in H. inversion H; subst.
  all: try (pose proof (stick_prefix _ _ _ _ S) as _).
  all: try (replace s' with s; [exact Ho|symmetry; eapply harmless_stick; [|exact S]; repeat constructor]; fail).
  assert (v0 = v) as ->.
  { assert (K : version_of v0 = version_of v) by (apply Hv; exists [], [0], n; split; [right; left; reflexivity|assumption]). destruct v0, v; try discriminate K; reflexivity. }
  apply stick_prefix in S; [|exact I]. apply stick_prefix in S; [|exact I].
  apply body_inv in H1 as (t1 & t2 & -> & g & H1 & H2). apply stick_app in S as (s1 & S & S3).
  assert (K2 : Forall harmless t2) by (destruct g; [eapply finish_free, H2|destruct H2 as [-> _]; constructor..]).
  pose proof (harmless_stick _ _ _ K2 S3) as ->.
  apply form_inv in H1. destruct auto; [|destruct H1 as [-> _]; inversion S; subst; exact Ho].
  destruct H1 as (t3 & t4 & g' & -> & R & G). apply stick_app in S as (s2 & S & S4).
  assert (K4 : Forall harmless t4) by (destruct g'; [destruct G as [[-> _]|[[->| ->] _]]|destruct G as [-> _]..]; try constructor; apply led_acts_free).
  pose proof (harmless_stick _ _ _ K4 S4) as ->. eapply start_honest; eassumption.
Qed.
(** ** on the link *)
Lemma link_honest cap auto c devs v s0 es s s' : 0 <= cap -> reachable cap s0 -> valid_config c ->
  let h := hrun es (hosted (app_startup auto c devs) s0) in
  (forall p, reports (acts h) p -> p = version_of v) -> honest v (network_options c) s -> stick s (acts h) s' -> honest v (network_options c) s'.
Proof.
  intros P R V h Hv Ho S. pose proof (host_runs cap _ _ (host_inv cap (app_startup auto c devs) s0 es P R)) as Hr. eapply app_honest; eassumption.
Qed.
Lemma link_start_honest cap v o g b s0 es s s' : 0 <= cap -> reachable cap s0 -> wf_options o ->
  let h := hrun es (hosted (start_znp (version_of v) o g b) s0) in honest v o s -> stick s (acts h) s' -> honest v o s'.
Proof.
  intros P R W h Ho S. pose proof (host_runs cap _ _ (host_inv cap (start_znp (version_of v) o g b) s0 es P R)) as Hr. eapply start_honest; eassumption.
Qed.
(** ** an honest stick is not locked out *)
Lemma honest_not_locked v o s : honest v o s -> ~ locked_out v o s.
Proof.
  intros Ho [M K]. destruct (Ho M) as ((_ & C1 & C2 & C3) & N1 & N2). unfold compared in K. cbn [stuck] in K. rewrite C1, C2, C3, N1, N2 in K.
  repeat (destruct K as [K|[_ K]]; [discriminate K|]). contradiction.
Qed.
(** ** one start-up after the other, across lost connections *)
Lemma attempt_honest c x t auto ds v s s' : valid_config c -> xreachable c x -> attempted x t auto ds -> stick s (map snd ds) s' ->
  (forall p, reports (map snd ds) p -> p = version_of v) -> honest v (network_options c) s -> honest v (network_options c) s'.
Proof.
  intros V R T K Rp Ho. destruct (going_simulates c x t auto ds [] R T) as (tr & Rt & L).
  eapply (app_honest auto c [] v tr Interrupted s s' V Ho Rt); [eapply stick_same; eassumption|].
  intros p Hp. apply Rp. eapply same_reports; [apply likes_sym, L|exact Hp].
Qed.
Lemma serves_honest c v s s' : valid_config c -> serves c v s s' -> honest v (network_options c) s -> honest v (network_options c) s'.
Proof. intros V H Ho. induction H; [exact Ho|]. eapply attempt_honest; eauto. Qed.
Lemma served_formed c v s s1 x t ds at_ s2 : valid_config c -> honest v (network_options c) s -> serves c v s s1 ->
  xreachable c x -> In (XOver t true ds (Ok tt) at_) (x_log x) -> stick s1 (map snd ds) s2 -> (forall p, reports (map snd ds) p -> p = version_of v) ->
  config_matches v (network_options c) s2.
Proof.
  intros V Ho H R E K Rp. pose proof (serves_honest c v s s1 V H Ho) as H1. destruct (well_formed_network c x t ds at_ s1 s2 V R E K) as (v0 & Hr & D).
  assert (v0 = v) as ->. { pose proof (Rp _ (proj2 (Hr _) eq_refl)) as Q. destruct v0, v; try discriminate Q; reflexivity. }
  destruct D as [[A ->]|[_ D]]; [|exact D]. apply H1. apply A.
Qed.
