(** * WorldBlame2: why a task of an API object of the world raises *)
From Coq Require Import ZifyBool ZifyNat.
From Verif Require Import Base Types Uart Buffalo CmdTable Zpi Api App Machine Life World SpecWire SpecCodec SpecApi SpecMachine SpecFirst SpecBlame SpecWorld SpecWorldBlame
  UartProofs CodecProofs CodecProofs2 ApiProofs AppProofs MachineBase MachineInv MachineInv2 MachineInv3 MachineInv4 MachineInv5 DispatchProofs MachineProofs MachineProofs2
  MachineProofs3 MachineProofs4 MachineProofs6 MachineProofs11 MachineProofs12 MachineFair MachineFirst MachineBlame MachineProgress LifeProofs2 WorldInv WorldFace WorldBase
  WorldProofs WorldLife WorldOps WorldOwn WorldProgress2 WholeHost LinkBlame LinkBlame2 WorldBlame.

Definition LinksW (L S C : nat -> Z -> Prop) (w : world) : Prop := forall a s, nth_error (w_apis w) a = Some s -> Link_ok (Sqw w a) (L a) (S a) s /\ EndsW (C a) s.
Definition Finds (S : nat -> Z -> Prop) (w : world) : Prop := forall a s, nth_error (w_apis w) a = Some s -> may_find (S a) s.
Lemma sqw_more w w' a i : longer w w' -> Sqw w a i -> Sqw w' a i.
Proof. intros [l E] [n H]. exists n. rewrite E. apply in_or_app. left. exact H. Qed.
Lemma find_xs S s s' : xprims s s' -> s_open s' = s_open s -> may_find S s -> may_find S s'.
Proof.
  intros H Eo M O t Hn. rewrite Eo in O. apply (M O). intros k G. destruct (ended (t_phase k)) eqn:E; [|reflexivity].
  rewrite <- E. apply Hn. eapply done_xs; eassumption.
Qed.
Lemma fields_x s s' : xprims s s' -> fields_exist s' -> fields_exist s.
Proof.
  intros P H t k m to r G Hj Hin. destruct (job_xs s s' P t k G) as (k' & G' & Hj'). eapply H; [exact G'|rewrite Hj'; exact Hj|].
  eapply MachineInv2.grows_in; [apply log_xs, P|exact Hin].
Qed.
Lemma fields_q C w w' : wq C w w' -> Apis w -> wfields_exist w' -> wfields_exist w.
Proof.
  intros [v a s s' E G|v v' [E _]] A F; [|unfold wfields_exist in *; rewrite E in F; exact F]. intros b x Hb. destruct (Nat.eq_dec b a) as [->|D].
  - assert (x = s) as -> by congruence. eapply fields_x; [eapply gentle_x; [exact G|apply (A _ _ E)]|]. apply (F a). wfld. rewrite nth_set, Nat.eqb_refl, E. reflexivity.
  - apply (F b). wfld. rewrite nth_set. destruct (Nat.eqb_spec b a); [contradiction|exact Hb].
Qed.
Lemma links_q L S C w w' : wq C w w' -> wfields_exist w' -> Finds S w -> LinksW L S C w -> LinksW L S C w' /\ Finds S w'.
Proof.
  intros [v a s s' E G|v v' [E Lo]] F Fi K.
  - assert (New : forall b x, nth_error (set_nth a s' (w_apis v)) b = Some x -> (b = a /\ x = s') \/ nth_error (w_apis v) b = Some x).
    { intros b x. rewrite nth_set. destruct (Nat.eqb_spec b a) as [->|]; [rewrite E; intros [= <-]; auto|auto]. }
    split; intros b x Hb; wfldin Hb.
    + destruct (New b x Hb) as [[-> ->]|H0]; [|exact (K b x H0)]. destruct (K a s E) as [K1 K2]. split; [|eapply ends_gentle; eassumption].
      eapply link_gentle; [exact G|apply Fi, E|apply (F a); exact Hb|exact K1].
    + destruct (New b x Hb) as [[-> ->]|H0]; [|exact (Fi b x H0)]. eapply find_xs; [eapply gentle_x; [exact G|apply (K a s E)]| |apply Fi, E].
      apply face_parts. eapply gentle_face, G.
  - split; intros b x Hb; rewrite E in Hb.
    + destruct (K b x Hb) as [K1 K2]. split; [|exact K2]. eapply link_weaken; [|intros i x0; exact x0|intros i x0; exact x0|exact K1]. intros i. apply sqw_more, Lo.
    + exact (Fi b x Hb).
Qed.
Lemma links_qs L S C w w' : wqs C w w' -> Apis w -> wfields_exist w' -> Finds S w -> LinksW L S C w -> LinksW L S C w'.
Proof.
  induction 1 as [w|w1 w2 w3 H Hs IH]; intros A F Fi K; [exact K|]. assert (A2 : Apis w2) by (eapply apis_q; eassumption).
  assert (F2 : wfields_exist w2). { clear - Hs A2 F. induction Hs as [|x y z H _ IH]; [exact F|]. eapply fields_q; [exact H|exact A2|]. apply IH; [exact F|eapply apis_q; eassumption]. }
  destruct (links_q L S C w1 w2 H F2 Fi K) as [K2 Fi2]. apply IH; assumption.
Qed.
Lemma nowW_shut (L S S' : Z -> Prop) s : (forall t k, get s t = Some k -> t_phase k = PDone (OExn AttributeError) -> S t -> S' t) -> NowW L S s -> NowW L S' s.
Proof.
  intros H N t k G. specialize (N t k G). unfold NowW1 in *. destruct (t_phase k) eqn:Hp; try exact N. destruct r as [|c|x]; try exact N.
  destruct N as [N|[N|[[-> N]|N]]]; unfold WhyW; auto 6. right. right. left. split; [reflexivity|]. eapply H; eassumption.
Qed.

(** ** along a run *)
Definition LateW (es : list wevent) (w0 : world) (a : nat) (t : Z) : Prop := once (fun w => on_link a (fun s => late_here (Sqw w a) s t) w) es w0.
Definition ShutW (es : list wevent) (w0 : world) (a : nat) (t : Z) : Prop := some_step (ends_shut a t) es w0.
Definition CancW (es : list wevent) (w0 : world) (a : nat) (t : Z) : Prop := In (VTaskCancel a t) es \/ some_step (cancelled_with_op a t) es w0.
Lemma once_more P es es' w0 : once P es w0 -> once P (es ++ es') w0.
Proof. intros (a & b & -> & H). exists a, (b ++ es'). split; [rewrite <- app_assoc; reflexivity|exact H]. Qed.
Lemma once_end (P : world -> Prop) es w0 : P (world_run es w0) -> once P es w0.
Proof. intro H. exists es, []. split; [rewrite app_nil_r; reflexivity|exact H]. Qed.
Lemma some_more P es es' w0 : some_step P es w0 -> some_step P (es ++ es') w0.
Proof. intros (a & e & b & -> & H). exists a, e, (b ++ es'). split; [rewrite <- app_assoc; reflexivity|exact H]. Qed.
Lemma some_last (P : wevent -> world -> world -> Prop) es e w0 : P e (world_run es w0) (world_step e (world_run es w0)) -> some_step P (es ++ [e]) w0.
Proof. intro H. exists es, e, []. split; [reflexivity|]. rewrite world_run_snoc. exact H. Qed.
Lemma ended_logged s t k r : Life s -> get s t = Some k -> t_phase k = PDone r -> In (OEnded t r) (s_log s).
Proof.
  intros [L _] G Hp. specialize (L t k G). rewrite Hp in L. cbn [life] in L.
  assert (In (OEnded t r) (trace t (s_log s))) as H; [|apply filter_In in H; apply H].
  destruct L as [-> |[-> |[(l0 & _ & ->)|(l0 & a & bs & _ & ->)]]].
  - right. left. reflexivity.
  - right. apply in_or_app. right. right. left. reflexivity.
  - apply in_or_app. right. right. left. reflexivity.
  - apply in_or_app. right. right. right. left. reflexivity.
Qed.
Lemma links_weaken (L L' S S' C C' : nat -> Z -> Prop) w : (forall a t, L a t -> L' a t) -> (forall a t, S a t -> S' a t) -> (forall a t, C a t -> C' a t) ->
  LinksW L S C w -> LinksW L' S' C' w.
Proof.
  intros HL HS HC K a s E. destruct (K a s E) as [K1 K2]. split; [eapply link_weaken; [intros i x; exact x|apply HL|apply HS|exact K1]|eapply ends_weaken; [apply HC|exact K2]].
Qed.
Definition Blamable (es : list wevent) (w0 w : world) : Prop := LinksW (LateW es w0) (ShutW es w0) (CancW es w0) w.
Lemma blamable_step es w0 e : wreachable (world_run es w0) -> wfields_exist (world_step e (world_run es w0)) -> Blamable es w0 (world_run es w0) ->
  Blamable (es ++ [e]) w0 (world_step e (world_run es w0)).
Proof.
  set (w := world_run es w0). intros R F K.
  assert (A : Apis w) by apply (wreach_good w R).
  assert (HL : forall a t, LateW es w0 a t -> LateW (es ++ [e]) w0 a t) by (intros a t; apply once_more).
  assert (HS : forall a t, ShutW es w0 a t -> ShutW (es ++ [e]) w0 a t) by (intros a t; apply some_more).
  assert (HC : forall a t, CancW es w0 a t -> CancW (es ++ [e]) w0 a t) by (intros a t [H|H]; [left; apply in_or_app; left; exact H|right; apply some_more, H]).
  assert (K1 : LinksW (LateW (es ++ [e]) w0) (ShutW (es ++ [e]) w0) (CancW (es ++ [e]) w0) w) by (eapply links_weaken; [exact HL|exact HS|exact HC|exact K]).
  assert (Q : match e with VTick _ | VLife _ => True | _ => wqs (CancW (es ++ [e]) w0) w (world_step e w) end).
  { assert (Q0 : match e with VTick _ | VLife _ => False | _ => True end -> wqs (CancW (es ++ [e]) w0) w (world_step e w)).
    { apply step_q; [exact A| | |].
      - intros a s E. apply (K a s E).
      - intros a t ->. left. apply in_or_app. right. left. reflexivity.
      - intros n o q a t -> Ho Hat. right. apply some_last. exists n, o, q. auto. }
    destruct e; try exact I; apply Q0; exact I. }
  assert (General : wqs (CancW (es ++ [e]) w0) w (world_step e w) -> Blamable (es ++ [e]) w0 (world_step e w)).
  { intro Q1. clear Q.
    set (S1 := fun (a : nat) (t : Z) => ShutW (es ++ [e]) w0 a t \/ exists s, nth_error (w_apis w) a = Some s /\ s_open s = false /\ forall k, get s t = Some k -> ended (t_phase k) = false).
    assert (K2 : LinksW (LateW (es ++ [e]) w0) S1 (CancW (es ++ [e]) w0) (world_step e w)).
    { eapply links_qs; [exact Q1|exact A|exact F| |].
      - intros a s E O t Hn. right. exists s. auto.
      - eapply links_weaken; [intros a t x; exact x|intros a t x; left; exact x|intros a t x; exact x|exact K1]. }
    intros a s' E'. destruct (K2 a s' E') as [[V O C B H N] X2]. split; [|exact X2]. constructor; try assumption. eapply nowW_shut; [|exact N].
    intros t k G Hp [X|(s & E & Ho & Hn)]; [exact X|]. apply some_last. split; [|exists s'; split; [exact E'|eapply ended_logged; [apply (V_life _ V)|exact G|exact Hp]]].
    exists s. split; [exact E|]. split; [exact Ho|]. intro Hin. destruct (life_of s t (V_life _ (A _ _ E))) as (_ & _ & L3). destruct (L3 _ Hin) as (k0 & G0 & Hp0).
    specialize (Hn k0 G0). rewrite Hp0 in Hn. discriminate Hn. }
  destruct e; try exact (General Q).
  - cbn [world_step] in *. destruct (0 <=? ms) eqn:M; [|exact K1]. apply Z.leb_le in M.
    intros a s' E'. wfldin E'. rewrite nth_map in E'. destruct (nth_error (w_apis w) a) as [s|] eqn:E; [|discriminate E']. injection E' as <-. destruct (K1 a s E) as [K2 K3].
    split; [|exact K3]. eapply (link_tick (Sqw w a)); [exact M|intros t x; exact x| |exact K2]. intros t Hl. apply once_end. rewrite world_run_snoc. fold w. cbn [world_step].
    apply Z.leb_le in M. rewrite M. exists (set_now (s_now s + ms) s). split; [wfld; rewrite nth_map, E; reflexivity|exact Hl].
  - cbn [world_step] in *. intros a s' E'. unfold life_event_happens in E'. wfldin E'. rewrite sync_nth in E'. destruct (nth_error (y_apis _) a) as [x|]; [|discriminate E'].
    injection E' as <-. destruct (nth_error (w_apis w) a) as [s|] eqn:E.
    + destruct (K1 a s E) as [K2 K3]. split; [apply link_flags; exact K2|exact K3].
    + split; [apply link_flags, link_new|]. intros t k x0 C. discriminate C.
Qed.
Lemma wfields_before es1 es2 w : wreachable w -> wfields_exist (world_run (es1 ++ es2) w) -> wfields_exist (world_run es1 w).
Proof.
  intros R F a s E. destruct (ext_run (world_run es1 w) es2 (wreach_run w es1 R) a s E) as (s' & E' & X). eapply fields_x; [exact X|]. apply (F a).
  unfold world_run in *. rewrite fold_left_app. exact E'.
Qed.
Lemma wreach_init devs : wreachable (world_init devs).
Proof. exists devs, []. reflexivity. Qed.
Lemma blamable_run devs es : wfields_exist (world_run es (world_init devs)) -> Blamable es (world_init devs) (world_run es (world_init devs)).
Proof.
  induction es as [|e es IH] using rev_ind; intro F.
  - intros a s E. destruct a; discriminate E.
  - rewrite world_run_snoc in *. apply blamable_step; [exists devs, es; reflexivity|exact F|]. apply IH. eapply wfields_before; [apply wreach_init|rewrite world_run_snoc; exact F].
Qed.

(** ** the theorems about tasks *)
Lemma job_later devs es1 es2 a s1 t k1 s k : nth_error (w_apis (world_run es1 (world_init devs))) a = Some s1 -> get s1 t = Some k1 ->
  nth_error (w_apis (world_run (es1 ++ es2) (world_init devs))) a = Some s -> get s t = Some k -> t_job k1 = t_job k.
Proof.
  intros E1 G1 E G. destruct (ext_run (world_run es1 (world_init devs)) es2 (wreach_run _ es1 (wreach_init devs)) a s1 E1) as (s' & E' & X).
  replace (world_run es2 (world_run es1 (world_init devs))) with (world_run (es1 ++ es2) (world_init devs)) in E' by (unfold world_run; rewrite fold_left_app; reflexivity).
  assert (s' = s) as -> by congruence. destruct (job_xs _ _ X t k1 G1) as (k2 & G2 & E2). congruence.
Qed.
Lemma wtask_blamed devs es a s t k x : let w := world_run es (world_init devs) in wfields_exist w -> nth_error (w_apis w) a = Some s -> get s t = Some k ->
  (forall m to, t_job k <> JWaitFor m to) -> In (OEnded t (OExn x)) (s_log s) -> wblamed es (world_init devs) a (s_log s) t k x.
Proof.
  intros w F E G Hj Hin. destruct (blamable_run devs es F a s E) as [[V _ _ _ _ N] En].
  destruct (life_of s t (V_life _ V)) as (_ & _ & L3). destruct (L3 _ Hin) as (k' & G' & Hp). assert (k' = k) as -> by congruence.
  specialize (N t k G). unfold NowW1 in N. rewrite Hp in N. destruct (En t k x G Hp) as [H1 _].
  destruct N as [->|[H|[[-> H]|[[-> H]|[(c & -> & H)|(-> & c & i & H2 & H3)]]]]].
  - destruct (H1 eq_refl) as [[H|H]|H]; [apply G_cancelled, H|apply G_with_op, H|apply G_unsendable, H].
  - apply G_unsendable, H.
  - apply G_closed, H.
  - destruct H as [(es1 & es2 & -> & s1 & E1 & k1 & G1 & H)|(m & to & H & _)]; [|exfalso; eapply Hj, H].
    rewrite (job_later devs es1 es2 a s1 t k1 s k E1 G1 E G) in H.
    destruct (t_job k) eqn:Ejk; try (destruct H as (ob & Hb & Hs); eapply G_silence; [rewrite Ejk; exact Hb|exists es1, es2; split; [reflexivity|exists s1; auto]]).
    exfalso. eapply Hj. reflexivity.
  - eapply G_refused, H.
  - eapply G_lost; eassumption.
Qed.
Lemma wwait_blamed devs es a s t k m to x : let w := world_run es (world_init devs) in wfields_exist w -> nth_error (w_apis w) a = Some s -> get s t = Some k ->
  t_job k = JWaitFor m to -> 0 < to -> In (OEnded t (OExn x)) (s_log s) ->
  x = CancelledError /\ In (VTaskCancel a t) es \/ x = TimeoutError /\ once (wunheard a t m to) es (world_init devs).
Proof.
  intros w F E G Hj Hto Hin. destruct (blamable_run devs es F a s E) as [[V _ _ _ _ N] En].
  destruct (life_of s t (V_life _ V)) as (_ & _ & L3). destruct (L3 _ Hin) as (k' & G' & Hp). assert (k' = k) as -> by congruence.
  specialize (N t k G). unfold NowW1 in N. rewrite Hp in N. destruct (En t k x G Hp) as [H1 H2].
  destruct (H2 m to Hj) as [->| ->].
  - left. split; [reflexivity|]. destruct (H1 eq_refl) as [[H|H]|[H|(o & H & _)]]; [exact H| | |]; try (rewrite Hj in H; discriminate H).
    exfalso. destruct H as (es1 & e & es2 & -> & n & o & q & -> & Ho & Hat).
    destruct (wreach_hist _ (wreach_run _ es1 (wreach_init devs))) as [_ [Hh _]]. destruct (Hh n o Ho) as [_ Hh1]. rewrite Hat in Hh1.
    destruct Hh1 as (k1 & (s1 & E1 & G1) & _ & _ & _ & obj & _ & Hj1 & _). pose proof (job_later devs es1 (VCancel n :: es2) a s1 t k1 s k E1 G1 E G). congruence.
  - right. split; [reflexivity|]. destruct N as [C|[H|[[C _]|[[_ H]|[(c & C & _)|(C & _)]]]]]; try discriminate C.
    + exfalso. destruct H as [H|(o & H & _)]; rewrite Hj in H; discriminate H.
    + destruct H as [(es1 & es2 & -> & s1 & E1 & k1 & G1 & H)|(m' & to' & H & C)]; [|exfalso; assert (to' = to) by congruence; lia].
      rewrite (job_later devs es1 es2 a s1 t k1 s k E1 G1 E G), Hj in H. destruct H as (la & lb & i & at_ & y & X1 & X2 & X3 & X4).
      exists es1, es2. split; [reflexivity|]. exists s1. split; [exact E1|]. exists la, lb, i, at_, k1, y. split; [exact X1|]. split; [exact G1|]. split; [exact X2|]. split; [exact X3|].
      intros r Hr Hm. destruct (X4 r Hr Hm) as (i' & [n Hn] & Hc). exists n, i'. auto.
Qed.
