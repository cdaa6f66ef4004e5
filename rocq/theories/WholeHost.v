(** * WholeHost: a program that runs on one API object of the application *)
From Coq Require Import ZifyBool ZifyNat.
From Verif Require Import Base Types Uart Buffalo CmdTable Zpi Api App Machine SpecWire SpecCodec SpecApi SpecMachine Nv StartZnp SpecStart Host SpecHost
  MachineBase MachineInv MachineInv2 MachineInv3 MachineInv4 MachineInv5 DispatchProofs MachineProofs MachineProofs4 StartProofs StartLink HostProofs WorldInv World WholeInv.

(** as [runs], but a wait may also end with a message that it does not match *)
Inductive goes {A} : prog A -> list act -> fin A -> Prop :=
| goes_interrupted p : goes p [] Interrupted
| goes_ret a : goes (DRet a) [] (Returned a)
| goes_raise e : goes (DRaise e) [] (Raised e)
| goes_lost sub cmd d x k : goes (DRequest sub cmd d x k) [ARequest sub cmd d x None] Interrupted
| goes_request sub cmd d x k r tr f : answer_possible x r -> goes (k r) tr f ->
    goes (DRequest sub cmd d x k) (ARequest sub cmd d x (Some r) :: tr) f
| goes_listen m t k tr f : goes (k (m, t)) tr f -> goes (DListen m t k) (AListen m t :: tr) f
| goes_await m t k r tr f : r <> Err AssertionError -> goes (k r) tr f ->
    goes (DAwait (m, t) k) (AAwait m r :: tr) f
| goes_spawn sub cmd d k tr f : goes k tr f -> goes (DSpawn sub cmd d k) (ASpawn sub cmd d :: tr) f.

(** ** one API object *)
Lemma job_xs s s' : xprims s s' -> same_job s s'.
Proof.
  induction 1 as [s|s1 s2 s3 H _ IH]; intros t k G; [exists k; auto|]. destruct (job_x _ _ H t k G) as (k1 & G1 & E1).
  destruct (IH t k1 G1) as (k2 & G2 & E2). exists k2. split; [exact G2|congruence].
Qed.
Lemma has_job_xs s s' t j : xprims s s' -> has_job s t j -> has_job s' t j.
Proof. intros X (k & G & E). destruct (job_xs s s' X t k G) as (k' & G' & E'). exists k'. split; [exact G'|congruence]. Qed.
Lemma spawned_w s j : Winv s -> get (step (ECall j) s) (s_ntid s) = Some (mk_task j PStart None None).
Proof.
  intro V. destruct (V_tids s V) as [_ HT]. cbn [step]. unfold Machine.spawn, note, get. fld. rewrite assoc_snoc.
  destruct (assoc (s_ntid s) (s_tasks s)) eqn:E; [|rewrite Z.eqb_refl; reflexivity].
  exfalso. specialize (HT (s_ntid s) t E). lia.
Qed.
Lemma done_log_w s t k r : Winv s -> get s t = Some k -> t_phase k = PDone r -> In (OEnded t r) (s_log s).
Proof.
  intros V G Hp. destruct (V_life s V) as [L _]. specialize (L t k G). rewrite Hp in L.
  assert (H : In (OEnded t r) (trace t (s_log s))).
  { destruct L as [->|[->|[(l0 & _ & ->)|(l0 & at_ & bs & _ & ->)]]]; [right; left; reflexivity|right|..]; apply in_or_app; right; cbn [In]; tauto. }
  apply filter_In in H. apply H.
Qed.
Lemma came_back_cases s t k r : get s t = Some k -> came_back s t = Some r -> t_phase k = PDone (outcome_for r).
Proof.
  intro G. unfold came_back. rewrite G. destruct (t_phase k) as [| | | | | | | | | |[[m|]| |e]] eqn:Hp; try discriminate; intro E; injection E as <-; reflexivity.
Qed.
Lemma request_possible_w s t k sub cmd d x r : Winv s -> get s t = Some k -> t_job k = JCommand sub cmd d x -> came_back s t = Some r ->
  answer_possible x r /\ evidence t (ARequest sub cmd d x (Some r)) (s_log s).
Proof.
  intros V G J C. pose proof (came_back_cases s t k r G C) as P. pose proof (done_log_w s t k _ V G P) as D.
  pose proof (V_ended s V t k G) as E. unfold EndedW1 in E. rewrite P, J in E. destruct E as [(m & to & E)|[E|R]]; [discriminate E| |].
  - destruct r as [m|e]; [discriminate E|]. split; [injection E as ->; discriminate|exact D].
  - destruct (reason_answers s t sub cmd d x _ (V_received s V) R) as [(r' & E & Hp)|[E _]]; [|destruct r; discriminate E].
    assert (r' = r) as -> by (destruct r, r'; cbn [outcome_for] in E; try discriminate E; injection E as ->; reflexivity).
    split; [exact Hp|]. destruct r as [m|e]; [|exact D]. eapply reason_exchanged, R.
Qed.
Lemma wait_possible_w s t k m to r : Winv s -> Heard s -> get s t = Some k -> t_job k = JWaitFor m to -> came_back s t = Some r ->
  match r with Ok y => exists i, came_for s m i y | Err e => e <> AssertionError end.
Proof.
  intros V H G J C. pose proof (came_back_cases s t k r G C) as P. pose proof (H t k G) as X. unfold Heard1 in X. rewrite P in X.
  destruct (X m to J) as [(e & E & N)|(y & i & E & Y)]; destruct r as [z|z]; cbn [outcome_for] in E; try discriminate E; injection E as <-; eauto.
Qed.

(** ** the invariant *)
Definition goes_path {A} (p0 : prog A) (h : host A) : Prop :=
  match h_place h with
  | Ready p => forall tr f, goes p tr f -> goes p0 (map snd (h_trace h) ++ tr) f
  | Requesting t sub cmd d x k => has_job (h_st h) t (JCommand sub cmd d x) /\
      forall tr f, goes (DRequest sub cmd d x k) tr f -> goes p0 (map snd (h_trace h) ++ tr) f
  | Awaiting t m k => exists to, has_job (h_st h) t (JWaitFor m to) /\
      forall tr f, goes (DAwait (m, to) k) tr f -> goes p0 (map snd (h_trace h) ++ tr) f
  end.
(** a wait that ended with a message *)
Definition wait_evidence (s : st) (y : act) : Prop := match y with AAwait m (Ok r) => exists i, came_for s m i r | _ => True end.
Record GInv {A} (p0 : prog A) (h : host A) : Prop := mk_GInv {
  G_api : Winv (h_st h);
  G_waits : Heard (h_st h);
  G_path : goes_path p0 h;
  G_heard : forall m to t, In (m, to, t) (h_waiters h) -> has_job (h_st h) t (JWaitFor m to);
  G_jobs : forall t y, In (t, y) (doings h) -> exists j, has_job (h_st h) t j /\ job_of y j;
  G_done : forall t y, In (t, y) (doings h) -> evidence t y (s_log (h_st h));
  G_came : forall t y, In (t, y) (doings h) -> wait_evidence (h_st h) y;
  G_order : in_order (doings h) (s_log (h_st h)) }.
Lemma came_for_xs s s' m i r : xprims s s' -> came_for s m i r -> came_for s' m i r.
Proof. induction 1 as [s|s1 s2 s3 X _ IH]; intro H; [exact H|]. apply IH. eapply came_for_x; eassumption. Qed.
Lemma wait_evidence_xs s s' y : xprims s s' -> wait_evidence s y -> wait_evidence s' y.
Proof. intro X. destruct y as [| |m [r|e]|]; cbn [wait_evidence]; auto. intros [i H]. exists i. eapply came_for_xs; eassumption. Qed.
Lemma ginv_env {A} (p0 : prog A) h s' : xprims (h_st h) s' -> GInv p0 h -> GInv p0 (mk_host s' (h_place h) (h_waiters h) (h_trace h)).
Proof.
  intros X [V U P W J D C O]. pose proof (log_xs _ _ X) as G.
  assert (K : forall t j, has_job (h_st h) t j -> has_job s' t j) by (intros; eapply has_job_xs; eassumption).
  constructor; cbn [h_st h_waiters].
  - eapply winv_xs; eassumption.
  - eapply heard_xs; eassumption.
  - revert P. unfold goes_path. cbn [h_place h_st h_trace]. destruct (h_place h); [auto|intros [P1 P2]; split; [apply K, P1|exact P2]|].
    intros (to & P1 & P2). exists to. split; [apply K, P1|exact P2].
  - intros m to t Hi. apply K, (W m to t Hi).
  - intros t y Hi. destruct (J t y Hi) as (j & J1 & J2). exists j. split; [apply K, J1|exact J2].
  - intros t y Hi. eapply evidence_mono; [exact G|apply (D t y Hi)].
  - intros t y Hi. eapply wait_evidence_xs; [exact X|apply (C t y Hi)].
  - eapply in_order_mono; [exact G|exact O].
Qed.
Lemma call_x s sub cmd d x : xprims s (step (ECall (JCommand sub cmd d x)) s).
Proof. apply xprims_one, X_spawn. reflexivity. Qed.
Lemma listen_x s m to : xprims s (step (ECall (JWaitFor m to)) s).
Proof. apply xprims_one, X_spawn. reflexivity. Qed.
Lemma ginv_go {A} (p0 : prog A) h : GInv p0 h -> GInv p0 (go h).
Proof.
  intro HI. pose proof HI as [V U P W J D C O]. unfold go. unfold goes_path in P. unfold doings in J, D, C, O.
  destruct (h_place h) as [[a|e|sub cmd d x k|m to k|w k|sub cmd d k]|t sub cmd d x k|t m k] eqn:Ep; try exact HI.
  - (* request *)
    rewrite app_nil_r in J, D, C, O. set (s := h_st h) in *.
    pose proof (spawned_w s (JCommand sub cmd d x) V) as Hnew. pose proof (call_x s sub cmd d x) as X.
    constructor; cbn [h_st h_place h_waiters].
    + eapply winv_xs; eassumption.
    + eapply heard_xs; eassumption.
    + unfold goes_path. cbn [h_place h_st h_trace]. split; [eexists; split; [exact Hnew|reflexivity]|exact P].
    + intros m to t Hi. eapply has_job_xs; [exact X|]. auto.
    + unfold doings. cbn [h_trace h_place]. intros t y Hi. apply in_app_or in Hi as [Hi|[Ei|[]]].
      * destruct (J t y Hi) as (j' & J1 & J2). exists j'. split; [eapply has_job_xs; eassumption|exact J2].
      * injection Ei as <- <-. eexists. split; [eexists; split; [exact Hnew|reflexivity]|reflexivity].
    + unfold doings. cbn [h_trace h_place]. rewrite call_log. intros t y Hi. apply in_app_or in Hi as [Hi|[Ei|[]]].
      * eapply evidence_mono; [apply grows_app|apply D, Hi].
      * injection Ei as <- <-. exact I.
    + unfold doings. cbn [h_trace h_place]. intros t y Hi. apply in_app_or in Hi as [Hi|[Ei|[]]].
      * eapply wait_evidence_xs; [exact X|apply (C t y Hi)].
      * injection Ei as <- <-. exact I.
    + unfold doings. cbn [h_trace h_place]. rewrite call_log. apply in_order_call; assumption.
  - (* listen *)
    rewrite app_nil_r in J, D, C, O. set (j := JWaitFor m to). set (s := h_st h) in *.
    pose proof (spawned_w s j V) as Hnew. set (s1 := step (ECall j) s) in *. assert (X1 : xprims s s1) by apply listen_x.
    assert (X2 : xprims s1 (run [ECall j; ERun (s_ntid s)] s)) by apply resume_x.
    assert (X := xprims_app _ _ _ X1 X2).
    assert (K1 : has_job (run [ECall j; ERun (s_ntid s)] s) (s_ntid s) j) by (eapply has_job_xs; [exact X2|]; eexists; split; [exact Hnew|reflexivity]).
    assert (G : grows (s_log s ++ [OCalled (s_ntid s)]) (s_log (run [ECall j; ERun (s_ntid s)] s))) by (rewrite <- (call_log s j); apply log_xs, X2).
    constructor; cbn [h_st h_place h_waiters].
    + eapply winv_xs; eassumption.
    + eapply heard_xs; eassumption.
    + unfold goes_path. cbn [h_place h_st h_trace]. intros tr f H. rewrite map_app, <- app_assoc. apply P. cbn [map snd app]. apply goes_listen, H.
    + intros m' to' t Hi. apply in_app_or in Hi as [Hi|[Ei|[]]]; [eapply has_job_xs; [exact X|]; auto|]. injection Ei as <- <- <-. exact K1.
    + unfold doings. cbn [h_trace h_place]. rewrite app_nil_r. intros t y Hi. apply in_app_or in Hi as [Hi|[Ei|[]]].
      * destruct (J t y Hi) as (j' & J1 & J2). exists j'. split; [eapply has_job_xs; eassumption|exact J2].
      * injection Ei as <- <-. exists j. split; [exact K1|reflexivity].
    + unfold doings. cbn [h_trace h_place]. rewrite app_nil_r. intros t y Hi. eapply evidence_mono; [exact G|]. apply in_app_or in Hi as [Hi|[Ei|[]]].
      * eapply evidence_mono; [apply grows_app|apply D, Hi].
      * injection Ei as <- <-. exact I.
    + unfold doings. cbn [h_trace h_place]. rewrite app_nil_r. intros t y Hi. apply in_app_or in Hi as [Hi|[Ei|[]]].
      * eapply wait_evidence_xs; [exact X|apply (C t y Hi)].
      * injection Ei as <- <-. exact I.
    + unfold doings. cbn [h_trace h_place]. rewrite app_nil_r. eapply in_order_mono; [exact G|]. apply in_order_call; assumption.
  - (* await *)
    destruct (object w (h_waiters h)) as [t|] eqn:Eo; [|exact HI]. destruct w as [m to]. apply object_in, W in Eo.
    assert (X : xprims (h_st h) (step (ERun t) (h_st h))) by apply resume_x.
    pose proof (ginv_env p0 h _ X HI) as [V' U' P' W' J' D' C' O']. cbn [h_st h_place h_waiters h_trace] in *.
    unfold doings in J', D', C', O'. cbn [h_place h_trace] in *. rewrite Ep in J', D', C', O'.
    constructor; cbn [h_st h_place h_waiters]; try assumption; unfold doings; cbn [h_trace h_place]; try assumption.
    unfold goes_path. cbn [h_place h_st h_trace fst]. exists to. split; [|exact P]. eapply has_job_xs; eassumption.
  - (* spawn *)
    rewrite app_nil_r in J, D, C, O. set (j := JCommand sub cmd d [0]). set (s := h_st h) in *.
    pose proof (spawned_w s j V) as Hnew. pose proof (call_x s sub cmd d [0]) as X.
    constructor; cbn [h_st h_place h_waiters].
    + eapply winv_xs; eassumption.
    + eapply heard_xs; eassumption.
    + unfold goes_path. cbn [h_place h_st h_trace]. intros tr f H. rewrite map_app, <- app_assoc. apply P. cbn [map snd app]. apply goes_spawn, H.
    + intros m to t Hi. eapply has_job_xs; [exact X|]. auto.
    + unfold doings. cbn [h_trace h_place]. rewrite app_nil_r. intros t y Hi. apply in_app_or in Hi as [Hi|[Ei|[]]].
      * destruct (J t y Hi) as (j' & J1 & J2). exists j'. split; [eapply has_job_xs; eassumption|exact J2].
      * injection Ei as <- <-. exists j. split; [eexists; split; [exact Hnew|reflexivity]|reflexivity].
    + unfold doings. cbn [h_trace h_place]. rewrite app_nil_r, call_log. intros t y Hi. apply in_app_or in Hi as [Hi|[Ei|[]]].
      * eapply evidence_mono; [apply grows_app|apply D, Hi].
      * injection Ei as <- <-. exact I.
    + unfold doings. cbn [h_trace h_place]. rewrite app_nil_r. intros t y Hi. apply in_app_or in Hi as [Hi|[Ei|[]]].
      * eapply wait_evidence_xs; [exact X|apply (C t y Hi)].
      * injection Ei as <- <-. exact I.
    + unfold doings. cbn [h_trace h_place]. rewrite app_nil_r, call_log. apply in_order_call; assumption.
  - (* the answer of a request *)
    destruct (came_back (h_st h) t) as [r|] eqn:Ec; [|exact HI]. destruct P as [(kk & G & Hj) P].
    destruct (request_possible_w _ t kk sub cmd d x r V G Hj Ec) as [Hp E0].
    constructor; cbn [h_st h_place h_waiters]; try assumption.
    + unfold goes_path. cbn [h_place h_st h_trace]. intros tr f H. rewrite map_app, <- app_assoc. apply P. cbn [map snd app].
      apply goes_request; assumption.
    + unfold doings. cbn [h_trace h_place]. rewrite app_nil_r. intros t' y Hi. apply in_app_or in Hi as [Hi|[Ei|[]]].
      * apply J, in_or_app. left. exact Hi.
      * injection Ei as <- <-. exists (JCommand sub cmd d x). split; [exists kk; auto|reflexivity].
    + unfold doings. cbn [h_trace h_place]. rewrite app_nil_r. intros t' y Hi. apply in_app_or in Hi as [Hi|[Ei|[]]].
      * apply D, in_or_app. left. exact Hi.
      * injection Ei as <- <-. exact E0.
    + unfold doings. cbn [h_trace h_place]. rewrite app_nil_r. intros t' y Hi. apply in_app_or in Hi as [Hi|[Ei|[]]].
      * apply (C t'), in_or_app. left. exact Hi.
      * injection Ei as <- <-. exact I.
    + unfold doings. cbn [h_trace h_place]. rewrite app_nil_r. eapply in_order_answer; [exact O|]. intros _. exact I.
  - (* the end of a wait *)
    destruct (came_back (h_st h) t) as [r|] eqn:Ec; [|exact HI]. destruct P as (to & (kk & G & Hj) & P). rewrite app_nil_r in J, D, C, O.
    pose proof (wait_possible_w _ t kk m to r V U G Hj Ec) as Hp.
    constructor; cbn [h_st h_place h_waiters]; try assumption.
    + unfold goes_path. cbn [h_place h_st h_trace]. intros tr f H. rewrite map_app, <- app_assoc. apply P. cbn [map snd app].
      apply goes_await; [|exact H]. intros ->. apply Hp. reflexivity.
    + unfold doings. cbn [h_trace h_place]. rewrite app_nil_r. intros t' y Hi. apply in_app_or in Hi as [Hi|[Ei|[]]].
      * apply J, Hi.
      * injection Ei as <- <-. exists (JWaitFor m to). split; [exists kk; auto|exists to; reflexivity].
    + unfold doings. cbn [h_trace h_place]. rewrite app_nil_r. intros t' y Hi. apply in_app_or in Hi as [Hi|[Ei|[]]].
      * apply D, Hi.
      * injection Ei as <- <-. destruct r; [destruct Hp as (i & Hp & _); exact Hp|]. exact (done_log_w _ t kk _ V G (came_back_cases _ t kk _ G Ec)).
    + unfold doings. cbn [h_trace h_place]. rewrite app_nil_r. intros t' y Hi. apply in_app_or in Hi as [Hi|[Ei|[]]].
      * apply (C t'), Hi.
      * injection Ei as <- <-. destruct r; [exact Hp|exact I].
    + unfold doings. cbn [h_trace h_place]. rewrite app_nil_r. apply in_order_await, O.
Qed.
Lemma ginv_start {A} (p0 : prog A) s : Winv s -> Heard s -> GInv p0 (hosted p0 s).
Proof.
  intros V U. constructor; try contradiction; [exact V|exact U|intros tr f H; exact H|]. intros a t1 y1 b t2 y2 E. destruct a; discriminate E.
Qed.

(** ** what follows *)
Lemma ginv_goes {A} (p0 : prog A) h : GInv p0 h -> goes p0 (acts h) (ending h).
Proof.
  intros [_ _ P _ _ _ _ _]. unfold goes_path in P. unfold acts, doings, ending.
  destruct (h_place h) as [p|t sub cmd d x k|t m k]; rewrite ?app_nil_r, ?map_app.
  - rewrite <- (app_nil_r (map snd (h_trace h))). apply P. destruct p; constructor.
  - destruct P as [_ P]. apply P. cbn [map snd]. constructor.
  - destruct P as (to & _ & P). rewrite <- (app_nil_r (map snd (h_trace h))). apply P. constructor.
Qed.
Lemma ginv_order {A} (p0 : prog A) h a t1 y1 b t2 y2 la at_ bs lb : GInv p0 h ->
  doings h = a ++ (t1, y1) :: b -> In (t2, y2) b -> starts y2 -> s_log (h_st h) = la ++ OWritten t2 at_ bs :: lb -> evidence t1 y1 la.
Proof.
  intros [V _ _ _ _ _ _ O] E Hi Hs El. destruct (O a t1 y1 b t2 y2 E Hi Hs) as (la0 & lb0 & El0 & He).
  eapply evidence_mono; [|exact He]. eapply after_call; [exact (V_life _ V)|exact El0|exact El|cbn [about]; apply Z.eqb_refl|discriminate].
Qed.
Lemma ginv_wrote {A} (p0 : prog A) h t y at_ bs : GInv p0 h -> In (t, y) (doings h) -> In (OWritten t at_ bs) (s_log (h_st h)) ->
  match y with
  | ARequest sub cmd d _ _ | ASpawn sub cmd d => exists o, from_command sub cmd d = Ok o /\ frame_bytes o bs
  | _ => False
  end.
Proof.
  intros [V _ _ _ J _ _ _] Hy Hw. destruct (J t y Hy) as (j & (k & G & Ej) & Hj).
  destruct (V_wrote _ V) as [_ W]. destruct (W t at_ bs Hw) as (_ & k' & o & G' & Hb & _ & Hf).
  assert (k' = k) by congruence. subst k'. rewrite Ej in Hb.
  assert (K : forall sub cmd d x, j = JCommand sub cmd d x -> exists o, from_command sub cmd d = Ok o /\ frame_bytes o bs).
  { intros sub cmd d x ->. exists o. split; [|exact Hf]. cbn [build] in Hb. destruct (from_command sub cmd d) as [|[]]; cbn [in_coroutine] in Hb; congruence. }
  destruct y; cbn [job_of] in Hj; [eapply K, Hj| | |eapply K, Hj].
  - rewrite Hj in Hb. discriminate Hb.
  - destruct Hj as (? & Hj). rewrite Hj in Hb. discriminate Hb.
Qed.
