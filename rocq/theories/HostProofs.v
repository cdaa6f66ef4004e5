(** * HostProofs: a program that runs on the request machine does one of its runs; what its requests put on the link *)
From Coq Require Import ZifyBool ZifyNat.
From Verif Require Import Base Types Uart Buffalo CmdTable Zpi Api App Machine SpecWire SpecCodec SpecApi SpecMachine Nv StartZnp SpecStart Host SpecHost
  ApiProofs AppProofs MachineBase MachineInv MachineInv2 MachineInv3 MachineInv4 MachineInv5 DispatchProofs MachineProofs MachineProofs2 MachineProofs3 MachineProofs4 MachineProofs5
  MachineProofs11 StartProofs StartLink.

Lemma grows_run cap s es : 0 <= cap -> reachable cap s -> grows (s_log s) (s_log (run es s)).
Proof. intros Hc Hr. apply log_prims, run_prims, (I_core _ _ (reachable_inv cap s Hc Hr)). Qed.
Lemma jobs_run cap s es : 0 <= cap -> reachable cap s -> same_job s (run es s).
Proof. intros Hc Hr. apply same_job_prims, run_prims, (I_core _ _ (reachable_inv cap s Hc Hr)). Qed.

Lemma spawned cap s j : 0 <= cap -> reachable cap s -> get (step (ECall j) s) (s_ntid s) = Some (mk_task j PStart None None).
Proof.
  intros Hc Hr. destruct (I_core _ _ (reachable_inv cap s Hc Hr)) as (HT & _). cbn [step]. unfold spawn, note, get. fld. rewrite assoc_snoc.
  destruct (assoc (s_ntid s) (s_tasks s)) eqn:E; [|rewrite Z.eqb_refl; reflexivity].
  exfalso. destruct HT as [_ HT]. specialize (HT (s_ntid s) t E). lia.
Qed.
Lemma call_log s j : s_log (step (ECall j) s) = s_log s ++ [OCalled (s_ntid s)].
Proof. reflexivity. Qed.

Lemma snoc_case {A} (l : list A) : l = [] \/ exists l' x, l = l' ++ [x].
Proof. induction l as [|x l _] using rev_ind; [left; reflexivity|right; eauto]. Qed.

(** ** the end of a task *)
Lemma done_in_log cap s t k r : 0 <= cap -> reachable cap s -> get s t = Some k -> t_phase k = PDone r -> In (OEnded t r) (s_log s).
Proof.
  intros Hc Hr G Hp. destruct (I_life _ _ (reachable_inv cap s Hc Hr)) as [L _]. specialize (L t k G). rewrite Hp in L.
  assert (H : In (OEnded t r) (trace t (s_log s))).
  { destruct L as [->|[->|[(l0 & _ & ->)|(l0 & at_ & bs & _ & ->)]]]; [right; left; reflexivity|right|..]; apply in_or_app; right; cbn [In]; tauto. }
  apply filter_In in H. apply H.
Qed.
Lemma came_back_ended cap s t r : 0 <= cap -> reachable cap s -> came_back s t = Some r -> In (OEnded t (outcome_for r)) (s_log s).
Proof.
  intros Hc Hr. unfold came_back. destruct (get s t) as [k|] eqn:G; [|discriminate]. destruct (t_phase k) as [| | | | | | | | | |[[m|]| |e]] eqn:Hp; try discriminate.
  - intro E. injection E as <-. eapply done_in_log; eassumption.
  - intro E. injection E as <-. eapply done_in_log; eassumption.
Qed.
Lemma request_possible cap s t k sub cmd d x r : 0 <= cap -> reachable cap s -> get s t = Some k -> t_job k = JCommand sub cmd d x ->
  came_back s t = Some r -> answer_possible x r.
Proof.
  intros Hc Hr G Hj H. pose proof (came_back_ended cap s t r Hc Hr H) as Hin.
  destruct (answers_possible cap s t k sub cmd d x _ Hc Hr G Hj Hin) as [(r' & E & Hp)|[E _]].
  - destruct r, r'; cbn [outcome_for] in E; try discriminate E; injection E as ->; exact Hp.
  - destruct r; discriminate E.
Qed.
Lemma wait_possible cap s t k m to r : 0 <= cap -> reachable cap s -> get s t = Some k -> t_job k = JWaitFor m to ->
  came_back s t = Some r -> indication_possible m r /\ match r with Ok x => In (OReceived x) (s_log s) | Err _ => True end.
Proof.
  intros Hc Hr G Hj H. pose proof (came_back_ended cap s t r Hc Hr H) as Hin.
  destruct (indications_possible cap s t k m to _ Hc Hr G Hj Hin) as (r' & E & Hp).
  destruct r, r'; cbn [outcome_for] in E; try discriminate E; injection E as ->; exact Hp.
Qed.
Lemma reason_exchanged t sub cmd d x m l : Reason (JCommand sub cmd d x) t l (ORet (Some m)) -> exchanged t sub cmd d m l.
Proof.
  intro HR. inversion HR; try discriminate; subst.
  - exfalso. destruct e; discriminate.
  - match goal with A : Accepted _ _ _ _ |- _ => inversion A; subst end.
    match goal with E : build _ = Ok _ |- _ => cbn [build] in E; rename E into Hb end.
    assert (Hb' : from_command sub cmd d = Ok o) by (destruct (from_command sub cmd d) as [|[]]; cbn [in_coroutine] in Hb; congruence).
    exists o, at_, bs, lb. split; [exact Hb'|]. split; [assumption|]. split; [assumption|]. split; [assumption|].
    match goal with M : waiter_match _ _ = Ok true |- _ => apply matched in M end.
    match goal with W : awaited o = Some _ |- _ => unfold awaited in W; destruct (z_type o) eqn:Ht; try discriminate W end.
    + left. split; [reflexivity|]. match goal with W : Some _ = Some _ |- _ => injection W as <- <- end. cbn [m_type m_sub m_cmd] in *. unfold response_to. tauto.
    + destruct (is_reset_command o) eqn:E; [|discriminate]. apply is_reset in E.
      match goal with W : Some _ = Some _ |- _ => injection W as <- <- end. cbn [m_type m_sub m_cmd] in *. right. tauto.
Qed.
Lemma request_exchanged cap s t k sub cmd d x m : 0 <= cap -> reachable cap s -> get s t = Some k -> t_job k = JCommand sub cmd d x ->
  came_back s t = Some (Ok m) -> exchanged t sub cmd d m (s_log s).
Proof.
  intros Hc Hr G Hj H. pose proof (came_back_ended cap s t _ Hc Hr H) as Hin. cbn [outcome_for] in Hin.
  pose proof (get_job cap s t k _ Hc Hr G Hin) as HR. rewrite Hj in HR. eapply reason_exchanged, HR.
Qed.
Lemma exchanged_mono t sub cmd d m l l' : grows l l' -> exchanged t sub cmd d m l -> exchanged t sub cmd d m l'.
Proof.
  intros G (o & at_ & bs & lb & H1 & H2 & H3 & H4). exists o, at_, bs, lb. split; [exact H1|]. split; [exact H2|].
  split; [eapply outstanding_mono; eassumption|exact H4].
Qed.

(** ** the invariant *)
Definition has_job (s : st) (t : Z) (j : job) : Prop := exists k, get s t = Some k /\ t_job k = j.
Lemma has_job_run cap s es t j : 0 <= cap -> reachable cap s -> has_job s t j -> has_job (run es s) t j.
Proof. intros Hc Hr (k & G & E). destruct (jobs_run cap s es Hc Hr t k G) as (k' & G' & E'). exists k'. split; [exact G'|congruence]. Qed.

(** where the program is, seen from its beginning *)
Definition follows_path {A} (p0 : prog A) (h : host A) : Prop :=
  match h_place h with
  | Ready p => forall tr f, runs p tr f -> runs p0 (map snd (h_trace h) ++ tr) f
  | Requesting t sub cmd d x k => has_job (h_st h) t (JCommand sub cmd d x) /\
      forall tr f, runs (DRequest sub cmd d x k) tr f -> runs p0 (map snd (h_trace h) ++ tr) f
  | Awaiting t m k => exists to, has_job (h_st h) t (JWaitFor m to) /\
      forall tr f, runs (DAwait (m, to) k) tr f -> runs p0 (map snd (h_trace h) ++ tr) f
  end.
Definition job_of (y : act) (j : job) : Prop :=
  match y with
  | ARequest sub cmd d x _ => j = JCommand sub cmd d x
  | ASpawn sub cmd d => j = JCommand sub cmd d [0]
  | AListen m to => j = JWaitFor m to
  | AAwait m _ => exists to, j = JWaitFor m to
  end.
Definition evidence (t : Z) (y : act) (l : list obs) : Prop :=
  match y with
  | ARequest sub cmd d x (Some (Ok m)) => exchanged t sub cmd d m l
  | ARequest sub cmd d x (Some (Err e)) => In (OEnded t (OExn e)) l
  | AAwait m (Ok r) => In (OReceived r) l
  | AAwait m (Err e) => In (OEnded t (OExn e)) l
  | _ => True
  end.
(** [y2] starts a task *)
Definition starts (y : act) : Prop := match y with AAwait _ _ => False | _ => True end.
Definition in_order (ds : list (Z * act)) (l : list obs) : Prop :=
  forall a t1 y1 b t2 y2, ds = a ++ (t1, y1) :: b -> In (t2, y2) b -> starts y2 ->
  exists la lb, l = la ++ OCalled t2 :: lb /\ evidence t1 y1 la.
Record HInv (cap : Z) {A} (p0 : prog A) (h : host A) : Prop := mk_HInv {
  H_reach : reachable cap (h_st h);
  H_path : follows_path p0 h;
  H_heard : forall m to t, In (m, to, t) (h_waiters h) -> has_job (h_st h) t (JWaitFor m to);
  H_jobs : forall t y, In (t, y) (doings h) -> exists j, has_job (h_st h) t j /\ job_of y j;
  H_done : forall t y, In (t, y) (doings h) -> evidence t y (s_log (h_st h));
  H_order : in_order (doings h) (s_log (h_st h)) }.

Lemma evidence_mono t y l l' : grows l l' -> evidence t y l -> evidence t y l'.
Proof.
  intro G. destruct y as [? ? ? ? [[?|?]|]| |? [?|?]|]; cbn [evidence]; auto; try (apply grows_in; exact G). apply exchanged_mono, G.
Qed.
Lemma in_order_mono ds l l' : grows l l' -> in_order ds l -> in_order ds l'.
Proof.
  intros [z ->] H a t1 y1 b t2 y2 E Hi Hs. destruct (H a t1 y1 b t2 y2 E Hi Hs) as (la & lb & -> & He). exists la, (lb ++ z).
  split; [rewrite <- app_assoc; reflexivity|exact He].
Qed.
(** one more doing, whose task is called just now *)
Lemma in_order_call ds t y l : in_order ds l -> (forall t1 y1, In (t1, y1) ds -> evidence t1 y1 l) -> in_order (ds ++ [(t, y)]) (l ++ [OCalled t]).
Proof.
  intros H He a t1 y1 b t2 y2 E Hi Hs. destruct (snoc_case b) as [->|(b' & z & ->)]; [contradiction|].
  rewrite app_comm_cons, app_assoc in E. apply app_inj_tail in E as [E <-]. apply in_app_or in Hi as [Hi|[Ez|[]]].
  - destruct (H a t1 y1 b' t2 y2 E Hi Hs) as (la & lb & -> & Hx). exists la, (lb ++ [OCalled t]). split; [rewrite <- app_assoc; reflexivity|exact Hx].
  - injection Ez as <- <-. exists l, []. split; [reflexivity|]. apply He. rewrite E. apply in_or_app. right. left. reflexivity.
Qed.
(** the last doing is replaced by its outcome, or an outcome is added *)
Lemma in_order_answer ds t y y' l : in_order (ds ++ [(t, y)]) l -> (starts y' -> starts y) -> in_order (ds ++ [(t, y')]) l.
Proof.
  intros H Hy a t1 y1 b t2 y2 E Hi Hs. destruct (snoc_case b) as [->|(b' & z & ->)]; [contradiction|].
  rewrite app_comm_cons, app_assoc in E. apply app_inj_tail in E as [E <-]. apply in_app_or in Hi as [Hi|[Ez|[]]].
  - apply (H a t1 y1 (b' ++ [(t, y)]) t2 y2); [rewrite E, <- app_assoc; reflexivity|apply in_or_app; left; exact Hi|exact Hs].
  - injection Ez as <- <-. apply (H a t1 y1 (b' ++ [(t, y)]) t y); [rewrite E, <- app_assoc; reflexivity|apply in_or_app; right; left; reflexivity|auto].
Qed.
Lemma in_order_await ds t m r l : in_order ds l -> in_order (ds ++ [(t, AAwait m r)]) l.
Proof.
  intros H a t1 y1 b t2 y2 E Hi Hs. destruct (snoc_case b) as [->|(b' & z & ->)]; [contradiction|].
  rewrite app_comm_cons, app_assoc in E. apply app_inj_tail in E as [E <-]. apply in_app_or in Hi as [Hi|[Ez|[]]].
  - apply (H a t1 y1 b' t2 y2 E Hi Hs).
  - injection Ez as <- <-. contradiction.
Qed.

Lemma object_in w l t : object w l = Some t -> In (w, t) l.
Proof.
  induction l as [|[w' t'] l IH]; [discriminate|]. cbn [object]. destruct (object w l) as [u|].
  - intro E. right. apply IH, E.
  - destruct (same_waiter w' w) as [->|]; [|discriminate]. intro E. injection E as ->. left. reflexivity.
Qed.
Lemma hinv_env cap {A} (p0 : prog A) h es : 0 <= cap -> HInv cap p0 h ->
  HInv cap p0 (mk_host (run es (h_st h)) (h_place h) (h_waiters h) (h_trace h)).
Proof.
  intros Hc [R P W J D O]. pose proof (grows_run cap _ es Hc R) as G.
  assert (K : forall t j, has_job (h_st h) t j -> has_job (run es (h_st h)) t j) by (intros; eapply has_job_run; eassumption).
  constructor; cbn [h_st h_waiters].
  - apply reachable_run, R.
  - revert P. unfold follows_path. cbn [h_place h_st h_trace]. destruct (h_place h); [auto|intros [P1 P2]; split; [apply K, P1|exact P2]|].
    intros (to & P1 & P2). exists to. split; [apply K, P1|exact P2].
  - intros m to t Hi. apply K, (W m to t Hi).
  - intros t y Hi. destruct (J t y Hi) as (j & J1 & J2). exists j. split; [apply K, J1|exact J2].
  - intros t y Hi. eapply evidence_mono; [exact G|apply (D t y Hi)].
  - eapply in_order_mono; [exact G|exact O].
Qed.
Lemma hinv_go cap {A} (p0 : prog A) h : 0 <= cap -> HInv cap p0 h -> HInv cap p0 (go h).
Proof.
  intros Hc HI. pose proof HI as [R P W J D O]. unfold go. unfold follows_path in P. unfold doings in J, D, O.
  destruct (h_place h) as [[a|e|sub cmd d x k|m to k|w k|sub cmd d k]|t sub cmd d x k|t m k] eqn:Ep; try exact HI.
  - (* request *)
    rewrite app_nil_r in J, D, O. set (j := JCommand sub cmd d x). set (s := h_st h) in *.
    pose proof (spawned cap s j Hc R) as Hnew. pose proof (has_job_run cap s [ECall j]) as K. cbn [run fold_left] in K.
    constructor; cbn [h_st h_place h_waiters].
    + apply (reachable_run cap s [ECall j] R).
    + unfold follows_path. cbn [h_place h_st h_trace]. split; [eexists; split; [exact Hnew|reflexivity]|exact P].
    + intros m to t Hi. apply K; auto.
    + unfold doings. cbn [h_trace h_place]. intros t y Hi. apply in_app_or in Hi as [Hi|[Ei|[]]].
      * destruct (J t y Hi) as (j' & J1 & J2). exists j'. split; [apply K; assumption|exact J2].
      * injection Ei as <- <-. exists j. split; [eexists; split; [exact Hnew|reflexivity]|reflexivity].
    + unfold doings. cbn [h_trace h_place]. rewrite call_log. intros t y Hi. apply in_app_or in Hi as [Hi|[Ei|[]]].
      * eapply evidence_mono; [apply grows_app|apply D, Hi].
      * injection Ei as <- <-. exact I.
    + unfold doings. cbn [h_trace h_place]. rewrite call_log. apply in_order_call; assumption.
  - (* listen *)
    rewrite app_nil_r in J, D, O. set (j := JWaitFor m to). set (s := h_st h) in *.
    pose proof (spawned cap s j Hc R) as Hnew. pose proof (has_job_run cap s [ECall j; ERun (s_ntid s)]) as K.
    assert (K1 : has_job (run [ECall j; ERun (s_ntid s)] s) (s_ntid s) j).
    { apply (has_job_run cap (step (ECall j) s) [ERun (s_ntid s)]); [exact Hc|apply reachable_step, R|]. eexists. split; [exact Hnew|reflexivity]. }
    assert (G : grows (s_log s ++ [OCalled (s_ntid s)]) (s_log (run [ECall j; ERun (s_ntid s)] s))).
    { rewrite <- (call_log s j). apply (grows_run cap (step (ECall j) s) [ERun (s_ntid s)] Hc). apply reachable_step, R. }
    constructor; cbn [h_st h_place h_waiters].
    + apply reachable_run, R.
    + unfold follows_path. cbn [h_place h_st h_trace]. intros tr f H. rewrite map_app, <- app_assoc. apply P. cbn [map snd app]. apply runs_listen, H.
    + intros m' to' t Hi. apply in_app_or in Hi as [Hi|[Ei|[]]]; [apply K; auto|]. injection Ei as <- <- <-. exact K1.
    + unfold doings. cbn [h_trace h_place]. rewrite app_nil_r. intros t y Hi. apply in_app_or in Hi as [Hi|[Ei|[]]].
      * destruct (J t y Hi) as (j' & J1 & J2). exists j'. split; [apply K; assumption|exact J2].
      * injection Ei as <- <-. exists j. split; [exact K1|reflexivity].
    + unfold doings. cbn [h_trace h_place]. rewrite app_nil_r. intros t y Hi. eapply evidence_mono; [exact G|]. apply in_app_or in Hi as [Hi|[Ei|[]]].
      * eapply evidence_mono; [apply grows_app|apply D, Hi].
      * injection Ei as <- <-. exact I.
    + unfold doings. cbn [h_trace h_place]. rewrite app_nil_r. eapply in_order_mono; [exact G|]. apply in_order_call; assumption.
  - (* await *)
    destruct (object w (h_waiters h)) as [t|] eqn:Eo; [|exact HI]. destruct w as [m to]. apply object_in, W in Eo.
    pose proof (hinv_env cap p0 h [ERun t] Hc HI) as [R' P' W' J' D' O']. cbn [run fold_left h_st h_place h_waiters h_trace] in *.
    unfold doings in J', D', O'. cbn [h_place h_trace] in *. rewrite Ep in J', D', O'.
    constructor; cbn [h_st h_place h_waiters]; try assumption; unfold doings; cbn [h_trace h_place]; try assumption.
    unfold follows_path. cbn [h_place h_st h_trace fst]. exists to. split; [|exact P]. apply (has_job_run cap (h_st h) [ERun t]); assumption.
  - (* spawn *)
    rewrite app_nil_r in J, D, O. set (j := JCommand sub cmd d [0]). set (s := h_st h) in *.
    pose proof (spawned cap s j Hc R) as Hnew. pose proof (has_job_run cap s [ECall j]) as K. cbn [run fold_left] in K.
    constructor; cbn [h_st h_place h_waiters].
    + apply (reachable_run cap s [ECall j] R).
    + unfold follows_path. cbn [h_place h_st h_trace]. intros tr f H. rewrite map_app, <- app_assoc. apply P. cbn [map snd app]. apply runs_spawn, H.
    + intros m to t Hi. apply K; auto.
    + unfold doings. cbn [h_trace h_place]. rewrite app_nil_r. intros t y Hi. apply in_app_or in Hi as [Hi|[Ei|[]]].
      * destruct (J t y Hi) as (j' & J1 & J2). exists j'. split; [apply K; assumption|exact J2].
      * injection Ei as <- <-. exists j. split; [eexists; split; [exact Hnew|reflexivity]|reflexivity].
    + unfold doings. cbn [h_trace h_place]. rewrite app_nil_r, call_log. intros t y Hi. apply in_app_or in Hi as [Hi|[Ei|[]]].
      * eapply evidence_mono; [apply grows_app|apply D, Hi].
      * injection Ei as <- <-. exact I.
    + unfold doings. cbn [h_trace h_place]. rewrite app_nil_r, call_log. apply in_order_call; assumption.
  - (* the answer of a request *)
    destruct (came_back (h_st h) t) as [r|] eqn:Ec; [|exact HI]. destruct P as [(kk & G & Hj) P].
    assert (E0 : evidence t (ARequest sub cmd d x (Some r)) (s_log (h_st h))).
    { destruct r as [z|e]; cbn [evidence]; [eapply request_exchanged; eassumption|exact (came_back_ended cap _ _ _ Hc R Ec)]. }
    constructor; cbn [h_st h_place h_waiters]; try assumption.
    + unfold follows_path. cbn [h_place h_st h_trace]. intros tr f H. rewrite map_app, <- app_assoc. apply P. cbn [map snd app].
      apply runs_request; [eapply request_possible; eassumption|exact H].
    + unfold doings. cbn [h_trace h_place]. rewrite app_nil_r. intros t' y Hi. apply in_app_or in Hi as [Hi|[Ei|[]]].
      * apply J, in_or_app. left. exact Hi.
      * injection Ei as <- <-. exists (JCommand sub cmd d x). split; [exists kk; auto|reflexivity].
    + unfold doings. cbn [h_trace h_place]. rewrite app_nil_r. intros t' y Hi. apply in_app_or in Hi as [Hi|[Ei|[]]].
      * apply D, in_or_app. left. exact Hi.
      * injection Ei as <- <-. exact E0.
    + unfold doings. cbn [h_trace h_place]. rewrite app_nil_r. eapply in_order_answer; [exact O|]. intros _. exact I.
  - (* the end of a wait *)
    destruct (came_back (h_st h) t) as [r|] eqn:Ec; [|exact HI]. destruct P as (to & (kk & G & Hj) & P). rewrite app_nil_r in J, D, O.
    destruct (wait_possible cap _ t kk m to r Hc R G Hj Ec) as [Hp Hin].
    constructor; cbn [h_st h_place h_waiters]; try assumption.
    + unfold follows_path. cbn [h_place h_st h_trace]. intros tr f H. rewrite map_app, <- app_assoc. apply P. cbn [map snd app].
      apply runs_await; assumption.
    + unfold doings. cbn [h_trace h_place]. rewrite app_nil_r. intros t' y Hi. apply in_app_or in Hi as [Hi|[Ei|[]]].
      * apply J, Hi.
      * injection Ei as <- <-. exists (JWaitFor m to). split; [exists kk; auto|exists to; reflexivity].
    + unfold doings. cbn [h_trace h_place]. rewrite app_nil_r. intros t' y Hi. apply in_app_or in Hi as [Hi|[Ei|[]]].
      * apply D, Hi.
      * injection Ei as <- <-. destruct r; [exact Hin|exact (came_back_ended cap _ _ _ Hc R Ec)].
    + unfold doings. cbn [h_trace h_place]. rewrite app_nil_r. apply in_order_await, O.
Qed.
Lemma hinv_start cap {A} (p0 : prog A) s : reachable cap s -> HInv cap p0 (hosted p0 s).
Proof.
  intro R. constructor; try contradiction; [exact R|intros tr f H; exact H|]. intros a t1 y1 b t2 y2 E. destruct a; discriminate E.
Qed.
Lemma hinv_run cap {A} (p0 : prog A) es : 0 <= cap -> forall h, HInv cap p0 h -> HInv cap p0 (hrun es h).
Proof.
  intro Hc. unfold hrun. induction es as [|[|e] es IH]; intros h HI; cbn [fold_left]; [exact HI|..]; apply IH.
  - apply hinv_go; assumption.
  - apply (hinv_env cap p0 h [e]); assumption.
Qed.
Lemma host_inv cap {A} (p0 : prog A) s es : 0 <= cap -> reachable cap s -> HInv cap p0 (hrun es (hosted p0 s)).
Proof. intros Hc R. apply hinv_run; [exact Hc|apply hinv_start, R]. Qed.

(** ** what follows *)
Lemma host_runs cap {A} (p0 : prog A) h : HInv cap p0 h -> runs p0 (acts h) (ending h).
Proof.
  intros [_ P _ _ _ _]. unfold follows_path in P. unfold acts, doings, ending.
  destruct (h_place h) as [p|t sub cmd d x k|t m k]; rewrite ?app_nil_r, ?map_app.
  - rewrite <- (app_nil_r (map snd (h_trace h))). apply P. destruct p; constructor.
  - destruct P as [_ P]. apply P. cbn [map snd]. constructor.
  - destruct P as (to & _ & P). rewrite <- (app_nil_r (map snd (h_trace h))). apply P. constructor.
Qed.

Lemma nothing_before_call s t la lb : Life s -> s_log s = la ++ OCalled t :: lb -> trace t la = [].
Proof.
  intros [L1 L2] E.
  assert (H : exists l, trace t (s_log s) = OCalled t :: l /\ ~ In (OCalled t) l).
  { destruct (get s t) as [k|] eqn:G.
    - specialize (L1 t k G).
      assert (C : forall j l0, came j t l0 -> forall r, ~ In (OCalled t) r -> exists l, l0 ++ r = OCalled t :: l /\ ~ In (OCalled t) l).
      { intros j l0 (q & Hq & ->) r Hr. cbn [app]. eexists. split; [reflexivity|]. unfold adm. destruct Hq as [->| ->]; destruct (uses_sem j); cbn [app]; intro K; repeat (destruct K as [K|K]; [discriminate K|]); contradiction. }
      destruct (t_phase k); cbn [life] in L1.
      1-2, 9-10: exists []; split; [exact L1|intros []].
      + exists (adm (t_job k) t). split; [exact L1|]. unfold adm. destruct (uses_sem _); intro K; repeat (destruct K as [K|K]; [discriminate K|]); contradiction.
      + exists (adm (t_job k) t ++ [OQueued t]). split; [exact L1|]. unfold adm. destruct (uses_sem _); intro K; repeat (destruct K as [K|K]; [discriminate K|]); contradiction.
      + rewrite <- (app_nil_r (trace t (s_log s))). apply (C _ _ L1 []). intros [].
      + destruct L1 as (l0 & at_ & bs & Hcame & ->). apply (C _ _ Hcame). intro K; repeat (destruct K as [K|K]; [discriminate K|]); contradiction.
      + contradiction.
      + destruct L1 as (l0 & at_ & bs & Hcame & -> & _). apply (C _ _ Hcame). intro K; repeat (destruct K as [K|K]; [discriminate K|]); contradiction.
      + destruct L1 as [->|[->|[(l0 & Hcame & ->)|(l0 & at_ & bs & Hcame & ->)]]].
        * eexists. split; [reflexivity|]. intro K; repeat (destruct K as [K|K]; [discriminate K|]); contradiction.
        * eexists. split; [reflexivity|]. unfold adm. destruct (uses_sem _); intro K; repeat (destruct K as [K|K]; [discriminate K|]); contradiction.
        * apply (C _ _ Hcame). intro K; repeat (destruct K as [K|K]; [discriminate K|]); contradiction.
        * apply (C _ _ Hcame). intro K; repeat (destruct K as [K|K]; [discriminate K|]); contradiction.
    - exfalso. specialize (L2 t G). rewrite E, trace_app, trace_cons in L2. cbn [about] in L2. rewrite Z.eqb_refl in L2. destruct (trace t la); discriminate L2. }
  destruct H as (l & H & N). rewrite E, trace_app, trace_cons in H. cbn [about] in H. rewrite Z.eqb_refl in H.
  destruct (trace t la) as [|z za]; [reflexivity|]. cbn [app] in H. injection H as _ H. exfalso. apply N. rewrite <- H. apply in_or_app. right. left. reflexivity.
Qed.
(** an entry about [t] comes after the call of [t] *)
Lemma after_call s t la lb x la' lb' : Life s -> s_log s = la ++ OCalled t :: lb -> s_log s = la' ++ x :: lb' -> about t x = true -> x <> OCalled t ->
  grows la la'.
Proof.
  intros HL E E' Hx Hn. pose proof (nothing_before_call s t la lb HL E) as N. rewrite E in E'. clear E HL s. revert la' E' N.
  induction la as [|y la IH]; intros la' E' N; [exists la'; reflexivity|].
  destruct la' as [|z la']; cbn [app] in E'; injection E' as <- E'.
  - exfalso. rewrite trace_cons, Hx in N. discriminate N.
  - rewrite trace_cons in N. apply app_eq_nil in N as [_ N]. destruct (IH _ E' N) as (q & ->). exists q. reflexivity.
Qed.
Lemma host_order cap {A} (p0 : prog A) h a t1 y1 b t2 y2 la at_ bs lb : 0 <= cap -> HInv cap p0 h ->
  doings h = a ++ (t1, y1) :: b -> In (t2, y2) b -> starts y2 -> s_log (h_st h) = la ++ OWritten t2 at_ bs :: lb -> evidence t1 y1 la.
Proof.
  intros Hc [R _ _ _ _ O] E Hi Hs El. destruct (O a t1 y1 b t2 y2 E Hi Hs) as (la0 & lb0 & El0 & He).
  pose proof (I_life _ _ (reachable_inv cap _ Hc R)) as HL. eapply evidence_mono; [|exact He].
  eapply after_call; [exact HL|exact El0|exact El|cbn [about]; apply Z.eqb_refl|discriminate].
Qed.
Lemma host_wrote cap {A} (p0 : prog A) h t y at_ bs : 0 <= cap -> HInv cap p0 h -> In (t, y) (doings h) ->
  In (OWritten t at_ bs) (s_log (h_st h)) ->
  match y with
  | ARequest sub cmd d _ _ | ASpawn sub cmd d => exists o, from_command sub cmd d = Ok o /\ frame_bytes o bs
  | _ => False
  end.
Proof.
  intros Hc [R _ _ J _ _] Hy Hw. destruct (J t y Hy) as (j & (k & G & Ej) & Hj).
  destruct (I_wrote _ _ (reachable_inv cap _ Hc R)) as [_ W]. destruct (W t at_ bs Hw) as (_ & k' & o & G' & Hb & _ & Hf).
  assert (k' = k) by congruence. subst k'. rewrite Ej in Hb.
  assert (K : forall sub cmd d x, j = JCommand sub cmd d x -> exists o, from_command sub cmd d = Ok o /\ frame_bytes o bs).
  { intros sub cmd d x ->. exists o. split; [|exact Hf]. cbn [build] in Hb. destruct (from_command sub cmd d) as [|[]]; cbn [in_coroutine] in Hb; congruence. }
  destruct y; cbn [job_of] in Hj; [eapply K, Hj| | |eapply K, Hj].
  - rewrite Hj in Hb. discriminate Hb.
  - destruct Hj as (? & Hj). rewrite Hj in Hb. discriminate Hb.
Qed.
