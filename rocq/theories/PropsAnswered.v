(** * PropsAnswered: a start-up that is alone and is served succeeds (C166) *)
From Verif Require Import Base Types Uart Buffalo CmdTable Zpi Api App Machine Life World SpecApi SpecMachine SpecFirst SpecBlame SpecWorld SpecWorldBlame Nv StartZnp AppStart SpecStart SpecAppStart Host SpecHost Whole SpecWhole SpecWholeBlame
  PropsHost PropsAppStart PropsWhole PropsWholeEnd PropsWholeFail PropsWholeFair PropsWorldBlame PropsWholeBlame SpecWholeEnds SpecFair WholeBlame SpecSerial SerialProofs PropsSerial SpecUndisturbed PropsShut SpecAnswered AnsweredProofs.

(** ** C166.  If start-ups and reconnect loops come one by one and the user does not shut the application down, then an attempt none of
    whose requests is cancelled, unanswered or refused, none of whose waits is cancelled or in vain, and whose stick reports a known product,
    succeeds; nothing need be known about ports.  [ws]: any history of the world that leads there (C145: there is one). *)
Theorem C166_answered_succeeds : forall c es devs devs' ws t auto ds r at_, valid_config c -> one_by_one c es (whole_init devs) -> Forall no_shutdown es ->
  let x := whole_run c es (whole_init devs) in
  x_world x = world_run ws (world_init devs') -> wfields_exist (x_world x) -> In (XOver t auto ds r at_) (x_log x) ->
  (forall a u y, In (a, u, y) ds -> answered ws (world_init devs') (x_world x) a u y) -> r = Ok tt.
Proof. exact answered_succeeds. Qed.
Print Assumptions C166_answered_succeeds.
(** the loop that sets the connection up again, of C145 *)
Definition lit_resumed : list xevent := lit_well ++ PropsWhole.lit_lost ++ concat lit_kind_rounds.
Lemma lit_resumed_run : whole_run lit_net lit_resumed (whole_init lit_known) = lit_recovered.
Proof. unfold lit_resumed, lit_recovered, lit_lonely, lit_whole, whole_run. rewrite app_assoc, fold_left_app. reflexivity. Qed.
Lemma served_answered es w0 w a t y : xserved es w0 w a t y -> answered es w0 w a t y.
Proof. intros [S1 S2]. split; [exact S1|]. destruct y; try exact S2. apply S2. Qed.
Example C166_inhabited : valid_config lit_net /\ one_by_one lit_net lit_resumed (whole_init lit_known) /\ Forall no_shutdown lit_resumed /\
  let x := whole_run lit_net lit_resumed (whole_init lit_known) in x_world x = world_run lit_events (world_init lit_known) /\ wfields_exist (x_world x) /\
  In (XOver 1 true lit_deeds (Ok tt) 7000) (x_log x) /\ length lit_deeds = 16%nat /\
  forall a u y, In (a, u, y) lit_deeds -> answered lit_events (world_init lit_known) (x_world x) a u y.
Proof.
  rewrite lit_resumed_run. cbv zeta. split; [exact lit_net_valid|]. split; [apply check_serial_ok; vm_compute; reflexivity|]. split; [apply quiet_ok; vm_compute; reflexivity|].
  split; [exact lit_events_lead|]. split; [apply bare_wfields; vm_compute; reflexivity|]. split; [rewrite lit_recovered_log; apply in_or_app; right; left; reflexivity|].
  split; [vm_compute; reflexivity|]. intros a u y Hi. apply served_answered, lit_deeds_served, Hi.
Qed.
(** And it does end, in rounds as in C140 and C145. *)
Theorem C166_recovers : forall c es devs devs' ws T M rs t, valid_config c -> one_by_one c (es ++ concat rs) (whole_init devs) -> Forall no_shutdown (es ++ concat rs) ->
  let x := whole_run c es (whole_init devs) in asking x t -> 60000 <= T -> 0 <= M ->
  xserving_rounds c T x rs -> uncrowded c M x rs -> 108 * (4 + 2 * M) <= Z.of_nat (length rs) ->
  let e := whole_run c (concat rs) x in x_world e = world_run ws (world_init devs') -> wfields_exist (x_world e) ->
  (forall l auto ds r at_ a u y, x_log e = x_log x ++ l -> In (XOver t auto ds r at_) l -> In (a, u, y) ds -> answered ws (world_init devs') (x_world e) a u y) ->
  exists l auto ds at_, x_log e = x_log x ++ l /\ In (XOver t auto ds (Ok tt) at_) l.
Proof. exact answered_recovers. Qed.
Print Assumptions C166_recovers.
Lemma lit_lonely_run : lit_lonely = whole_run lit_net (lit_well ++ PropsWhole.lit_lost) (whole_init lit_known).
Proof. unfold lit_lonely, lit_whole. reflexivity. Qed.
Lemma lit_resumed_app : (lit_well ++ PropsWhole.lit_lost) ++ concat lit_kind_rounds = lit_resumed.
Proof. unfold lit_resumed. rewrite app_assoc. reflexivity. Qed.
Lemma lit_answered l auto ds r at_ a u y : x_log lit_recovered = x_log lit_lonely ++ l -> In (XOver 1 auto ds r at_) l -> In (a, u, y) ds -> answered lit_events (world_init lit_known) (x_world lit_recovered) a u y.
Proof.
  destruct C145_recovers_inhabited as (_ & _ & _ & _ & _ & _ & _ & _ & D & _). intros El Hi Hy. exact (served_answered _ _ _ _ _ _ (D l auto ds r at_ a u y El Hi Hy)).
Qed.
Example C166_recovers_inhabited : lit_lonely = whole_run lit_net (lit_well ++ PropsWhole.lit_lost) (whole_init lit_known) /\ lit_recovered = whole_run lit_net (concat lit_kind_rounds) lit_lonely /\
  valid_config lit_net /\ one_by_one lit_net ((lit_well ++ PropsWhole.lit_lost) ++ concat lit_kind_rounds) (whole_init lit_known) /\
  Forall no_shutdown ((lit_well ++ PropsWhole.lit_lost) ++ concat lit_kind_rounds) /\ asking lit_lonely 1 /\
  xserving_rounds lit_net 60000 lit_lonely lit_kind_rounds /\ uncrowded lit_net 0 lit_lonely lit_kind_rounds /\ 108 * (4 + 2 * 0) <= Z.of_nat (length lit_kind_rounds) /\
  x_world lit_recovered = world_run lit_events (world_init lit_known) /\ wfields_exist (x_world lit_recovered) /\
  forall l auto ds r at_ a u y, x_log lit_recovered = x_log lit_lonely ++ l -> In (XOver 1 auto ds r at_) l -> In (a, u, y) ds -> answered lit_events (world_init lit_known) (x_world lit_recovered) a u y.
Proof.
  rewrite lit_resumed_app. split; [exact lit_lonely_run|]. split; [unfold lit_recovered; reflexivity|].
  destruct C145_recovers_inhabited as (V & _ & A & S & U & L & E & F & _). destruct C166_inhabited as (_ & O & N & _).
  exact (conj V (conj O (conj N (conj A (conj S (conj U (conj L (conj E (conj F lit_answered))))))))).
Qed.
(** if the user shuts the application down meanwhile, an attempt all of whose acts are so can fail *)
Example C166_shutdown : exists ws ds at_, x_world (lit_whole lit_barred) = world_run ws (world_init lit_known) /\
  In (XOver 0 true ds (Err AttributeError) at_) (x_log (lit_whole lit_barred)) /\ length ds = 1%nat /\
  forall a u y, In (a, u, y) ds -> answered ws (world_init lit_known) (x_world (lit_whole lit_barred)) a u y.
Proof.
  exists (world_history lit_net lit_barred (whole_init lit_known)), (deeds_over (lit_whole lit_barred) 0). eexists. split; [vm_compute; reflexivity|]. split; [vm_compute; repeat (first [left; reflexivity|right])|].
  split; [vm_compute; reflexivity|]. intros a u y Hi.
  assert (Hy : exists d, y = ARequest SYS "ping" d [0] (Some (Err AttributeError))) by (vm_compute in Hi; destruct Hi as [Hi|[]]; injection Hi as _ _ <-; eexists; reflexivity).
  clear Hi. destruct Hy as [d ->]. set (ws := world_history _ _ _).
  assert (Wn : walways (fun w => forallb (fun s => forallb (fun o => match o with OWritten _ _ _ => false | _ => true end) (s_log s)) (w_apis w)) ws (world_init lit_known) = true) by (vm_compute; reflexivity).
  assert (Nw : forall es1 es2 s u at_ bs, ws = es1 ++ es2 -> nth_error (w_apis (world_run es1 (world_init lit_known))) a = Some s -> ~ In (OWritten u at_ bs) (s_log s)).
  { intros es1 es2 s v at_ bs E A Hw. pose proof (walways_at _ _ _ _ _ Wn E) as K. cbv beta in K. rewrite forallb_forall in K. apply nth_error_In in A. specialize (K s A).
    rewrite forallb_forall in K. specialize (K _ Hw). discriminate K. }
  split; [intro K; assert (C : forallb (fun e => match e with VTaskCancel _ _ => false | _ => true end) ws = true) by (vm_compute; reflexivity); rewrite forallb_forall in C; specialize (C _ K); discriminate C|].
  split; [|split; [|discriminate]].
  - intros o _ (es1 & es2 & E & s & A & la & lb & at_ & bs & El & _). apply (Nw es1 es2 s u at_ bs E A). rewrite El. apply in_or_app. right. left. reflexivity.
  - intros c (o & at_ & bs & lb & r & _ & _ & _ & (la & lc & El & _) & _). assert (Ew : x_world (lit_whole lit_barred) = world_run ws (world_init lit_known)) by (vm_compute; reflexivity).
    unfold history in El. rewrite Ew in El. destruct (nth_error _ a) as [s|] eqn:A; [|destruct la; discriminate El]. apply (Nw ws [] s u at_ bs); [symmetry; apply app_nil_r|exact A|].
    rewrite El. apply in_or_app. right. left. reflexivity.
Qed.
