(** * PropsWholeBlame: property C145, why a start-up fails when connections are lost and made again, and when it succeeds *)
From Verif Require Import Base Types Uart Buffalo CmdTable Zpi Api App Machine Life World SpecWire SpecApi SpecMachine SpecFirst SpecBlame SpecWorld SpecWorldBlame
  Nv StartZnp AppStart SpecStart SpecAppStart Host SpecHost Whole SpecWhole SpecWholeEnds SpecFair SpecWholeFail SpecWholeBlame
  PropsApp PropsMachine PropsBlame PropsWorld PropsWorldBlame PropsStart PropsHost PropsHostBlame PropsAppStart PropsWhole PropsWholeEnd PropsWholeFail PropsWholeFair WholeBlame.

(** ** C145.  An attempt at a start-up that failed did so because of its last act: that request was cancelled, or its API object had no port,
    or its frame stayed unanswered for the time limit, or it was refused; or that wait was cancelled, or not served in time, or ended by a
    message that refused a request of an operation; or the product is not known.  [es]: any history of the world that leads there. *)
Theorem C145_startup_fails_because : forall c devs es x t auto ds e at_, valid_config c -> xreachable c x ->
  x_world x = world_run es (world_init devs) -> wfields_exist (x_world x) -> In (XOver t auto ds (Err e) at_) (x_log x) ->
  exists ds' a u y, ds = ds' ++ [(a, u, y)] /\ failed y e /\ xlet_act es (world_init devs) (x_world x) a u y.
Proof. exact xstartup_blamed. Qed.
Print Assumptions C145_startup_fails_because.
Theorem C145_there_is_a_history : forall c x, xreachable c x -> exists devs es, x_world x = world_run es (world_init devs).
Proof. exact histories_exist. Qed.
Print Assumptions C145_there_is_a_history.
(** If none of its acts is let down, an attempt succeeds, and within the rounds of C140. *)
Theorem C145_served_succeeds : forall c devs es x t auto ds r at_, valid_config c -> xreachable c x ->
  x_world x = world_run es (world_init devs) -> wfields_exist (x_world x) -> In (XOver t auto ds r at_) (x_log x) ->
  (forall a u y, In (a, u, y) ds -> xserved es (world_init devs) (x_world x) a u y) -> r = Ok tt.
Proof. exact xstartup_served. Qed.
Print Assumptions C145_served_succeeds.
Theorem C145_recovers : forall c devs es x T M rs t, valid_config c -> xreachable c x -> asking x t -> 60000 <= T -> 0 <= M ->
  xserving_rounds c T x rs -> uncrowded c M x rs -> 108 * (4 + 2 * M) <= Z.of_nat (length rs) ->
  let e := whole_run c (concat rs) x in x_world e = world_run es (world_init devs) -> wfields_exist (x_world e) ->
  (forall l auto ds r at_ a u y, x_log e = x_log x ++ l -> In (XOver t auto ds r at_) l -> In (a, u, y) ds -> xserved es (world_init devs) (x_world e) a u y) ->
  exists l auto ds at_, x_log e = x_log x ++ l /\ In (XOver t auto ds (Ok tt) at_) l.
Proof. exact xstartup_recovers. Qed.
Print Assumptions C145_recovers.

(** *** attempts that fail: see C136 *)
Example C145_fails_inhabited : valid_config lit_net /\
  (wfields_exist (x_world lit_product) /\ exists ds at_, In (XOver 0 true ds (Err ValueError) at_) (x_log lit_product)) /\
  (wfields_exist (x_world lit_no_answer) /\ exists ds at_, In (XOver 0 true ds (Err TimeoutError) at_) (x_log lit_no_answer)) /\
  (wfields_exist (x_world PropsWhole.lit_refused) /\ exists ds at_, In (XOver 1 true ds (Err (CommandError 2)) at_) (x_log PropsWhole.lit_refused)).
Proof.
  split; [exact lit_net_valid|].
  split; [|split]; (split; [apply bare_wfields; vm_compute; reflexivity|]; eexists; eexists; vm_compute; repeat (first [left; reflexivity|right])).
Qed.

(** *** one that succeeds, after the connection was lost *)
(** what happens to the world in a run *)
Definition world_events (c : nwk_config) (x : whole) (e : xevent) : list wevent :=
  let w := x_world x in
  match e with
  | XStartup _ r => [VLife (VStartup r)]
  | XWorld e => if from_outside x e then [e] else []
  | XGo t =>
    match b_part (x_boots x t) with
    | None => []
    | Some p =>
      let a := r_api p in
      let n := match nth_error (w_apis w) a with Some s => s_ntid s | None => 0 end in
      match r_place p with
      | Ready (DRaise e) => [VLife (VGo t (Err e))]
      | Ready (DRet TPong) => []
      | Ready (DRet (TVersion z)) => VGotVersion t z :: if Whole.known_product z then [] else [VLife (VGo t (Err ValueError))]
      | Ready (DRet (TFormed _)) =>
          match set_led (w_version w) LED_Off, y_cur (w_life w) with
          | Ok (_ :: _), Some a => [VApiCall a (JCommand UTIL "ledControl" (led_payload LED_Off) [0])]
          | _, _ => []
          end
      | Ready (DRet (TDevice i n)) => [VGotDevice t i n; VLife (VGo t (Ok tt))]
      | Ready (DRequest sub cmd d x _) => [VApiCall a (JCommand sub cmd d x)]
      | Ready (DListen m to _) => [VApiCall a (JWaitFor m to); VTask a n]
      | Ready (DAwait o _) => match object o (r_waiters p) with Some t => [VTask a t] | None => [] end
      | Ready (DSpawn sub cmd d _) => [VApiCall a (JCommand sub cmd d [0])]
      | _ => []
      end
    end
  end.
Fixpoint world_history (c : nwk_config) (es : list xevent) (x : whole) : list wevent :=
  match es with [] => [] | e :: es => world_events c x e ++ world_history c es (whole_step c e x) end.
(** From the state of C140: the stick answers, the start-up ends well in the first round; then 431 rounds in which nothing is left to do
    but the LED command, which nobody awaits. *)
Definition lit_kind_rounds : list (list xevent) := played lit_net (lit_same :: repeat [] 431) lit_lonely.
Definition lit_recovered : whole := whole_run lit_net (concat lit_kind_rounds) lit_lonely.
Definition lit_events : list wevent := world_history lit_net (lit_well ++ lit_lost ++ concat lit_kind_rounds) (whole_init lit_known).
Lemma lit_events_lead : x_world lit_recovered = world_run lit_events (world_init lit_known).
Proof. vm_compute. reflexivity. Qed.
(** every frame of another task than 13 that is out was written less than 6 s ago; nobody has been waiting for its time limit; nobody
    found the port closed *)
Fixpoint calm_but (u now : Z) (l : list obs) : bool :=
  match l with
  | [] => true
  | OWritten t at_ _ :: l' => ((t =? u) || (now <? at_ + 6000) || existsb (fun x => match x with OFreed u => u =? t | _ => false end) l') && calm_but u now l'
  | _ :: l' => calm_but u now l'
  end.
Definition on_time (now : Z) (l : list obs) (k : task) : bool :=
  match t_phase k with
  | PReg i _ | PAwait i _ => forallb (fun o => match o with ORegistered j at_ to => negb (j =? i) || (now <? at_ + to) | _ => true end) l
  | _ => true
  end.
Definition no_trouble (s : st) : bool :=
  calm_but 13 (s_now s) (s_log s) && forallb (fun x => on_time (s_now s) (s_log s) (snd x)) (s_tasks s) &&
  forallb (fun o => match o with OEnded _ (OExn AttributeError) => false | _ => true end) (s_log s).
Definition fine (w : world) : bool := match nth_error (w_apis w) 1 with Some s => no_trouble s | None => true end.
Fixpoint walways (f : world -> bool) (es : list wevent) (w : world) : bool := f w && match es with [] => true | e :: es => walways f es (world_step e w) end.
Lemma walways_at f es : forall w es1 es2, walways f es w = true -> es = es1 ++ es2 -> f (world_run es1 w) = true.
Proof.
  induction es as [|e es IH]; intros w es1 es2 H E; cbn [walways] in H; apply andb_prop in H as [H1 H2].
  - destruct es1; [exact H1|discriminate E].
  - destruct es1 as [|e' es1]; [exact H1|]. cbn [app] in E. injection E as <- E. exact (IH (world_step e w) es1 es2 H2 E).
Qed.
Lemma calm_but_written u now t at_ bs lb la : calm_but u now (la ++ OWritten t at_ bs :: lb) = true -> t = u \/ now < at_ + 6000 \/ In (OFreed t) lb.
Proof.
  induction la as [|x la IH]; cbn [app calm_but].
  - intro H. apply andb_prop in H as [H _]. apply orb_prop in H as [H|H]; [apply orb_prop in H as [H|H]; [left; apply Z.eqb_eq, H|right; left; apply Z.ltb_lt, H]|right; right].
    apply existsb_exists in H as (x & Hin & Hx). destruct x; try discriminate Hx. apply Z.eqb_eq in Hx. subst. exact Hin.
  - intro H. apply IH. destruct x; try exact H. apply andb_prop in H as [_ H]. exact H.
Qed.
Lemma tasks_all f s t k : forallb (fun x => f (snd x)) (s_tasks s) = true -> get s t = Some k -> f k = true.
Proof.
  unfold get. induction (s_tasks s) as [|[u k1] l IH]; [discriminate|]. cbn [forallb assoc snd]. intro H. apply andb_prop in H as [H1 H2].
  destruct (u =? t); [intros [= <-]; exact H1|apply IH, H2].
Qed.
Section Checked.
Variable es : list wevent.
Variable w0 : world.
Hypothesis H : walways fine es w0 = true.
Lemma trouble_free es1 es2 s : es = es1 ++ es2 -> nth_error (w_apis (world_run es1 w0)) 1 = Some s -> no_trouble s = true.
Proof. intros E A. pose proof (walways_at _ _ _ _ _ H E) as K. unfold fine in K. rewrite A in K. exact K. Qed.
Lemma fine_no_silence t o : t <> 13 -> ~ once (on_link 1 (silence t o)) es w0.
Proof.
  intros Ht (es1 & es2 & E & s & A & la & lb & at_ & bs & El & Nf & _ & Hp & _). pose proof (trouble_free _ _ _ E A) as K.
  apply andb_prop in K as [K _]. apply andb_prop in K as [K _]. rewrite El in K.
  destruct (calm_but_written _ _ _ _ _ _ _ K) as [L|[L|L]]; try contradiction. unfold patience in Hp. destruct (z_type o); try lia. destruct (_ || _); lia.
Qed.
Lemma fine_no_wait t m to : ~ once (wunheard 1 t m to) es w0.
Proof.
  intros (es1 & es2 & E & s & A & la & lb & i & at_ & k & x & El & G & P & Hn & _). pose proof (trouble_free _ _ _ E A) as K.
  apply andb_prop in K as [K _]. apply andb_prop in K as [_ K]. pose proof (tasks_all _ _ _ _ K G) as T. unfold on_time in T.
  assert (T' : forallb (fun o => match o with ORegistered j at_ to => negb (j =? i) || (s_now s <? at_ + to) | _ => true end) (s_log s) = true) by (destruct P as [P|P]; rewrite P in T; exact T).
  rewrite forallb_forall in T'. specialize (T' (ORegistered i at_ to)). cbv beta iota in T'. rewrite Z.eqb_refl in T'. cbn [negb orb] in T'.
  assert (Q : s_now s < at_ + to) by (apply Z.ltb_lt, T'; rewrite El; apply in_or_app; right; left; reflexivity). lia.
Qed.
Lemma fine_not_shut t : ~ some_step (ends_shut 1 t) es w0.
Proof.
  intros (es1 & e & es2 & E & _ & s & A & Hi). assert (E' : es = (es1 ++ [e]) ++ es2) by (rewrite <- app_assoc; exact E).
  pose proof (trouble_free _ _ _ E' A) as K. apply andb_prop in K as [_ K]. rewrite forallb_forall in K. specialize (K _ Hi). discriminate K.
Qed.
End Checked.
Lemma friendly_refuses_nobody l sub cmd d x t c : friendly l = true -> existsb (Z.eqb 0) x = true -> ~ refusal (JCommand sub cmd d x) t l c.
Proof.
  intros H Hx (o & at_ & bs & lb & r & _ & _ & _ & (la & lc & -> & _) & Hr & _ & Hs & N). unfold friendly in H. rewrite forallb_forall in H.
  specialize (H (OReceived r)). cbv beta iota in H. rewrite Hs in H. assert (c = 0) as ->.
  { apply Z.eqb_eq, H. apply in_or_app. right. right. apply in_or_app. left. exact Hr. }
  apply N. apply existsb_exists in Hx as (y & Hy & E). apply Z.eqb_eq in E. subst y. exact Hy.
Qed.
Definition goes_well (d : deed) : bool :=
  let '(a, u, y) := d in Nat.eqb a 1 &&
  match y with
  | ARequest _ cmd _ x (Some (Ok m)) => negb (u =? 13) && existsb (Z.eqb 0) x && (negb (String.eqb cmd "version") || match dict_get (z_payload m) "product" with Some (VInt 0) => true | _ => false end)
  | ARequest _ _ _ _ _ => false
  | _ => true
  end.
Definition lit_deeds : list deed := deeds_over lit_recovered 1.
Lemma lit_recovered_log : x_log lit_recovered = x_log lit_lonely ++ [XOver 1 true lit_deeds (Ok tt) 7000].
Proof. vm_compute. reflexivity. Qed.
Lemma lit_deeds_served a u y : In (a, u, y) lit_deeds -> xserved lit_events (world_init lit_known) (x_world lit_recovered) a u y.
Proof.
  intro Hi. assert (D : forallb goes_well lit_deeds = true) by (vm_compute; reflexivity). rewrite forallb_forall in D. specialize (D _ Hi). cbn [goes_well] in D.
  apply andb_prop in D as [D1 D2]. apply Nat.eqb_eq in D1. subst a.
  assert (C : forallb (fun e => match e with VTaskCancel _ _ => false | _ => true end) lit_events = true) by (vm_compute; reflexivity). rewrite forallb_forall in C.
  assert (F : walways fine lit_events (world_init lit_known) = true) by (vm_compute; reflexivity).
  split; [intro K; specialize (C _ K); discriminate C|]. destruct y as [sub cmd d x [[m|e]|]|m to|m r|sub cmd d]; try discriminate D2; try exact I.
  - apply andb_prop in D2 as [D2 D4]. apply andb_prop in D2 as [D2 D3].
    assert (Hu : u <> 13) by (intros ->; discriminate D2). split; [apply fine_not_shut, F|]. split; [intros o _; apply fine_no_silence; [exact F|exact Hu]|].
    split; [intro c; apply friendly_refuses_nobody; [vm_compute; reflexivity|exact D3]|].
    intros -> m0 p E Hp. injection E as <-. rewrite Hp in D4. cbn in D4. exists Stack12. destruct p; try discriminate D4. reflexivity.
  - split; [intro to; apply fine_no_wait, F|]. intros z _ (s & A & v & k & obj & i & c & G & _ & W & _).
    assert (N : forallb (fun s => forallb (fun x => match t_wid (snd x) with None => true | _ => false end) (s_tasks s)) (w_apis (x_world lit_recovered)) = true) by (vm_compute; reflexivity).
    rewrite forallb_forall in N. apply nth_error_In in A. pose proof (tasks_all (fun k => match t_wid k with None => true | _ => false end) s v k (N s A) G) as T.
    cbv beta in T. rewrite W in T. discriminate T.
Qed.
Lemma same_deeds t b ds r n t' b' ds' r' n' : XOver t b ds r n = XOver t' b' ds' r' n' -> ds' = ds.
Proof. intro E. injection E as _ _ E _ _. symmetry. exact E. Qed.
Example C145_recovers_inhabited :
  valid_config lit_net /\ xreachable lit_net lit_lonely /\ asking lit_lonely 1 /\
  xserving_rounds lit_net 60000 lit_lonely lit_kind_rounds /\ uncrowded lit_net 0 lit_lonely lit_kind_rounds /\ 108 * (4 + 2 * 0) <= Z.of_nat (length lit_kind_rounds) /\
  x_world lit_recovered = world_run lit_events (world_init lit_known) /\ wfields_exist (x_world lit_recovered) /\
  (forall l auto ds r at_ a u y, x_log lit_recovered = x_log lit_lonely ++ l -> In (XOver 1 auto ds r at_) l -> In (a, u, y) ds ->
    xserved lit_events (world_init lit_known) (x_world lit_recovered) a u y) /\
  length lit_deeds = 16%nat /\ In (XOver 1 true lit_deeds (Ok tt) 7000) (x_log lit_recovered).
Proof.
  split; [exact lit_net_valid|]. split; [apply lit_whole_reachable|]. split; [eexists; split; vm_compute; reflexivity|]. split; [apply played_fair|].
  split; [apply (room_enough lit_net 0); vm_compute; reflexivity|]. split; [unfold lit_kind_rounds; rewrite played_length; vm_compute; discriminate|].
  split; [exact lit_events_lead|]. split; [apply bare_wfields; vm_compute; reflexivity|]. split; [|split; [vm_compute; reflexivity|rewrite lit_recovered_log; apply in_or_app; right; left; reflexivity]].
  intros l auto ds r at_ a u y El Hi Hy. rewrite lit_recovered_log in El. apply app_inv_head in El. subst l. destruct Hi as [Hi|[]]. apply same_deeds in Hi. rewrite Hi in Hy. exact (lit_deeds_served a u y Hy).
Qed.
