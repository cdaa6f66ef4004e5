(** * PropsHostBlame: property C143, why a start-up on the request machine fails, and when it succeeds *)
From Verif Require Import Base Types Uart Buffalo CmdTable Zpi Api App Machine SpecWire SpecApi SpecMachine SpecProgress SpecFirst SpecBlame Nv StartZnp SpecStart Host SpecHost SpecEnds
  AppStart SpecAppStart Whole SpecWhole SpecWholeFail SpecHostBlame PropsApp PropsMachine PropsBlame PropsAppStart HostEnds HostBlame.

(** ** C143.  If a start-up that runs on the request machine raises, its last act failed, and that request was cancelled, or the port was
    closed, or its frame stayed unanswered for the time limit, or it was refused; or that wait was cancelled or not served in time; or the
    product is not known.  Nothing else can make it raise. *)
Theorem C143_startup_fails_because : forall cap v d a es0 auto c devs es e, 0 <= cap -> valid_config c ->
  let s0 := init cap v d a in let h0 := hosted (app_startup auto c devs) (run es0 s0) in let h := hrun es h0 in
  fields_exist (h_st h) -> ending h = Raised e ->
  exists pre t y, doings h = pre ++ [(t, y)] /\ failed y e /\ let_act (es0 ++ SpecEnds.flat h0 es) s0 (s_log (h_st h)) (doings h) t y.
Proof. exact startup_blamed. Qed.
Print Assumptions C143_startup_fails_because.
(** On a stick that works it succeeds, whatever else is going on, within so many rounds (C100). *)
Theorem C143_startup_succeeds : forall cap v d a es0 auto c devs T rs, 0 < cap -> valid_config c -> 30000 <= T ->
  let s0 := init cap v d a in let s := run es0 s0 in let h0 := hosted (app_startup auto c devs) s in let h := hrun (concat rs) h0 in
  (forall t k m to, get (h_st h) t = Some k -> t_job k = JWaitFor m to -> to <= T) -> fields_exist (h_st h) -> host_rounds T h0 rs ->
  106 * (1 + 7 * (Z.of_nat (length (pending (s_log s))) + (calls (s_log (h_st h)) - calls (s_log s)))) <= Z.of_nat (length rs) ->
  works_for (es0 ++ SpecEnds.flat h0 (concat rs)) s0 (s_log (h_st h)) (doings h) -> exists r, ending h = Returned r.
Proof. exact startup_works. Qed.
Print Assumptions C143_startup_succeeds.

(** *** start-ups that fail *)
Definition lit_boot : host ready := hosted (app_startup false lit_net lit_devices) PropsMachine.lit_start.
Definition lit_asked (t : Z) (answer : list Z) : list hevent := [HGo; HEnv (ERun t); HEnv (ERecv answer); HEnv (ERun t); HGo].
Definition lit_pong : list Z := wire 3 1 1 [89; 7].
Definition lit_product (p : Z) : list Z := wire 3 1 2 [2; p; 2; 7; 1; 1; 2; 3; 4].
Definition lit_info (status : Z) : list Z := wire 3 7 0 [status; 1; 2; 3; 4; 5; 6; 7; 8; 0; 0; 7; 9; 0].
Definition lit_mute : list hevent := lit_asked 0 lit_pong ++ [HGo; HEnv (ERun 1); HEnv (ETick 6000); HEnv (ETimeout 1); HGo].
Definition lit_refuses : list hevent := lit_asked 0 lit_pong ++ lit_asked 1 (lit_product 1) ++ lit_asked 2 (lit_info 1).
Definition lit_strange : list hevent := lit_asked 0 lit_pong ++ lit_asked 1 (lit_product 7).
Example C143_fails_inhabited : valid_config lit_net /\
  (let h := hrun lit_mute lit_boot in fields_exist (h_st h) /\ ending h = Raised TimeoutError /\ length (doings h) = 2%nat) /\
  (let h := hrun lit_refuses lit_boot in fields_exist (h_st h) /\ ending h = Raised (CommandError 1) /\ length (doings h) = 3%nat) /\
  (let h := hrun lit_strange lit_boot in fields_exist (h_st h) /\ ending h = Raised ValueError /\ length (doings h) = 2%nat).
Proof.
  split; [exact lit_net_valid|]. split; [|split]; (split; [apply bare_fields; vm_compute; reflexivity|]; split; vm_compute; reflexivity).
Qed.

(** *** one that succeeds *)
Definition lit_fine : list (list hevent) :=
  (HEnv (ETick 30000) :: lit_asked 0 lit_pong ++ lit_asked 1 (lit_product 1) ++ lit_asked 2 (lit_info 0)) :: repeat [HEnv (ETick 30000); HGo] 2331.
Fixpoint none_left (n : nat) (h : host ready) : bool :=
  match n with O => true | S n => match pending (s_log (h_st h)) with [] => none_left n (hrun [HEnv (ETick 30000); HGo] h) | _ => false end end.
Lemma none_left_rounds n : forall h, none_left n h = true -> host_rounds 30000 h (repeat [HEnv (ETick 30000); HGo] n).
Proof.
  induction n as [|n IH]; intros h H; [exact I|]. cbn [none_left] in H. cbn [repeat host_rounds]. destruct (pending (s_log (h_st h))); [|discriminate H]. split; [|apply IH, H].
  split; [cbn; tauto|]. exists [HEnv (ETick 30000)], [HGo]. split; [reflexivity|]. split; [vm_compute; discriminate|]. intros t [].
Qed.
(** every frame that is out was written less than 6 s ago *)
Fixpoint calm (now : Z) (l : list obs) : bool :=
  match l with
  | [] => true
  | OWritten t at_ _ :: l' => ((now <? at_ + 6000) || existsb (fun x => match x with OFreed u => u =? t | _ => false end) l') && calm now l'
  | _ :: l' => calm now l'
  end.
Fixpoint always (f : st -> bool) (es : list event) (s : st) : bool :=
  f s && match es with [] => true | e :: es => always f es (step e s) end.
Lemma always_at f es : forall s es1 es2, always f es s = true -> es = es1 ++ es2 -> f (run es1 s) = true.
Proof.
  induction es as [|e es IH]; intros s es1 es2 H E; cbn [always] in H; apply andb_prop in H as [H1 H2].
  - destruct es1; [exact H1|discriminate E].
  - destruct es1 as [|e' es1]; [exact H1|]. cbn [app] in E. injection E as <- E. exact (IH (step e s) es1 es2 H2 E).
Qed.
Lemma calm_written now t at_ bs lb la : calm now (la ++ OWritten t at_ bs :: lb) = true -> now < at_ + 6000 \/ In (OFreed t) lb.
Proof.
  induction la as [|x la IH]; cbn [app calm].
  - intro H. apply andb_prop in H as [H _]. apply orb_prop in H as [H|H]; [left; apply Z.ltb_lt, H|right].
    apply existsb_exists in H as (x & Hin & Hx). destruct x; try discriminate Hx. apply Z.eqb_eq in Hx. subst. exact Hin.
  - intro H. apply IH. destruct x; try exact H. apply andb_prop in H as [_ H]. exact H.
Qed.
Lemma calm_no_silence es s0 : always (fun s => calm (s_now s) (s_log s)) es s0 = true -> forall t o, ~ at_some_time (silence t o) es s0.
Proof.
  intros H t o (es1 & es2 & E & la & lb & at_ & bs & El & Nf & _ & Hp & _). pose proof (always_at _ _ _ _ _ H E) as K. cbv beta in K. rewrite El in K.
  destruct (calm_written _ _ _ _ _ _ K) as [L|L]; [|contradiction]. unfold patience in Hp. destruct (z_type o); try lia. destruct (_ || _); lia.
Qed.
(** no answer says anything but success *)
Definition friendly (l : list obs) : bool :=
  forallb (fun x => match x with OReceived r => match status_of r with Some (VInt c) => c =? 0 | _ => true end | _ => true end) l.
Lemma friendly_no_refusal l sub cmd d t c : friendly l = true -> ~ refusal (JCommand sub cmd d [0]) t l c.
Proof.
  intros H (o & at_ & bs & lb & r & _ & _ & _ & (la & lc & -> & _) & Hr & _ & Hs & N). unfold friendly in H. rewrite forallb_forall in H.
  specialize (H (OReceived r)). cbv beta iota in H. rewrite Hs in H. assert (c = 0) as ->.
  { apply Z.eqb_eq, H. apply in_or_app. right. right. apply in_or_app. left. exact Hr. }
  apply N. cbn. tauto.
Qed.
Definition is_cancel (e : event) : bool := match e with ECancel _ | EClose => true | _ => false end.
Example C143_succeeds_inhabited : let h := hrun (concat lit_fine) lit_boot in
  valid_config lit_net /\ fields_exist (h_st h) /\ host_rounds 30000 lit_boot lit_fine /\ length (doings h) = 3%nat /\
  106 * (1 + 7 * (0 + 3)) <= Z.of_nat (length lit_fine) /\ calls (s_log (h_st h)) = 3 /\
  works_for ([] ++ SpecEnds.flat lit_boot (concat lit_fine)) PropsMachine.lit_start (s_log (h_st h)) (doings h) /\
  ending h = Returned (mk_ready 1 16 [1; 2; 3; 4; 5; 6; 7; 8] 0 [([1; 2; 3; 4; 5; 6; 7; 8], 0); ([8; 7; 6; 5; 4; 3; 2; 1], 22136)] None).
Proof.
  intro h. split; [exact lit_net_valid|]. split; [apply bare_fields; vm_compute; reflexivity|]. split.
  { split; [|apply none_left_rounds; vm_compute; reflexivity]. split; [cbn; tauto|]. exists [HEnv (ETick 30000)], (tl (hd [] lit_fine)).
    split; [reflexivity|]. split; [vm_compute; discriminate|]. intros t Ht. vm_compute in Ht. contradiction. }
  split; [vm_compute; reflexivity|]. split; [vm_compute; discriminate|]. split; [vm_compute; reflexivity|]. split; [|vm_compute; reflexivity].
  cbn [app]. set (es := SpecEnds.flat lit_boot (concat lit_fine)).
  assert (C : forallb (fun e => negb (is_cancel e)) es = true) by (vm_compute; reflexivity). rewrite forallb_forall in C.
  assert (S : forall t o, ~ at_some_time (silence t o) es PropsMachine.lit_start) by (apply calm_no_silence; vm_compute; reflexivity).
  assert (F : friendly (s_log (h_st h)) = true) by (vm_compute; reflexivity).
  assert (D : forallb (fun '(_, y) => match y with ARequest _ cmd _ [0] (Some (Ok m)) =>
      negb (String.eqb cmd "version") || match dict_get (z_payload m) "product" with Some (VInt 1) => true | _ => false end | _ => false end) (doings h) = true) by (vm_compute; reflexivity).
  rewrite forallb_forall in D. split; [intro K; specialize (C _ K); discriminate C|].
  intros t y Hy. split; [intro K; specialize (C _ K); discriminate C|]. specialize (D _ Hy). cbv beta iota in D.
  destruct y as [sub cmd d x r|m to|m r|sub cmd d]; try discriminate D.
  destruct x as [|x0 [|]]; try discriminate D; destruct x0; try discriminate D. split; [intros o _; apply S|]. split; [intro c; apply friendly_no_refusal, F|].
  intros -> m p -> Hp. rewrite Hp in D. cbn in D. exists Stack3x0. destruct p as [|[| |]|]; try discriminate D. reflexivity.
Qed.
