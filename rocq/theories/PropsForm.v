(** * PropsForm: property C149, forming the network by itself *)
From Verif Require Import Base Types Uart Buffalo CmdTable Zpi Api App Machine SpecWire SpecApi SpecMachine SpecProgress SpecFirst SpecBlame Nv StartZnp SpecStart StartExec Host SpecHost SpecEnds
  AppStart Form SpecAppStart Whole SpecWhole SpecWholeFail SpecHostBlame PropsApp PropsMachine PropsStart PropsBlame PropsAppStart StartProofs HostProofs HostEnds HostBlame FormProofs FormBlame PropsHostBlame.

(** ** C149.  Before any start-up has learned the version nothing is sent and KeyError is raised.  The arguments have no effect. *)
Theorem C149_before_the_version : forall ch pan ext c tr f, runs (form_call None ch pan ext c) tr f -> tr = [] /\ (f = Interrupted \/ f = Raised KeyError).
Proof. intros ch pan ext c tr f H. apply runs_raise_inv in H. exact H. Qed.
Print Assumptions C149_before_the_version.
Theorem C149_arguments_ignored : forall version ch pan ext ch' pan' ext' c tr f,
  runs (form_call version ch pan ext c) tr f -> runs (form_call version ch' pan' ext' c) tr f.
Proof. intros version ch pan ext ch' pan' ext' c tr f H. exact H. Qed.
Print Assumptions C149_arguments_ignored.
(** A start-up without forming and then forming: what would be sent and seen if the start-up had formed the network itself, but for the
    moment of the last request of the start-up. *)
Theorem C149_after_a_start_up : forall c devs tr rd ch pan ext t2 g,
  runs (app_startup false c devs) tr (Returned rd) -> runs (form_call (Some (rd_product rd)) ch pan ext c) t2 g ->
  exists before info, tr = before ++ [info] /\
    match g with
    | Returned r => runs (app_startup true c devs) (before ++ t2 ++ [info]) (Returned (mk_ready (rd_product rd) (rd_limit rd) (rd_ieee rd) (rd_nwk rd) (rd_devices rd) (Some r)))
    | Raised e => runs (app_startup true c devs) (before ++ t2) (Raised e)
    | Interrupted => runs (app_startup true c devs) (before ++ t2) Interrupted
    end.
Proof. intros c devs tr rd ch pan ext t2 g. exact (form_later c devs tr rd t2 g). Qed.
Print Assumptions C149_after_a_start_up.
Theorem C149_start_up_taken_apart : forall c devs tr rd ch pan ext, runs (app_startup true c devs) tr (Returned rd) ->
  exists before t2 info r, tr = before ++ t2 ++ [info] /\ rd_status rd = Some r /\
    runs (app_startup false c devs) (before ++ [info]) (Returned (mk_ready (rd_product rd) (rd_limit rd) (rd_ieee rd) (rd_nwk rd) (rd_devices rd) None)) /\
    runs (form_call (Some (rd_product rd)) ch pan ext c) t2 (Returned r).
Proof. intros c devs tr rd ch pan ext. exact (form_apart c devs tr rd). Qed.
Print Assumptions C149_start_up_taken_apart.
(** On the link, whatever else goes on: a stick that already has the configured network is left alone, any other has it afterwards. *)
Theorem C149_forms_the_configured_network : forall cap v ch pan ext c s0 es r s s', 0 <= cap -> reachable cap s0 -> valid_config c ->
  let h := hrun es (hosted (form_call (Some (version_of v)) ch pan ext c) s0) in
  ending h = Returned r -> stick s (acts h) s' ->
  accepted v (network_options c) s /\ Forall harmless (acts h) /\ s' = s /\ r = Resumed \/
  ~ accepted v (network_options c) s /\ initialised v (network_options c) (acts h) /\ config_matches v (network_options c) s' /\ r <> Resumed.
Proof.
  intros cap v ch pan ext c s0 es r s s' Hc R V h E S.
  pose proof (host_runs cap _ _ (host_inv cap (form_call (Some (version_of v)) ch pan ext c) s0 es Hc R)) as Hr. fold h in Hr. rewrite E in Hr.
  exact (form_alone v c (acts h) r s s' V Hr S).
Qed.
Print Assumptions C149_forms_the_configured_network.
Theorem C149_left_alone : forall cap v ch pan ext c s0 es s s', 0 <= cap -> reachable cap s0 -> valid_config c ->
  let h := hrun es (hosted (form_call (Some (version_of v)) ch pan ext c) s0) in
  stick s (acts h) s' -> accepted v (network_options c) s -> Forall harmless (acts h) /\ s' = s.
Proof.
  intros cap v ch pan ext c s0 es s s' Hc R V h S Ha.
  pose proof (host_runs cap _ _ (host_inv cap (form_call (Some (version_of v)) ch pan ext c) s0 es Hc R)) as Hr.
  exact (form_left_alone v c (acts h) _ s s' V Hr S Ha).
Qed.
Print Assumptions C149_left_alone.
(** It ends, and on a stick that works it succeeds; if it raises, its last act failed, for the reasons of C143. *)
Theorem C149_ends : forall cap v ch pan ext c s T rs, 0 < cap -> reachable cap s -> valid_config c -> 30000 <= T ->
  let h := hosted (form_call (Some (version_of v)) ch pan ext c) s in let h' := hrun (concat rs) h in
  (forall t k m to, get (h_st h') t = Some k -> t_job k = JWaitFor m to -> to <= T) -> host_rounds T h rs ->
  100 * (1 + 7 * (Z.of_nat (length (pending (s_log s))) + (calls (s_log (h_st h')) - calls (s_log s)))) <= Z.of_nat (length rs) ->
  ending h' <> Interrupted.
Proof.
  intros cap v ch pan ext c s T rs Hc Hr Hv HT. apply (hosted_ends cap _ 50 s T rs Hc Hr); [apply fits_form|apply sendable_expects, form_sendable; exact Hv|exact HT].
Qed.
Print Assumptions C149_ends.
Theorem C149_fails_because : forall cap v0 d a es0 v ch pan ext c es e, 0 <= cap -> valid_config c ->
  let s0 := init cap v0 d a in let h0 := hosted (form_call (Some (version_of v)) ch pan ext c) (run es0 s0) in let h := hrun es h0 in
  fields_exist (h_st h) -> ending h = Raised e ->
  exists pre t y, doings h = pre ++ [(t, y)] /\ failed y e /\ let_act (es0 ++ SpecEnds.flat h0 es) s0 (s_log (h_st h)) (doings h) t y.
Proof. intros cap v0 d a es0 v ch pan ext c. exact (form_blamed cap v0 d a es0 v c). Qed.
Print Assumptions C149_fails_because.
Theorem C149_succeeds : forall cap v0 d a es0 v ch pan ext c T rs, 0 < cap -> valid_config c -> 30000 <= T ->
  let s0 := init cap v0 d a in let s := run es0 s0 in let h0 := hosted (form_call (Some (version_of v)) ch pan ext c) s in let h := hrun (concat rs) h0 in
  (forall t k m to, get (h_st h) t = Some k -> t_job k = JWaitFor m to -> to <= T) -> fields_exist (h_st h) -> host_rounds T h0 rs ->
  100 * (1 + 7 * (Z.of_nat (length (pending (s_log s))) + (calls (s_log (h_st h)) - calls (s_log s)))) <= Z.of_nat (length rs) ->
  works_for (es0 ++ SpecEnds.flat h0 (concat rs)) s0 (s_log (h_st h)) (doings h) -> exists r, ending h = Returned r.
Proof. intros cap v0 d a es0 v ch pan ext c. exact (form_works cap v0 d a es0 v c). Qed.
Print Assumptions C149_succeeds.

(** a start-up without forming and then forming, on an empty stick and on one that has the network *)
Definition lit_form (product : Z) (s : store) : list act * fin start_result * store := exec (lit_dongle true product) 200 (form_call (Some product) 15 None None lit_net) s.
Example C149_inhabited :
  let x := lit_run false true 2 lit_empty in let y := lit_form 2 lit_empty in let z := lit_run true true 2 lit_empty in
  (exists rd, fin_of x = Returned rd /\ rd_product rd = 2 /\ rd_status rd = None) /\ fin_of y = Returned Reset /\ fin_of (lit_form 2 (store_of y)) = Returned Resumed /\
  (exists rd, fin_of z = Returned rd /\ rd_status rd = Some Reset) /\ store_of y 131 = Some [52; 18] /\
  trace_of z = firstn 2 (trace_of x) ++ trace_of y ++ skipn 2 (trace_of x).
Proof.
  split; [eexists; split; [vm_compute; reflexivity|split; reflexivity]|]. split; [vm_compute; reflexivity|]. split; [vm_compute; reflexivity|].
  split; [eexists; split; vm_compute; reflexivity|]. split; vm_compute; reflexivity.
Qed.
(** on the link, with a stick that has the network: the answers to what forming asks *)
Definition lit_forming : host start_result := hosted (form_call (Some (version_of Stack3x0)) 11 (Some 1) None lit_net) PropsMachine.lit_start.
Definition lit_item (b : list Z) : list Z := wire 3 1 8 ([0; Z.of_nat (length b)] ++ b).
Definition lit_confirmed : list hevent :=
  lit_asked 0 (lit_item [85]) ++ lit_asked 1 (lit_item [85]) ++ lit_asked 2 (lit_item [0; 8; 0; 0]) ++ lit_asked 3 (lit_item [0]) ++
  lit_asked 4 (lit_item (o_key (network_options lit_net))) ++ lit_asked 5 (lit_item [52; 18]) ++ lit_asked 6 (lit_item [1; 2; 3; 4; 5; 6; 7; 8]) ++
  lit_asked 7 (lit_info 0) ++ [HGo; HEnv (ERun 8); HGo; HEnv (ERun 9); HEnv (ERecv (wire 3 5 5 [0])); HEnv (ERun 9); HGo] ++
  [HEnv (ERecv (wire 2 5 133 [0; 0; 0; 0; 0; 13; 1; 2; 3; 4; 5; 6; 8; 11; 110; 12; 13; 47; 242])); HEnv (ERun 8); HGo] ++ lit_asked 10 (wire 3 5 74 [0; 132; 11; 0]).
Definition lit_pauses : list (list hevent) := (HEnv (ETick 30000) :: lit_confirmed) :: repeat [HEnv (ETick 30000); HGo] (Z.to_nat 7799).
Fixpoint none_open (n : nat) (h : host start_result) : bool :=
  match n with O => true | S n => match pending (s_log (h_st h)) with [] => none_open n (hrun [HEnv (ETick 30000); HGo] h) | _ => false end end.
Lemma none_open_rounds n : forall h, none_open n h = true -> host_rounds 30000 h (repeat [HEnv (ETick 30000); HGo] n).
Proof.
  induction n as [|n IH]; intros h H; [exact I|]. cbn [none_open] in H. cbn [repeat host_rounds]. destruct (pending (s_log (h_st h))); [|discriminate H]. split; [|apply IH, H].
  split; [cbn; tauto|]. exists [HEnv (ETick 30000)], [HGo]. split; [reflexivity|]. split; [vm_compute; discriminate|]. intros t [].
Qed.
Lemma friendly_none_refused l sub cmd d x t c : friendly l = true -> In 0 x -> ~ refusal (JCommand sub cmd d x) t l c.
Proof.
  intros H Hx (o & at_ & bs & lb & r & _ & _ & _ & (la & lc & -> & _) & Hr & _ & Hs & N). unfold friendly in H. rewrite forallb_forall in H.
  specialize (H (OReceived r)). cbv beta iota in H. rewrite Hs in H. assert (c = 0) as ->.
  { apply Z.eqb_eq, H. apply in_or_app. right. right. apply in_or_app. left. exact Hr. }
  apply N. exact Hx.
Qed.
(** nobody waits for anything after second 30, and nothing that was registered has lasted till then *)
Definition brief (s : st) : bool :=
  forallb (fun x => match t_phase (snd x) with PReg _ _ | PAwait _ _ => s_now s <=? 30000 | _ => true end) (s_tasks s) &&
  forallb (fun x => match x with ORegistered _ at_ to => 30000 <? at_ + to | _ => true end) (s_log s).
Lemma assoc_in {A} t (l : list (Z * A)) k : assoc t l = Some k -> In (t, k) l.
Proof.
  induction l as [|[u x] l IH]; cbn [assoc]; [discriminate|]. destruct (Z.eqb_spec u t) as [->|]; [intros [= ->]; left; reflexivity|right; auto].
Qed.
Lemma brief_heard es s0 : always brief es s0 = true -> forall t m to, ~ at_some_time (unheard t m to) es s0.
Proof.
  intros H t m to (es1 & es2 & E & la & lb & i & at_ & k & x & El & G & Hp & Ht & _). pose proof (always_at _ _ _ _ _ H E) as K.
  unfold brief in K. apply andb_prop in K as [K1 K2]. rewrite forallb_forall in K1, K2.
  apply assoc_in in G. specialize (K1 _ G). cbn [snd] in K1.
  specialize (K2 (ORegistered i at_ to)). rewrite El in K2. assert (K3 : 30000 < at_ + to) by (apply Z.ltb_lt, K2, in_or_app; right; left; reflexivity).
  destruct Hp as [Hp|Hp]; rewrite Hp in K1; apply Z.leb_le in K1; lia.
Qed.
Example C149_succeeds_inhabited : let h := hrun (concat lit_pauses) lit_forming in
  valid_config lit_net /\ fields_exist (h_st h) /\ host_rounds 30000 lit_forming lit_pauses /\ length (doings h) = 12%nat /\
  100 * (1 + 7 * (0 + 11)) <= Z.of_nat (length lit_pauses) /\ calls (s_log (h_st h)) = 11 /\
  works_for ([] ++ SpecEnds.flat lit_forming (concat lit_pauses)) PropsMachine.lit_start (s_log (h_st h)) (doings h) /\
  ending h = Returned Resumed.
Proof.
  intro h. split; [exact lit_net_valid|]. split; [apply bare_fields; vm_compute; reflexivity|]. split.
  { split; [|apply none_open_rounds; vm_compute; reflexivity]. split; [cbn; tauto|]. exists [HEnv (ETick 30000)], (tl (hd [] lit_pauses)).
    split; [reflexivity|]. split; [vm_compute; discriminate|]. intros t Ht. vm_compute in Ht. contradiction. }
  split; [vm_compute; reflexivity|]. split; [vm_compute; discriminate|]. split; [vm_compute; reflexivity|]. split; [|vm_compute; reflexivity].
  cbn [app]. set (es := SpecEnds.flat lit_forming (concat lit_pauses)).
  assert (C : forallb (fun e => negb (is_cancel e)) es = true) by (vm_compute; reflexivity). rewrite forallb_forall in C.
  assert (S : forall t o, ~ at_some_time (silence t o) es PropsMachine.lit_start) by (apply calm_no_silence; vm_compute; reflexivity).
  assert (U : forall t m to, ~ at_some_time (unheard t m to) es PropsMachine.lit_start) by (apply brief_heard; vm_compute; reflexivity).
  assert (F : friendly (s_log (h_st h)) = true) by (vm_compute; reflexivity).
  assert (D : forallb (fun '(_, y) => match y with ARequest _ cmd _ x _ => negb (String.eqb cmd "version") && existsb (Z.eqb 0) x | _ => true end) (doings h) = true) by (vm_compute; reflexivity).
  rewrite forallb_forall in D. split; [intro K; specialize (C _ K); discriminate C|].
  intros t y Hy. split; [intro K; specialize (C _ K); discriminate C|]. specialize (D _ Hy). cbv beta iota in D.
  destruct y as [sub cmd d x r|m to|m r|sub cmd d]; try exact I; [|apply U].
  apply andb_prop in D as [D1 D2]. apply existsb_exists in D2 as (z & Hz & Ez). apply Z.eqb_eq in Ez. subst z.
  split; [intros o _; apply S|]. split; [intro c; apply friendly_none_refused; assumption|].
  intros -> m p _ _. discriminate D1.
Qed.
(** and with a stick that does not answer *)
Example C149_fails_inhabited :
  let h := hrun (lit_asked 0 (lit_item [85]) ++ [HGo; HEnv (ERun 1); HEnv (ETick 6000); HEnv (ETimeout 1); HGo]) lit_forming in
  fields_exist (h_st h) /\ ending h = Raised TimeoutError /\ length (doings h) = 2%nat.
Proof. split; [apply bare_fields; vm_compute; reflexivity|]. split; vm_compute; reflexivity. Qed.
