(** * DuelProofs: reconnect loops that hinder each other *)
From Coq Require Import ZifyBool ZifyNat.
From Verif Require Import Base Types Uart Buffalo CmdTable Zpi Api App Machine Life World Nv StartZnp AppStart SpecStart Host Whole SpecWhole SpecOverlap SpecDuel.

Notation caps := [("capabilities", VInt 1)].
Notation ping_job := (JCommand SYS "ping" caps [0]).

(** ** one link *)
Definition pinged (s : st) (d : Z) : Prop :=
  exists w o, s_tasks s = [(0, mk_task ping_job (PWait w d) (Some o) None)] /\ s_futs s w = FPending.
Definition fresh (s : st) : Prop := s_tasks s = [] /\ s_ntid s = 0 /\ s_lock s = None /\ s_queue s = [] /\ s_open s = true.
Lemma fresh_pinged s : fresh s -> pinged (resume 0 (Machine.spawn ping_job s)) (s_now s + 6000).
Proof.
  destruct s as [nx ws fu ti nw wi op bu lk qu sm ts nt ve dv ap lg]. unfold fresh. cbn [s_tasks s_ntid s_lock s_queue s_open s_now]. intros (-> & -> & -> & -> & ->).
  eexists nx, _. split; [vm_compute; reflexivity|].
  match goal with |- s_futs ?x _ = _ => assert (F : s_futs x = upd fu nx FPending) by (vm_compute; reflexivity); rewrite F end.
  unfold upd. rewrite Z.eqb_refl. reflexivity.
Qed.
Lemma pinged_over s d : pinged s d -> d <= s_now s -> came_back (wait_timeout 0 s) 0 = Some (Err TimeoutError).
Proof.
  intros (w & o & Ht & Hf) H. destruct s as [nx ws fu ti nw wi op bu lk qu sm ts nt ve dv ap lg]. cbn [s_tasks s_futs s_now] in *. subst ts.
  unfold wait_timeout, get. cbn [assoc s_tasks Z.eqb t_phase s_futs s_now t_job]. rewrite Hf. apply Z.leb_le in H. rewrite H.
  unfold cancel_fut. cbn [s_futs]. rewrite Hf. reflexivity.
Qed.
Lemma pinged_now s d n : pinged s d -> pinged (set_now n s) d.
Proof. intros (w & o & A & B). exists w, o. auto. Qed.
Lemma pinged_flags s d x : pinged s d -> pinged (flags x s) d.
Proof. intros (w & o & A & B). exists w, o. auto. Qed.

(** ** the links, as Life.v has them *)
Lemma sync_old n : forall l ms k o s, nth_error l k = Some o -> nth_error ms k = Some s -> nth_error (sync n l ms) k = Some (flags o s).
Proof.
  induction l as [|x l IH]; intros [|m ms] [|k] o s H1 H2; cbn [nth_error sync] in *; try discriminate.
  - injection H1 as ->. injection H2 as ->. reflexivity.
  - apply IH; assumption.
Qed.
Lemma sync_new n : forall l ms k o, nth_error l k = Some o -> nth_error ms k = None -> nth_error (sync n l ms) k = Some (flags o (new_api n)).
Proof.
  induction l as [|x l IH]; intros [|m ms] [|k] o H1 H2; cbn [nth_error sync] in *; try discriminate.
  - injection H1 as ->. reflexivity.
  - apply IH; [exact H1|]. destruct k; reflexivity.
  - apply IH; assumption.
Qed.
Lemma sync_length n : forall l ms, length (sync n l ms) = length l.
Proof. induction l as [|x l IH]; intros [|m ms]; cbn [sync length]; auto. Qed.
Lemma set_nth_length {A} n (x : A) l : length (set_nth n x l) = length l.
Proof. revert n; induction l as [|a l IH]; intros [|n]; cbn [set_nth length]; auto. Qed.
Lemma set_nth_same {A} n (x y : A) l : nth_error l n = Some y -> nth_error (set_nth n x l) n = Some x.
Proof. revert n; induction l as [|a l IH]; intros [|n] H; cbn [set_nth nth_error] in *; try discriminate; auto. Qed.
Lemma set_nth_other {A} n m (x : A) l : n <> m -> nth_error (set_nth n x l) m = nth_error l m.
Proof. revert n m; induction l as [|a l IH]; intros [|n] [|m] H; cbn [set_nth nth_error]; auto; congruence. Qed.

(** ** the application, as far as it matters here *)
Definition wh A C T M N B U X (x : whole) : Prop :=
  exists G L Q q v D W, x = mk_whole (mk_world (mk_life G A C T L) M Q q v D [] N W) B U X.

Section Steps.
Variable c : nwk_config.
Lemma wh_tick A C T M N B U X x ms : 0 <= ms -> wh A C T M N B U X x ->
  wh A C T (map (fun s => set_now (s_now s + ms) s) M) (N + ms) B U X (whole_step c (XWorld (VTick ms)) x).
Proof.
  intros H (G & L & Q & q & v & D & W & ->). apply Z.leb_le in H. unfold whole_step, happens, world_step. cbn [from_outside x_world]. rewrite H.
  repeat eexists.
Qed.
Lemma wh_open A C T M N B U X x i : wh A C T M N B U X x -> nth_error T i = Some (mk_coroutine true KSleep) -> U i <= N ->
  exists g, wh (A ++ [mk_api_obj None false]) C (set_nth i (mk_coroutine true (KSettle (length A) g)) T) (sync N (A ++ [mk_api_obj None false]) M) N
    B (put_at i (N + SETTLE_MS) U) (X ++ [XTries i N]) (whole_step c (XWorld (VLife (VGo i (Ok tt)))) x).
Proof.
  intros (G & L & Q & q & v & D & W & ->) H HU. exists (length G). apply Z.leb_le in HU.
  assert (K : nth_error (set_nth i (mk_coroutine true (KSettle (length A) (length G))) T) i = Some (mk_coroutine true (KSettle (length A) (length G)))) by (eapply set_nth_same, H).
  unfold whole_step, from_outside, stage_of. cbn [x_world w_life y_tasks]. rewrite H. cbn [option_map k_stage x_until w_now]. rewrite HU. cbn [orb].
  unfold happens, tries, xnote, world_step, life_event_happens, life_step, go_on. cbn [x_world w_life y_tasks x_boots x_until x_log]. rewrite H.
  cbn [k_stage]. unfold startup_begins, log, with_apis, with_gws, at_stage. cbn [y_tasks y_apis y_gws y_cur y_log k_loop]. rewrite H. cbn [k_loop].
  unfold with_tasks, set_apis, set_life. cbn [y_tasks y_apis y_gws y_cur y_log w_life w_apis w_sems w_sem w_version w_devs w_ops w_now w_log].
  unfold falls_asleep, stage_of. cbn [x_world w_life y_tasks w_now x_boots x_until x_log]. rewrite K. cbn [option_map k_stage x_world x_boots x_until x_log w_now].
  unfold starting. cbn [w_life y_tasks x_world]. rewrite K. cbn [k_stage]. repeat eexists.
Qed.
Lemma wh_settled A C T M N B U X x i a g : wh A C T M N B U X x -> nth_error T i = Some (mk_coroutine true (KSettle a g)) -> U i <= N ->
  let A' := set_nth a (mk_api_obj (Some g) true) A in
  wh A' (Some a) (set_nth i (mk_coroutine true KRequests) T) (sync N A' M) N
    (put_at i (mk_boot (b_auto (B i)) (Some (mk_part a (Ready part_ping) [])) (b_deeds (B i))) B) U X (whole_step c (XWorld (VLife (VGo i (Ok tt)))) x).
Proof.
  intros (G & L & Q & q & v & D & W & ->) H HU. apply Z.leb_le in HU.
  assert (K : nth_error (set_nth i (mk_coroutine true KRequests) T) i = Some (mk_coroutine true KRequests)) by (eapply set_nth_same, H).
  unfold whole_step, from_outside, stage_of. cbn [x_world w_life y_tasks]. rewrite H. cbn [option_map k_stage x_until w_now]. rewrite HU. cbn [orb].
  unfold happens, world_step, life_event_happens, life_step, go_on. cbn [x_world w_life y_tasks x_boots x_until x_log]. rewrite H.
  cbn [k_stage]. unfold log, with_apis, with_cur, at_stage. cbn [y_tasks y_apis y_gws y_cur y_log k_loop]. rewrite H. cbn [k_loop].
  unfold with_tasks, set_apis, set_life. cbn [y_tasks y_apis y_gws y_cur y_log w_life w_apis w_sems w_sem w_version w_devs w_ops w_now w_log].
  unfold falls_asleep, stage_of. cbn [x_world w_life y_tasks w_now x_boots x_until x_log]. rewrite K. cbn [option_map k_stage x_world x_boots x_until x_log w_now].
  unfold starting. cbn [w_life y_tasks x_world]. rewrite K. cbn [k_stage]. unfold next_part. cbn [x_world w_life y_cur x_boots].
  unfold put_boot. cbn [x_world x_boots x_until x_log]. repeat eexists.
Qed.
Definition ping_k : result zpi -> prog part_result := match part_ping with DRequest _ _ _ _ k => k | _ => fun _ => DRaise Unmodelled end.
Lemma wh_asks A C T M N B U X x i a s auto ds : wh A C T M N B U X x -> B i = mk_boot auto (Some (mk_part a (Ready part_ping) [])) ds ->
  nth_error M a = Some s -> s_ntid s = 0 ->
  wh A C T (set_nth a (Machine.spawn ping_job s) M) N (put_at i (mk_boot auto (Some (mk_part a (Requesting 0 SYS "ping" caps [0] ping_k) [])) (ds ++ [])) B) U X (whole_step c (XGo i) x).
Proof.
  intros (G & L & Q & q & v & D & W & ->) HB H H0. unfold whole_step, boot_goes. cbn [x_boots]. rewrite HB. cbn [b_part r_place].
  unfold part_goes. cbn [r_api x_world w_apis r_place r_waiters]. rewrite H. cbn [world_step uses_sem]. unfold on_api. cbn [w_apis]. rewrite H.
  cbn -[wh Machine.spawn put_at]. rewrite H0. unfold put_boot. cbn [x_world x_boots x_until x_log]. repeat eexists.
Qed.
Lemma wh_task A C T M N B U X x a t s : wh A C T M N B U X x -> nth_error M a = Some s ->
  wh A C T (set_nth a (resume t s) M) N B U X (whole_step c (XWorld (VTask a t)) x).
Proof.
  intros (G & L & Q & q & v & D & W & ->) H. unfold whole_step, happens, world_step, on_api. cbn [from_outside x_world w_apis]. rewrite H. repeat eexists.
Qed.
Lemma wh_timeout A C T M N B U X x a t s : wh A C T M N B U X x -> nth_error M a = Some s ->
  wh A C T (set_nth a (wait_timeout t s) M) N B U X (whole_step c (XWorld (VTimeout a t)) x).
Proof.
  intros (G & L & Q & q & v & D & W & ->) H. unfold whole_step, happens, world_step, on_api. cbn [from_outside x_world w_apis]. rewrite H. repeat eexists.
Qed.
Lemma wh_back A C T M N B U X x i a s auto ds sub cmd d y k r : wh A C T M N B U X x ->
  B i = mk_boot auto (Some (mk_part a (Requesting 0 sub cmd d y k) [])) ds -> nth_error M a = Some s -> came_back s 0 = Some r ->
  wh A C T M N (put_at i (mk_boot auto (Some (mk_part a (Ready (k r)) [])) (ds ++ [(a, 0, ARequest sub cmd d y (Some r))])) B) U X (whole_step c (XGo i) x).
Proof.
  intros (G & L & Q & q & v & D & W & ->) HB H H0. unfold whole_step, boot_goes. cbn [x_boots]. rewrite HB. cbn [b_part r_place].
  unfold part_goes. cbn [r_api x_world w_apis r_place r_waiters]. rewrite H, H0. unfold put_boot. cbn [x_world x_boots x_until x_log b_auto b_deeds]. repeat eexists.
Qed.
Lemma wh_failed A T M N B U X x j b a g ds : wh A (Some a) T M N B U X x ->
  B j = mk_boot true (Some (mk_part b (Ready (DRaise TimeoutError)) [])) ds -> nth_error T j = Some (mk_coroutine true KRequests) ->
  nth_error A a = Some (mk_api_obj (Some g) true) ->
  let A' := set_nth a (mk_api_obj None true) A in
  wh A' (Some a) (set_nth j (mk_coroutine true KSleep) T) (sync N A' M) N (put_at j (idle true) B) (put_at j (N + 5000) U)
    (X ++ [XOver j true ds (Err TimeoutError) N]) (whole_step c (XGo j) x).
Proof.
  intros (G & L & Q & q & v & D & W & ->) HB HT HA.
  assert (K : nth_error (set_nth j (mk_coroutine true KSleep) T) j = Some (mk_coroutine true KSleep)) by (eapply set_nth_same, HT).
  unfold whole_step, boot_goes. cbn [x_boots]. rewrite HB. cbn [b_part r_place]. unfold attempt_over. cbn [x_boots]. rewrite HB. cbn [b_auto b_deeds x_world w_now].
  unfold happens, world_step, life_event_happens, life_step, go_on. cbn [x_world w_life y_tasks x_boots x_until x_log]. rewrite HT. cbn [k_stage].
  unfold startup_ended. cbn [log y_tasks]. rewrite HT. cbn [k_loop]. unfold loop_top, app_close. cbn [log y_cur]. unfold api_close. cbn [log y_apis]. rewrite HA. cbn [a_uart a_app].
  unfold gw_close. cbn [log y_gws]. destruct (nth_error G g) as [w|]; unfold at_stage, with_apis, with_gws, log; cbn [y_gws y_apis y_cur y_tasks y_log]; rewrite HT;
    cbn [k_loop]; unfold with_tasks, set_apis, set_life, xnote, put_boot;
    cbn [y_tasks y_apis y_gws y_cur y_log w_life w_apis w_sems w_sem w_version w_devs w_ops w_now w_log x_world x_boots x_until x_log];
    unfold falls_asleep, stage_of; cbn [x_world w_life y_tasks w_now x_boots x_until x_log]; rewrite K; cbn [option_map k_stage x_world x_boots x_until x_log w_now]; repeat eexists.
Qed.

(** ** a round *)
Definition is_open (o : api_obj) : bool := match a_uart o with Some _ => true | None => false end.
(** what was written to is closed *)
Definition wired (A : list api_obj) (M : list st) : Prop := forall k o m, nth_error A k = Some o -> nth_error M k = Some m -> s_wire m <> [] -> a_uart o = None.
Definition tidy (A : list api_obj) (M : list st) : Prop :=
  length M = length A /\ (forall k o m, nth_error A k = Some o -> nth_error M k = Some m -> s_open m = is_open o) /\ wired A M.
Lemma tidy_cut A C T M N B U X x : wh A C T M N B U X x -> tidy A M -> cut_short x.
Proof.
  intros (G & L & Q & q & v & D & W & ->) (Hl & H1 & H2) s Hs Hw. cbn [x_world w_apis] in Hs. apply In_nth_error in Hs as [k Hk].
  destruct (nth_error A k) as [o|] eqn:E; [|apply nth_error_None in E; assert (k < length M)%nat by (apply nth_error_Some; congruence); lia].
  rewrite (H1 _ _ _ E Hk). unfold is_open. rewrite (H2 _ _ _ E Hk Hw). reflexivity.
Qed.
Lemma tidy_tick A M ms : tidy A M -> tidy A (map (fun s => set_now (s_now s + ms) s) M).
Proof.
  intros (Hl & H1 & H2). split; [rewrite map_length; exact Hl|]. split; intros k o m Ho Hm; rewrite nth_error_map in Hm; destruct (nth_error M k) as [s|] eqn:E; try discriminate; injection Hm as <-.
  - apply (H1 k o s Ho E).
  - apply (H2 k o s Ho E).
Qed.
Lemma tidy_sync n A M : (length M <= length A)%nat -> wired A M -> tidy A (sync n A M).
Proof.
  intros Hl H. split; [apply sync_length|]. split; intros k o m Ho Hm.
  - destruct (nth_error M k) as [s|] eqn:E; [rewrite (sync_old _ _ _ _ _ _ Ho E) in Hm|rewrite (sync_new _ _ _ _ _ Ho E) in Hm]; injection Hm as <-; reflexivity.
  - destruct (nth_error M k) as [s|] eqn:E; [rewrite (sync_old _ _ _ _ _ _ Ho E) in Hm|rewrite (sync_new _ _ _ _ _ Ho E) in Hm]; injection Hm as <-.
    + apply (H k o s Ho E).
    + intro C. exfalso. apply C. reflexivity.
Qed.

(** loop [i] has just closed the link over which loop [j] has just pinged *)
Definition duel (x : whole) (i j : nat) : Prop := exists A C T M N B U X b s k ds,
  wh A C T M N B U X x /\ i <> j /\ tidy A M /\
  nth_error T i = Some (mk_coroutine true KSleep) /\ nth_error T j = Some (mk_coroutine true KRequests) /\ U i = N + 5000 /\ b_auto (B i) = true /\
  B j = mk_boot true (Some (mk_part b (Requesting 0 SYS "ping" caps [0] k) [])) ds /\ k (Err TimeoutError) = DRaise TimeoutError /\
  nth_error M b = Some s /\ pinged s (N + 6000) /\ s_now s = N.
Definition round (i j a b : nat) : list xevent :=
  [XWorld (VTick 5000); XWorld (VLife (VGo i (Ok tt))); XWorld (VTick 1000); XWorld (VLife (VGo i (Ok tt))); XGo i; XWorld (VTask a 0);
   XWorld (VTimeout b 0); XGo j; XGo j].
Lemma put_at_same {A} t (y : A) f : put_at t y f t = y.
Proof. unfold put_at. rewrite Nat.eqb_refl. reflexivity. Qed.
Lemma put_at_other {A} t u (y : A) f : u <> t -> put_at t y f u = f u.
Proof. intro H. unfold put_at. destruct (Nat.eqb_spec u t); [contradiction|reflexivity]. Qed.
Lemma new_fresh n g : fresh (flags (mk_api_obj (Some g) true) (set_now n (flags (mk_api_obj None false) (new_api (n - 1000))))).
Proof. repeat split. Qed.
Lemma pinged_same s : fresh s -> s_now (resume 0 (Machine.spawn ping_job s)) = s_now s.
Proof.
  destruct s as [nx ws fu ti nw wi op bu lk qu sm ts nt ve dv ap lg]. unfold fresh. cbn [s_tasks s_ntid s_lock s_queue s_open s_now]. intros (-> & -> & -> & -> & ->).
  vm_compute. reflexivity.
Qed.
Lemma timeout_wire s d : pinged s d -> s_wire (wait_timeout 0 s) = s_wire s.
Proof.
  intros (w & o & Ht & Hf). destruct s as [nx ws fu ti nw wi op bu lk qu sm ts nt ve dv ap lg]. cbn [s_tasks s_futs s_now] in *. subst ts.
  unfold wait_timeout, get. cbn [assoc s_tasks Z.eqb t_phase s_futs s_now t_job]. rewrite Hf. destruct (d <=? nw); [|reflexivity].
  unfold cancel_fut. cbn [s_futs]. rewrite Hf. reflexivity.
Qed.
Lemma flags_now o s : s_now (flags o s) = s_now s.
Proof. reflexivity. Qed.
Lemma set_now_now n s : s_now (set_now n s) = n.
Proof. reflexivity. Qed.
Lemma round_run i j a b x : whole_run c (round i j a b) x =
  whole_step c (XGo j) (whole_step c (XGo j) (whole_step c (XWorld (VTimeout b 0)) (whole_step c (XWorld (VTask a 0)) (whole_step c (XGo i)
    (whole_step c (XWorld (VLife (VGo i (Ok tt)))) (whole_step c (XWorld (VTick 1000)) (whole_step c (XWorld (VLife (VGo i (Ok tt)))) (whole_step c (XWorld (VTick 5000)) x)))))))).
Proof. unfold whole_run, round. cbn [fold_left]. reflexivity. Qed.
Lemma round_time i j a b x : cut_short x -> cut_short (whole_step c (XWorld (VLife (VGo i (Ok tt)))) (whole_step c (XWorld (VTick 5000)) x)) -> no_time_to_answer c (round i j a b) x.
Proof. intros H1 H2. unfold round. cbn [no_time_to_answer]. auto 20. Qed.
Lemma a_round x i j : duel x i j -> exists a b, duel (whole_run c (round i j a b) x) j i /\ no_time_to_answer c (round i j a b) x /\
  exists t1 ds t2, x_log (whole_run c (round i j a b) x) = x_log x ++ [XTries i t1; XOver j true ds (Err TimeoutError) t2].
Proof.
  intros (A & C & T & M & N & B & U & X & b & s & k & ds & Hx & Hij & Ht & Hi & Hj & HU & Hau & HB & Hk & Hs & Hp & Hn).
  exists (length A), b. set (a := length A). set (o0 := mk_api_obj None false).
  assert (Hb : (b < length A)%nat) by (destruct Ht as [<- _]; apply nth_error_Some; congruence).
  assert (Hab : a <> b) by (unfold a; lia).
  assert (Hl : length M = length A) by apply Ht.
  pose proof (wh_tick _ _ _ _ _ _ _ _ _ 5000 ltac:(lia) Hx) as H1. set (x1 := whole_step c (XWorld (VTick 5000)) x) in *.
  set (M1 := map (fun s => set_now (s_now s + 5000) s) M) in *.
  assert (T1 : tidy A M1) by apply tidy_tick, Ht.
  destruct (wh_open _ _ _ _ _ _ _ _ _ i H1 Hi ltac:(lia)) as [g H2]. fold a in H2. set (x2 := whole_step c _ x1) in *.
  set (A2 := A ++ [o0]) in *. set (M2 := sync (N + 5000) A2 M1) in *.
  assert (LA2 : length A2 = S (length A)) by (unfold A2; rewrite app_length; cbn [length]; lia).
  assert (LM1 : length M1 = length A) by (unfold M1; rewrite map_length; exact Hl).
  assert (W1 : wired A2 M1).
  { intros q o m Ho Hm. assert (q < length A)%nat by (rewrite <- LM1; apply nth_error_Some; congruence). unfold A2 in Ho. rewrite nth_error_app1 in Ho by lia.
    apply (proj2 (proj2 T1) q o m Ho Hm). }
  assert (T2 : tidy A2 M2) by (apply tidy_sync; [lia|exact W1]).
  pose proof (wh_tick _ _ _ _ _ _ _ _ _ 1000 ltac:(lia) H2) as H3. set (x3 := whole_step c (XWorld (VTick 1000)) x2) in *.
  set (M3 := map (fun s => set_now (s_now s + 1000) s) M2) in *.
  assert (T3 : tidy A2 M3) by apply tidy_tick, T2.
  assert (Hi3 : nth_error (set_nth i (mk_coroutine true (KSettle a g)) T) i = Some (mk_coroutine true (KSettle a g))) by (eapply set_nth_same, Hi).
  pose proof (wh_settled _ _ _ _ _ _ _ _ _ i a g H3 Hi3 ltac:(rewrite put_at_same; unfold SETTLE_MS; lia)) as H4. cbn zeta in H4. set (x4 := whole_step c _ x3) in *.
  set (A4 := set_nth a (mk_api_obj (Some g) true) A2) in *. set (N4 := N + 5000 + 1000) in *. set (M4 := sync N4 A4 M3) in *.
  (* the new link *)
  assert (Na2 : nth_error A2 a = Some o0) by (unfold A2; rewrite nth_error_app2 by (unfold a; lia); unfold a; rewrite Nat.sub_diag; reflexivity).
  assert (Nm1 : nth_error M1 a = None) by (apply nth_error_None; unfold a; lia).
  assert (Nm2 : nth_error M2 a = Some (flags o0 (new_api (N + 5000)))) by (apply sync_new; assumption).
  assert (Nm3 : nth_error M3 a = Some (set_now N4 (flags o0 (new_api (N4 - 1000))))).
  { unfold M3. rewrite nth_error_map, Nm2. unfold N4. replace (N + 5000 + 1000 - 1000) with (N + 5000) by lia. reflexivity. }
  assert (Na4 : nth_error A4 a = Some (mk_api_obj (Some g) true)) by (eapply set_nth_same, Na2).
  pose proof (new_fresh N4 g) as F. set (sa := flags (mk_api_obj (Some g) true) (set_now N4 (flags o0 (new_api (N4 - 1000))))) in *.
  assert (Nm4 : nth_error M4 a = Some sa) by (apply sync_old; assumption).
  assert (Fn : s_now sa = N4) by reflexivity.
  (* the other link *)
  destruct (nth_error A b) as [ob|] eqn:Eb; [|apply nth_error_None in Eb; lia].
  assert (Nb1 : nth_error M1 b = Some (set_now (s_now s + 5000) s)) by (unfold M1; rewrite nth_error_map, Hs; reflexivity).
  assert (Ab2 : nth_error A2 b = Some ob) by (unfold A2; rewrite nth_error_app1 by lia; exact Eb).
  assert (Ab4 : nth_error A4 b = Some ob) by (unfold A4; rewrite set_nth_other by exact Hab; exact Ab2).
  assert (Nb4 : exists sb, nth_error M4 b = Some sb /\ pinged sb (N + 6000) /\ s_now sb = N4).
  { eexists. split; [apply sync_old; [exact Ab4|]; unfold M3; rewrite nth_error_map; unfold M2; rewrite (sync_old _ _ _ _ _ _ Ab2 Nb1); reflexivity|].
    split; [apply pinged_flags, pinged_now, pinged_flags, pinged_now, Hp|]. rewrite flags_now, set_now_now, flags_now, set_now_now. unfold N4. lia. }
  destruct Nb4 as (sb & Nb4 & Pb & Nsb).
  (* the ping *)
  set (B4 := put_at i (mk_boot (b_auto (B i)) (Some (mk_part a (Ready part_ping) [])) (b_deeds (B i))) B) in *.
  pose proof (wh_asks _ _ _ _ _ _ _ _ _ i a sa (b_auto (B i)) (b_deeds (B i)) H4 (put_at_same _ _ _) Nm4 ltac:(apply F)) as H5. set (x5 := whole_step c (XGo i) x4) in *.
  pose proof (wh_task _ _ _ _ _ _ _ _ _ a 0 _ H5 ltac:(eapply set_nth_same, Nm4)) as H6. set (x6 := whole_step c (XWorld (VTask a 0)) x5) in *.
  set (sa' := resume 0 (Machine.spawn ping_job sa)) in *. set (M5 := set_nth a (Machine.spawn ping_job sa) M4) in *. set (M6 := set_nth a sa' M5) in *.
  assert (Nb6 : nth_error M6 b = Some sb) by (unfold M6, M5; rewrite !set_nth_other by exact Hab; exact Nb4).
  pose proof (wh_timeout _ _ _ _ _ _ _ _ _ b 0 _ H6 Nb6) as H7. set (x7 := whole_step c (XWorld (VTimeout b 0)) x6) in *.
  set (sb' := wait_timeout 0 sb) in *. set (M7 := set_nth b sb' M6) in *.
  assert (Nb7 : nth_error M7 b = Some sb') by (eapply set_nth_same, Nb6).
  set (B5 := put_at i _ B4) in H5, H6, H7.
  assert (HB5 : B5 j = mk_boot true (Some (mk_part b (Requesting 0 SYS "ping" caps [0] k) [])) ds) by (unfold B5, B4; rewrite !put_at_other by (intro E; apply Hij; symmetry; exact E); exact HB).
  pose proof (wh_back _ _ _ _ _ _ _ _ _ j b sb' true ds _ _ _ _ _ _ H7 HB5 Nb7 (pinged_over _ _ Pb ltac:(lia))) as H8. set (x8 := whole_step c (XGo j) x7) in *.
  rewrite Hk in H8. set (B8 := put_at j _ B5) in H8. set (T4 := set_nth i (mk_coroutine true KRequests) _) in *.
  assert (HT8 : nth_error T4 j = Some (mk_coroutine true KRequests)) by (unfold T4; rewrite !set_nth_other by exact Hij; exact Hj).
  pose proof (wh_failed _ _ _ _ _ _ _ _ j b a g _ H8 (put_at_same _ _ _) HT8 Na4) as H9. cbn zeta in H9. set (x9 := whole_step c (XGo j) x8) in *.
  set (A9 := set_nth a (mk_api_obj None true) A4) in *. set (M9 := sync N4 A9 M7) in *.
  assert (Na7 : nth_error M7 a = Some sa').
  { unfold M7. rewrite set_nth_other by (intro E; apply Hab; symmetry; exact E). unfold M6. eapply set_nth_same. unfold M5. eapply set_nth_same, Nm4. }
  assert (Na9 : nth_error A9 a = Some (mk_api_obj None true)) by (eapply set_nth_same, Na4).
  assert (T9 : tidy A9 M9).
  { apply tidy_sync; [unfold A9, M7, M6, M5, A4, M4; rewrite !set_nth_length, sync_length; unfold A4; rewrite set_nth_length; lia|].
    intros q o m Ho Hm Hw. destruct (Nat.eq_dec q a) as [->|Ea]; [rewrite Na9 in Ho; injection Ho as <-; reflexivity|].
    unfold A9, A4 in Ho. rewrite !set_nth_other in Ho by (intro E; apply Ea; symmetry; exact E).
    assert (K3 : forall m', nth_error M4 q = Some m' -> s_wire m' <> [] -> a_uart o = None).
    { intros m' Hm' Hw'. assert (W4 : wired A4 M3 -> tidy A4 M4) by (intro; apply tidy_sync; [unfold M3, M2, A4; rewrite map_length, sync_length, set_nth_length; lia|assumption]).
      assert (W3 : wired A4 M3).
      { intros r o' m2 Ho' Hm2 Hw2. destruct (Nat.eq_dec r a) as [->|Er].
        - rewrite Nm3 in Hm2. injection Hm2 as <-. exfalso. apply Hw2. reflexivity.
        - unfold A4 in Ho'. rewrite set_nth_other in Ho' by (intro E; apply Er; symmetry; exact E). apply (proj2 (proj2 T3) r o' m2 Ho' Hm2 Hw2). }
      apply (proj2 (proj2 (W4 W3)) q o m'); [|exact Hm'|exact Hw']. unfold A4. rewrite set_nth_other by (intro E; apply Ea; symmetry; exact E). exact Ho. }
    destruct (Nat.eq_dec q b) as [->|Eb'].
    - rewrite Nb7 in Hm. injection Hm as <-. unfold sb' in Hw. rewrite (timeout_wire _ _ Pb) in Hw. apply (K3 sb Nb4 Hw).
    - unfold M7, M6, M5 in Hm. rewrite !set_nth_other in Hm by (intro E; first [apply Ea; symmetry; exact E|apply Eb'; symmetry; exact E]). apply (K3 m Hm Hw). }
  split; [|split].
  - rewrite round_run. fold x1 x2 x3 x4 x5 x6 x7 x8 x9.
    eexists A9, _, _, M9, N4, _, _, _, a, (flags (mk_api_obj None true) sa'), ping_k, _. split; [exact H9|].
    split; [intro E; apply Hij; symmetry; exact E|]. split; [exact T9|]. split; [eapply set_nth_same, HT8|].
    split; [rewrite set_nth_other by (intro E; apply Hij; symmetry; exact E); unfold T4; eapply set_nth_same, Hi3|].
    split; [apply put_at_same|]. split; [rewrite put_at_same; reflexivity|].
    split; [rewrite put_at_other by exact Hij; unfold B8; rewrite put_at_other by exact Hij; unfold B5; rewrite put_at_same, Hau; reflexivity|].
    split; [reflexivity|]. split; [apply sync_old; assumption|].
    split; [apply pinged_flags; pose proof (fresh_pinged sa F) as P; rewrite Fn in P; exact P|]. rewrite flags_now. rewrite <- Fn. apply (pinged_same sa F).
  - apply round_time; [apply (tidy_cut _ _ _ _ _ _ _ _ _ Hx Ht)|apply (tidy_cut _ _ _ _ _ _ _ _ _ H2 T2)].
  - rewrite round_run. fold x1 x2 x3 x4 x5 x6 x7 x8 x9. destruct H9 as (? & ? & ? & ? & ? & ? & ? & E9). rewrite E9. destruct Hx as (? & ? & ? & ? & ? & ? & ? & ->).
    cbn [x_log]. eexists _, _, _. rewrite <- app_assoc. reflexivity.
Qed.
Lemma answer_app es es' x : no_time_to_answer c es x -> no_time_to_answer c es' (whole_run c es x) -> no_time_to_answer c (es ++ es') x.
Proof. revert x; induction es as [|e es IH]; intros x H1 H2; [exact H2|]. destruct H1 as [H1 H3]. split; [exact H1|]. apply IH; assumption. Qed.
Lemma rounds n : forall x i j, duel x i j -> exists es, no_time_to_answer c es x /\ Forall all_opens es /\ filter calls_startup es = [] /\ filter loses es = [] /\
  filter succeeded (x_log (whole_run c es x)) = filter succeeded (x_log x) /\ (length (filter failed (x_log x)) + n = length (filter failed (x_log (whole_run c es x))))%nat.
Proof.
  induction n as [|n IH]; intros x i j H.
  - exists []. repeat split; auto.
  - destruct (a_round x i j H) as (a & b & H1 & H2 & t1 & ds & t2 & H3). destruct (IH _ _ _ H1) as (es & E1 & E2 & E3 & E4 & E5 & E6).
    exists (round i j a b ++ es). assert (R : whole_run c (round i j a b ++ es) x = whole_run c es (whole_run c (round i j a b) x)) by apply fold_left_app.
    split; [apply answer_app; assumption|]. split; [apply Forall_app; split; [repeat constructor|exact E2]|]. rewrite !filter_app, E3, E4, R, E5.
    split; [reflexivity|]. split; [reflexivity|]. rewrite H3 in *. rewrite filter_app in *. cbn [filter succeeded failed app] in *. rewrite app_nil_r. split; [reflexivity|].
    rewrite <- E6, app_length. cbn [length]. lia.
Qed.
(** how it begins *)
Definition prelude : list xevent :=
  [XStartup true (Ok tt); XWorld (VTick 1000); XWorld (VLife (VGo 0 (Ok tt))); XGo 0; XWorld (VTask 0 0); XWorld (VLife (VLost 0)); XWorld (VLife (VGo 1 (Ok tt)));
   XWorld (VTick 5000); XWorld (VLife (VGo 1 (Ok tt))); XWorld (VTick 1000); XWorld (VLife (VGo 1 (Ok tt))); XWorld (VTimeout 0 0); XGo 0; XGo 0;
   XGo 1; XWorld (VTask 1 0); XWorld (VLife (VLost 1)); XWorld (VLife (VGo 2 (Ok tt)))].
Lemma prelude_duel devs : duel (whole_run c prelude (whole_init devs)) 2 1.
Proof.
  eexists _, _, _, _, _, _, _, _, 1%nat, _, ping_k, []. split; [unfold wh; do 7 eexists; vm_compute; reflexivity|].
  split; [discriminate|]. split; [split; [reflexivity|]|].
  - split; intros k o m Ho Hm; (do 3 (destruct k as [|k]; [try discriminate Ho; injection Ho as <-; injection Hm as <-; try reflexivity|])); try discriminate Ho. all: try (intro K; exfalso; apply K; reflexivity).
  - split; [reflexivity|]. split; [reflexivity|]. split; [reflexivity|]. split; [reflexivity|]. split; [reflexivity|]. split; [reflexivity|]. split; [reflexivity|].
    split; [eexists _, _; split; [reflexivity|]; reflexivity|reflexivity].
Qed.
Lemma prelude_time devs : no_time_to_answer c prelude (whole_init devs).
Proof.
  unfold prelude. cbn [no_time_to_answer]. repeat split;
    match goal with |- cut_short ?X =>
      let l := eval vm_compute in (w_apis (x_world X)) in assert (E : w_apis (x_world X) = l) by (vm_compute; reflexivity); unfold cut_short; rewrite E; clear E
    end; intros s Hs Hw; repeat (destruct Hs as [<-|Hs]; [first [reflexivity|exfalso; apply Hw; reflexivity]|]); contradiction.
Qed.
Lemma duel_goes_on devs n : exists es, length (filter calls_startup es) = 1%nat /\ length (filter loses es) = 2%nat /\ Forall all_opens es /\ no_time_to_answer c es (whole_init devs) /\
  let x := whole_run c es (whole_init devs) in filter succeeded (x_log x) = [] /\ (n <= length (filter failed (x_log x)))%nat.
Proof.
  destruct (rounds n _ _ _ (prelude_duel devs)) as (es & E1 & E2 & E3 & E4 & E5 & E6). exists (prelude ++ es). rewrite !filter_app, E3, E4.
  split; [reflexivity|]. split; [reflexivity|]. split; [apply Forall_app; split; [repeat constructor|exact E2]|]. split; [apply answer_app; [apply prelude_time|exact E1]|].
  cbn zeta. replace (whole_run c (prelude ++ es) (whole_init devs)) with (whole_run c es (whole_run c prelude (whole_init devs))) by (symmetry; apply fold_left_app).
  split; [rewrite E5; vm_compute; reflexivity|lia].
Qed.
End Steps.
