(** * PropsLife: losing, reopening, choosing and probing the port (C58-C62, C77-C80) *)
From Verif Require Import Base Types Life SpecLife LifeProofs LifeProofs2 LifeProofs3 LifeProofs4.

Definition ok : result unit := Ok tt.
Definition bad : result unit := Err (CommandError 1).
(** the user starts; the port is handed over; the start-up completes *)
Definition lit_up : list life_event := [VStartup ok; VGo 0 ok; VGo 0 ok].

(** ** C58 *)
(** the claim: a port that goes away without having been closed starts a reconnect *)
Definition claim58 (es : list life_event) : Prop := forall l1 g l2,
  y_log (life_run es life_init) = l1 ++ LLost g :: l2 ->
  ((exists t l3, l2 = LReconnect g t :: l3) <-> ~ In (LClosed g) l1).
(** a port lost in the first second of a start-up *)
Theorem C58_loss_refuted : exists es, ~ claim58 es.
Proof.
  exists [VStartup ok; VLost 0]. intro C.
  specialize (C [LAttempt 0] 0%nat [LError AttributeError] eq_refl). destruct C as (_ & C).
  destruct C as (t & l3 & E); [intros [H|[]]; discriminate H|discriminate E].
Qed.
Print Assumptions C58_loss_refuted.
Theorem C58_loss_partial : forall es l1 g l2, y_log (life_run es life_init) = l1 ++ LLost g :: l2 -> In (LHanded g) l1 ->
  ((exists t l3, l2 = LReconnect g t :: l3) <-> ~ In (LClosed g) l1).
Proof.
  intros es l1 g l2 E H. destruct (lawful_rule _ (b_law _ (book_run es)) l1 g l2 E) as (_ & R). rewrite R. tauto.
Qed.
Print Assumptions C58_loss_partial.
(** this half holds always *)
Theorem C58_closed_partial : forall es l1 g t l2, y_log (life_run es life_init) = l1 ++ LReconnect g t :: l2 -> ~ In (LClosed g) l1.
Proof.
  intros es l1 g t l2 E. destruct (lawful_origin _ (b_law _ (book_run es)) _ _ _ _ E) as (l0 & ->).
  destruct (lawful_rule _ (b_law _ (book_run es)) l0 g (LReconnect g t :: l2)) as (_ & R); [rewrite E, <- app_assoc; reflexivity|].
  destruct (proj1 R) as (_ & N); [eauto|]. rewrite in_app_iff. cbn [In]. intuition discriminate.
Qed.
Print Assumptions C58_closed_partial.
Example C58_inhabited :
  y_log (life_run (lit_up ++ [VLost 0]) life_init) = [LAttempt 0; LHanded 0; LResult 0 ok; LLost 0; LReconnect 0 1] /\
  y_log (life_run (lit_up ++ [VShutdown; VLost 0]) life_init) = [LAttempt 0; LHanded 0; LResult 0 ok; LClosed 0; LLost 0].
Proof. split; reflexivity. Qed.

(** ** C77 *)
Theorem C77_reconnect_exactly : forall es l1 g l2, y_log (life_run es life_init) = l1 ++ LLost g :: l2 ->
  ((exists t l3, l2 = LReconnect g t :: l3) <-> In (LHanded g) l1 /\ ~ In (LClosed g) l1).
Proof. intros es l1 g l2 E. exact (proj2 (lawful_rule _ (b_law _ (book_run es)) l1 g l2 E)). Qed.
Print Assumptions C77_reconnect_exactly.
Theorem C77_only_by_loss : forall es l1 g t l2, y_log (life_run es life_init) = l1 ++ LReconnect g t :: l2 ->
  (exists l0, l1 = l0 ++ [LLost g]) /\ exists k, nth_error (y_tasks (life_run es life_init)) t = Some k /\ k_loop k = true.
Proof.
  intros es l1 g t l2 E. split; [exact (lawful_origin _ (b_law _ (book_run es)) _ _ _ _ E)|].
  apply (b_spawn _ (book_run es) g). rewrite E. apply in_app_iff. right. left. reflexivity.
Qed.
Print Assumptions C77_only_by_loss.
Theorem C77_once_per_port : forall es g t u,
  In (LReconnect g t) (y_log (life_run es life_init)) -> In (LReconnect g u) (y_log (life_run es life_init)) -> t = u.
Proof. exact once_per_port. Qed.
Print Assumptions C77_once_per_port.
Example C77_inhabited :
  y_log (life_run (lit_up ++ [VLost 0; VLost 0]) life_init) = [LAttempt 0; LHanded 0; LResult 0 ok] ++ LLost 0 :: [LReconnect 0 1].
Proof. reflexivity. Qed.

(** ** C59 *)
(** the port is lost while a reconnect's start-up makes its requests *)
Definition lit_twice : list life_event :=
  lit_up ++ [VLost 0; VGo 1 ok; VGo 1 ok; VGo 1 ok; VLost 1; VGo 2 ok; VGo 1 bad; VGo 1 ok; VGo 2 ok; VGo 1 ok; VGo 2 ok; VGo 1 ok; VGo 2 ok].
Theorem C59_one_loop_refuted : exists es, (forall e, In e es -> is_cancel e = false) /\ live_loops (life_run es life_init) = 2%nat.
Proof. exists (firstn 8 lit_twice). split; [|reflexivity]. intros e H. repeat (destruct H as [<-|H]; [reflexivity|]). destruct H. Qed.
Print Assumptions C59_one_loop_refuted.
Theorem C59_one_port_refuted : exists es, (forall e, In e es -> is_cancel e = false) /\ open_ports (life_run es life_init) = 2%nat /\ live (life_run es life_init) = 0%nat.
Proof. exists lit_twice. split; [|split; reflexivity]. intros e H. repeat (destruct H as [<-|H]; [reflexivity|]). destruct H. Qed.
Print Assumptions C59_one_port_refuted.
Theorem C59_no_pile_up_partial : forall es, calm es ->
  (live_loops (life_run es life_init) <= 1)%nat /\ (open_ports (life_run es life_init) <= 1)%nat.
Proof. intros es C. destruct (calm_one es C) as (A & _ & B). auto. Qed.
Print Assumptions C59_no_pile_up_partial.
(** a calm history with a loss, a failed and a successful attempt *)
Definition lit_calm : list life_event := lit_up ++ [VLost 0; VGo 1 ok; VGo 1 bad; VGo 1 ok; VGo 1 ok; VGo 1 bad; VGo 1 ok; VGo 1 ok; VGo 1 ok].
Lemma lit_calm_is : calm lit_calm.
Proof.
  split; [|split].
  - intros e r E x H. unfold lit_calm, lit_up in E. cbn [app] in E. injection E as <- <-. cbn [In] in H. repeat (destruct H as [<-|H]; [reflexivity|]). destruct H.
  - intros e H. unfold lit_calm, lit_up in H. cbn [app In] in H. repeat (destruct H as [<-|H]; [reflexivity|]). destruct H.
  - intros es1 g es2 E. unfold lit_calm, lit_up in E. cbn [app] in E.
    repeat match type of E with
    | _ :: _ = ?l ++ _ => destruct l as [|? l]; cbn [app] in E; [try discriminate E|injection E as ? E; subst]
    | [] = ?l ++ _ => destruct l; discriminate E
    end.
    intros (k & [<-|[]] & K). discriminate K.
Qed.
Example C59_inhabited : calm lit_calm /\ live_loops (life_run (firstn 8 lit_calm) life_init) = 1%nat /\ open_ports (life_run lit_calm life_init) = 1%nat.
Proof. split; [exact lit_calm_is|split; reflexivity]. Qed.

(** ** C78 *)
Theorem C78_calm : forall es, calm es ->
  (live (life_run es life_init) <= 1)%nat /\ (live_loops (life_run es life_init) <= 1)%nat /\ (open_ports (life_run es life_init) <= 1)%nat.
Proof. intros es C. destruct (calm_one es C) as (A & B & D). auto. Qed.
Print Assumptions C78_calm.
Theorem C78_nothing_open_before_try : forall es t k, calm es -> nth_error (y_tasks (life_run es life_init)) t = Some k -> k_stage k = KSleep ->
  open_ports (life_run es life_init) = 0%nat.
Proof. exact calm_waiting. Qed.
Print Assumptions C78_nothing_open_before_try.
(** a second start opens a second port; a cancelled attempt leaves a port open that no API of the application owns;
    a loss during the requests: C59 *)
Theorem C78_start_twice : open_ports (life_run (lit_up ++ [VStartup ok]) life_init) = 2%nat.
Proof. reflexivity. Qed.
Print Assumptions C78_start_twice.
Theorem C78_cancelled_attempt : open_ports (life_run (lit_up ++ [VLost 0; VGo 1 ok; VGo 1 ok; VGo 1 (Err CancelledError)]) life_init) = 1%nat /\
  live (life_run (lit_up ++ [VLost 0; VGo 1 ok; VGo 1 ok; VGo 1 (Err CancelledError)]) life_init) = 0%nat /\
  ~ (forall g, hot (life_run (lit_up ++ [VLost 0; VGo 1 ok; VGo 1 ok; VGo 1 (Err CancelledError)]) life_init) g ->
       cur_port (life_run (lit_up ++ [VLost 0; VGo 1 ok; VGo 1 ok; VGo 1 (Err CancelledError)]) life_init) g).
Proof.
  split; [reflexivity|]. split; [reflexivity|]. intro H. specialize (H 1%nat). destruct H as (a & x & A & X & U).
  - eexists. split; [reflexivity|split; reflexivity].
  - vm_compute in A. injection A as <-. vm_compute in X. injection X as <-. discriminate U.
Qed.
Print Assumptions C78_cancelled_attempt.
Example C78_inhabited : calm lit_calm /\ exists k, nth_error (y_tasks (life_run (firstn 5 lit_calm) life_init)) 1 = Some k /\ k_stage k = KSleep.
Proof. split; [exact lit_calm_is|]. eexists. split; reflexivity. Qed.

(** ** C60 *)
Theorem C60_trace : forall es t k, nth_error (y_tasks (life_run es life_init)) t = Some k -> k_loop k = true ->
  loop_trace t (filter (about t) (y_log (life_run es life_init)))
    (match k_stage k with KBegin => Created | KSleep => Waiting | KSettle _ _ | KRequests => Trying | KEnd _ => Over end).
Proof. intros es t k E L. exact (proj2 (trails_run es) t k E L). Qed.
Print Assumptions C60_trace.
Theorem C60_closes_before_each_attempt : forall es t k l1 l2, nth_error (y_tasks (life_run es life_init)) t = Some k -> k_loop k = true ->
  filter (about t) (y_log (life_run es life_init)) = l1 ++ LAttempt t :: l2 -> exists l0, l1 = l0 ++ [LClose t].
Proof. intros es t k l1 l2 E L. apply (trace_try t _ _ (proj2 (trails_run es) t k E L)). Qed.
Print Assumptions C60_closes_before_each_attempt.
Theorem C60_close_closes : forall es e t m,
  y_log (life_run (es ++ [e]) life_init) = y_log (life_run es life_init) ++ m ++ [LClose t] -> port_closed (life_run (es ++ [e]) life_init).
Proof. intros es e t m. rewrite life_run_snoc. apply step_closed; [apply book_run|apply closed_run]. Qed.
Print Assumptions C60_close_closes.
Theorem C60_retries_after_failure : forall es t k e l1 l2, nth_error (y_tasks (life_run es life_init)) t = Some k -> k_loop k = true ->
  e <> CancelledError -> filter (about t) (y_log (life_run es life_init)) = l1 ++ LResult t (Err e) :: l2 -> exists l3, l2 = LClose t :: l3.
Proof. intros es t k e l1 l2 E L N. exact (trace_retry t _ _ e (proj2 (trails_run es) t k E L) N l1 l2). Qed.
Print Assumptions C60_retries_after_failure.
Theorem C60_waiting_tries : forall s t k r, nth_error (y_tasks s) t = Some k -> k_stage k = KSleep -> r <> Err CancelledError ->
  exists l, y_log (life_step (VGo t r) s) = y_log s ++ LAttempt t :: l.
Proof. exact loop_tries. Qed.
Print Assumptions C60_waiting_tries.
Theorem C60_ends_on_success : forall es t k, nth_error (y_tasks (life_run es life_init)) t = Some k -> k_loop k = true ->
  ~ In (VGo t (Err CancelledError)) es ->
  ((exists r, k_stage k = KEnd r) <-> In (LResult t (Ok tt)) (y_log (life_run es life_init))).
Proof. exact loop_ends. Qed.
Print Assumptions C60_ends_on_success.
Example C60_inhabited :
  filter (about 1) (y_log (life_run lit_calm life_init)) =
    [LClose 1; LAttempt 1; LResult 1 bad; LClose 1; LAttempt 1; LResult 1 bad; LClose 1; LAttempt 1; LResult 1 ok] /\
  nth_error (y_tasks (life_run lit_calm life_init)) 1 = Some (mk_coroutine true (KEnd ok)).
Proof. split; reflexivity. Qed.

(** ** C61 *)
Theorem C61_detects_unique : forall attached d, detect_port attached = Ok d <-> only_adapter d attached.
Proof. exact detect_iff. Qed.
Print Assumptions C61_detects_unique.
Theorem C61_raises_otherwise : forall attached, (forall d, ~ only_adapter d attached) -> detect_port attached = Err SerialException.
Proof. exact detect_raises. Qed.
Print Assumptions C61_raises_otherwise.
Theorem C61_auto : forall c attached a, dc_path c = "auto" ->
  (connect_args c attached = Ok a <->
   exists d, only_adapter d attached /\ sa_url a = p_device d /\ sa_baudrate a = dc_baudrate c
             /\ sa_xonxoff a = fst (flow_flags (dc_flow c)) /\ sa_rtscts a = snd (flow_flags (dc_flow c))).
Proof. exact connect_auto. Qed.
Print Assumptions C61_auto.
Theorem C61_explicit : forall c attached, dc_path c <> "auto" ->
  exists a, connect_args c attached = Ok a /\ sa_url a = dc_path c /\ sa_baudrate a = dc_baudrate c.
Proof. intros c l P. eexists. split; [apply connect_explicit, P|split; reflexivity]. Qed.
Print Assumptions C61_explicit.
Theorem C61_flow : forall c attached a, connect_args c attached = Ok a ->
  ~ (sa_xonxoff a = true /\ sa_rtscts a = true) /\
  (sa_rtscts a = true <-> dc_flow c = Some "hardware"%string) /\ (sa_xonxoff a = true <-> dc_flow c = Some "software"%string).
Proof.
  intros c l a E. assert (F : sa_xonxoff a = fst (flow_flags (dc_flow c)) /\ sa_rtscts a = snd (flow_flags (dc_flow c))).
  { destruct (String.eqb_spec (dc_path c) "auto") as [P|P].
    - apply connect_auto in E; [|exact P]. destruct E as (d & _ & _ & _ & H). exact H.
    - rewrite connect_explicit in E by exact P. injection E as <-. auto. }
  destruct F as (-> & ->). split; [apply flow_exclusive|]. unfold flow_flags. destruct (dc_flow c) as [f|]; [|cbn [fst snd]; intuition discriminate].
  destruct (String.eqb_spec f "hardware") as [->|H]; [cbn [fst snd]; intuition (discriminate || reflexivity)|].
  destruct (String.eqb_spec f "software") as [->|S]; cbn [fst snd]; intuition (congruence || reflexivity).
Qed.
Print Assumptions C61_flow.
Definition lit_zzh := mk_port "/dev/ttyUSB0" "USB Serial" "USB VID:PID=1A86:7523 LOCATION=1-1.2".
Definition lit_other := mk_port "/dev/ttyS0" "ttyS0" "PNP0501".
Example C61_inhabited :
  only_adapter lit_zzh [lit_other; lit_zzh] /\ (forall d, ~ only_adapter d [lit_zzh; lit_zzh]) /\ (forall d, ~ only_adapter d [lit_other]) /\
  connect_args (mk_device_config "auto" 115200 (Some "hardware"%string)) [lit_other; lit_zzh] = Ok (mk_serial_args "/dev/ttyUSB0" 115200 false true).
Proof.
  split; [apply detect_iff; reflexivity|]. split; [intros d H; apply detect_iff in H; discriminate H|].
  split; [intros d H; apply detect_iff in H; discriminate H|reflexivity].
Qed.

(** ** C62 *)
Theorem C62_closes_refuted : exists w, sane_world w /\ snd (probe w) = true.
Proof. exists (mk_probe_world 1200 ok None). split; [split; [cbn; lia|discriminate]|reflexivity]. Qed.
Print Assumptions C62_closes_refuted.
Theorem C62_result_partial : forall w, sane_world w ->
  (fst (probe w) = Ok true <-> answered_in_time w) /\
  (~ answered_in_time w -> (forall e, world_error w e -> caught e) -> fst (probe w) = Ok false) /\
  (forall e, fst (probe w) = Err e -> world_error w e /\ ~ caught e).
Proof.
  intros w S. pose proof (probe_cases w S) as C. pose proof (probe_true w S) as T. split; [exact T|].
  destruct (fst (probe w)) as [[]|e] eqn:E.
  - split; [intro N; contradiction|discriminate].
  - split; [reflexivity|discriminate].
  - split; [intros _ K; destruct C as (C1 & C2); destruct (C2 (K e C1))|]. intros e' H. injection H as <-. exact C.
Qed.
Print Assumptions C62_result_partial.
Theorem C62_closes_partial : forall w, pw_open_ms w < 1000 -> snd (probe w) = false.
Proof. intros w H. destruct (snd (probe w)) eqn:E; [|reflexivity]. apply probe_left_open in E. lia. Qed.
Print Assumptions C62_closes_partial.
Example C62_inhabited :
  answered_in_time (mk_probe_world 20 ok (Some (100, ok))) /\ fst (probe (mk_probe_world 20 ok (Some (100, ok)))) = Ok true /\
  fst (probe (mk_probe_world 20 ok None)) = Ok false /\ fst (probe (mk_probe_world 20 (Err SerialException) None)) = Ok false /\
  fst (probe (mk_probe_world 20 ok (Some (100, Err (CommandError 2))))) = Ok false /\ fst (probe (mk_probe_world 20 (Err ValueError) None)) = Err ValueError.
Proof. split; [split; [reflexivity|]; exists 100; split; [reflexivity|cbn; lia]|]. repeat split; reflexivity. Qed.

(** ** C79 *)
Theorem C79_left_open : forall w, snd (probe w) = true <-> pw_open w = Ok tt /\ 1000 <= pw_open_ms w.
Proof. exact probe_left_open. Qed.
Print Assumptions C79_left_open.
Example C79_inhabited : snd (probe (mk_probe_world 1000 ok (Some (1, ok)))) = true /\ snd (probe (mk_probe_world 999 ok None)) = false.
Proof. split; reflexivity. Qed.

(** ** C80 *)
Theorem C80_shutdown_final : forall es fs, calm es -> live (life_run es life_init) = 0%nat -> (forall e, In e fs -> is_startup e = false) ->
  let s := life_run (es ++ VShutdown :: fs) life_init in
  open_ports s = 0%nat /\ live s = 0%nat /\ y_tasks s = y_tasks (life_run es life_init).
Proof. exact shutdown_final. Qed.
Print Assumptions C80_shutdown_final.
(** a shutdown while a reconnect loop runs does not stop it *)
Theorem C80_loop_survives : forall es t k, nth_error (y_tasks (life_run es life_init)) t = Some k ->
  nth_error (y_tasks (life_run (es ++ [VShutdown]) life_init)) t = Some k.
Proof.
  intros es t k E. rewrite life_run_snoc. cbn [life_step]. destruct (y_cur _); [rewrite tasks_close|]; exact E.
Qed.
Print Assumptions C80_loop_survives.
Theorem C80_reopens : exists es fs, calm es /\ (forall e, In e fs -> is_startup e = false) /\ open_ports (life_run (es ++ VShutdown :: fs) life_init) = 1%nat.
Proof.
  exists (firstn 5 lit_calm), [VGo 1 ok; VGo 1 ok; VGo 1 ok].
  split; [apply (calm_prefix _ (skipn 5 lit_calm)); rewrite firstn_skipn; exact lit_calm_is|]. split; [|reflexivity].
  intros e H. repeat (destruct H as [<-|H]; [reflexivity|]). destruct H.
Qed.
Print Assumptions C80_reopens.
Example C80_inhabited : calm lit_calm /\ live (life_run lit_calm life_init) = 0%nat /\ open_ports (life_run lit_calm life_init) = 1%nat /\
  open_ports (life_run (lit_calm ++ [VShutdown; VLost 1]) life_init) = 0%nat.
Proof. split; [exact lit_calm_is|]. repeat split; reflexivity. Qed.
