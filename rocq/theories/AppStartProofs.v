(** * AppStartProofs: start-up of the application *)
From Coq Require Import ZifyBool ZifyNat.
From Verif Require Import Base Types Uart Buffalo CmdTable Zpi Api App SpecWire SpecCodec SpecMachine Nv StartZnp SpecStart StartExec
  AppStart SpecAppStart StartProofs StartProofs2 StartProofs3 StartProofs4 StartProofs5 StartProofs6 StartProofs7 StartProofs8 StartProofs9 StartSend CodecProofs CodecProofs2 ApiProofs AppProofs.

Lemma request_inv sub cmd d x tr f : runs (request sub cmd d x) tr f ->
  tr = [] /\ f = Interrupted \/ tr = [ARequest sub cmd d x None] /\ f = Interrupted \/
  exists r, tr = [ARequest sub cmd d x (Some r)] /\ answer_possible x r /\
    (f = Interrupted \/ match r with Ok m => f = Returned m | Err e => f = Raised e end).
Proof.
  unfold request. intro H. inversion H; subst; [auto|auto|]. right; right. exists r.
  match goal with R : runs _ _ _ |- _ => apply runs_of_result in R as [-> R] end. auto.
Qed.

Definition ping_act := ARequest SYS "ping" [("capabilities", VInt 1)] [0].
Definition version_act := ARequest SYS "version" [] [0].
Definition info_act := ARequest UTIL "getDeviceInfo" [] [0].
(** the part after the product is known *)
Definition form (auto : bool) (product : Z) (c : nwk_config) : prog (option start_result) :=
  if auto then let! r := form_network product c in DRet (Some r) else DRet None.
Definition finish (devs : devices) (product : Z) (status : option start_result) : prog ready :=
  let! x := coordinator devs in
  let '(ieee, nwk, devs') := x in
  DRet (mk_ready product (concurrency product) ieee nwk devs' status).
Lemma app_eq auto c devs : app_startup auto c devs =
  (ping;; let! version := ask_version in let! p := field version "product" in let! product := check_product p in
   let! status := form auto product c in finish devs product status).
Proof. reflexivity. Qed.

Definition ping_error (e : exn) : exn := match e with CommandError _ => GenericException | _ => e end.
Lemma ping_inv tr f : runs ping tr f ->
  tr = [] /\ f = Interrupted \/ tr = [ping_act None] /\ f = Interrupted \/
  exists r, tr = [ping_act (Some r)] /\ answer_possible [0] r /\
    (f = Interrupted \/ match r with Ok m => f = Returned m | Err e => f = Raised (ping_error e) end).
Proof.
  unfold ping. intro H. apply runs_attempt in H as [(a & -> & H)|[[-> H]|(t1 & t2 & e & -> & H1 & H2)]].
  - apply request_inv in H as [[-> H]|[[-> H]|(r & -> & P & [H|H])]]; try discriminate H. right; right. exists r. split; [reflexivity|].
    split; [exact P|]. right. destruct r; [exact H|discriminate H].
  - apply request_inv in H as [[-> _]|[[-> _]|(r & -> & P & [_|H])]]; auto; right; right; exists r; auto.
  - apply request_inv in H1 as [[-> H]|[[-> H]|(r & -> & P & [H|H])]]; try discriminate H. right; right. exists r.
    destruct r as [m|e']; [discriminate H|]. injection H as ->. unfold ping_error. cbn [app]. destruct e'; first
      [destruct H2 as [-> ->]; auto|apply runs_raise_inv in H2 as [-> [->| ->]]; auto].
Qed.

Inductive course auto c devs : list act -> fin ready -> Prop :=
| co_nothing : course auto c devs [] Interrupted
| co_ping_lost : course auto c devs [ping_act None] Interrupted
| co_ping_refused e f : f = Interrupted \/ f = Raised (ping_error e) -> e <> AssertionError -> course auto c devs [ping_act (Some (Err e))] f
| co_pinged m : course auto c devs [ping_act (Some (Ok m))] Interrupted
| co_version_lost m : course auto c devs [ping_act (Some (Ok m)); version_act None] Interrupted
| co_version_refused m e f : f = Interrupted \/ f = Raised e -> course auto c devs [ping_act (Some (Ok m)); version_act (Some (Err e))] f
| co_version_unknown m n f : (forall v, dict_get (z_payload n) "product" <> Some (VInt (version_of v))) ->
    (f = Interrupted \/ match dict_get (z_payload n) "product" with Some (VInt _) => f = Raised ValueError | Some _ => f = Raised Unmodelled | None => f = Raised KeyError end) ->
    course auto c devs [ping_act (Some (Ok m)); version_act (Some (Ok n))] f
| co_known m n v t f : dict_get (z_payload n) "product" = Some (VInt (version_of v)) ->
    runs (let! status := form auto (version_of v) c in finish devs (version_of v) status) t f ->
    course auto c devs (ping_act (Some (Ok m)) :: version_act (Some (Ok n)) :: t) f.

Lemma known_dec z : (exists v, z = version_of v) \/ (forall v, z <> version_of v) /\ (z =? zStack12) || (z =? zStack3x0) || (z =? zStack30x) = false.
Proof.
  destruct ((z =? zStack12) || (z =? zStack3x0) || (z =? zStack30x)) eqn:E; unfold zStack12, zStack3x0, zStack30x in *.
  - left. assert (z = 0 \/ z = 1 \/ z = 2) as [->|[->| ->]] by lia; [exists Stack12|exists Stack3x0|exists Stack30x]; reflexivity.
  - right. split; [|reflexivity]. intros [] ->; discriminate E.
Qed.
Lemma check_known v : check_product (VInt (version_of v)) = DRet (version_of v).
Proof. destruct v; reflexivity. Qed.

Lemma app_course auto c devs tr f : runs (app_startup auto c devs) tr f -> course auto c devs tr f.
Proof.
  rewrite app_eq. intro H. apply runs_seq in H as [(t1 & t2 & a & -> & H1 & H2)|[[H ->]|(e & H & ->)]].
  2: apply ping_inv in H as [[-> _]|[[-> _]|(r & -> & P & [_|H])]]; try constructor; [destruct r; constructor; auto|destruct r; discriminate H].
  2: { apply ping_inv in H as [[-> H]|[[-> H]|(r & -> & P & [H|H])]]; try discriminate H. destruct r; [discriminate H|]. injection H as ->.
       apply co_ping_refused; [auto|exact P]. }
  apply ping_inv in H1 as [[-> H]|[[-> H]|(r & -> & P & [H|H])]]; try discriminate H. destruct r as [m|]; [|discriminate H]. clear H P a.
  apply runs_seq in H2 as [(t1 & t3 & n & -> & H1 & H2)|[[H ->]|(e & H & ->)]].
  2: apply request_inv in H as [[-> _]|[[-> _]|(r & -> & P & [_|H])]]; cbn [app]; try constructor.
  2: { destruct r as [n|e]; [|constructor; auto]. destruct (dict_get (z_payload n) "product") as [[z| | | |]|] eqn:E.
       1: destruct (known_dec z) as [[v ->]|[N _]].
       1: apply (co_known _ _ _ m n v); [exact E|constructor].
       all: apply co_version_unknown; [|auto]; intros v K; rewrite E in K; try discriminate K; injection K as ->; eapply N; reflexivity. }
  2: destruct r; discriminate H.
  2: { apply request_inv in H as [[-> H]|[[-> H]|(r & -> & P & [H|H])]]; try discriminate H. destruct r; [discriminate H|]. injection H as ->. constructor; auto. }
  apply request_inv in H1 as [[-> H]|[[-> H]|(r & -> & P & [H|H])]]; try discriminate H. destruct r as [n'|]; [|discriminate H]. injection H as <-.
  cbn [app]. change (course auto c devs (ping_act (Some (Ok m)) :: version_act (Some (Ok n)) :: t3) f).
  destruct (dict_get (z_payload n) "product") as [w|] eqn:E.
  - unfold field in H2. rewrite E in H2. cbn [seq] in H2. destruct w as [z| | | |]; cbn [check_product seq] in H2.
    1: { destruct (known_dec z) as [[v ->]|[N Ez]].
      - change (runs (let! product := check_product (VInt (version_of v)) in let! status := form auto product c in finish devs product status) t3 f) in H2.
        rewrite check_known in H2. apply (co_known _ _ _ m n v); [exact E|exact H2].
      - rewrite Ez in H2. cbn [seq] in H2. apply runs_raise_inv in H2 as [-> H2]. apply co_version_unknown.
        + intros v K. rewrite E in K. injection K as ->. eapply N. reflexivity.
        + rewrite E. exact H2. }
    all: apply runs_raise_inv in H2 as [-> H2]; apply co_version_unknown; [intros v K; rewrite E in K; discriminate K|rewrite E; exact H2].
  - unfold field in H2. rewrite E in H2. cbn [seq] in H2. apply runs_raise_inv in H2 as [-> H2]. apply co_version_unknown.
    + intros v K. rewrite E in K. discriminate K.
    + rewrite E. exact H2.
Qed.

(** ** the part after the product is known *)
Lemma finish_inv devs p st tr f : runs (finish devs p st) tr f ->
  (tr = [] \/ exists r, tr = [info_act r]) /\
  forall rd, f = Returned rd -> exists m, tr = [info_act (Some (Ok m))] /\
    dict_get (z_payload m) "ieeeaddr" = Some (VEui (rd_ieee rd)) /\ dict_get (z_payload m) "shortaddr" = Some (VInt (rd_nwk rd)) /\
    rd_devices rd = join devs (rd_nwk rd) (rd_ieee rd) /\ rd_product rd = p /\ rd_limit rd = concurrency p /\ rd_status rd = st.
Proof.
  unfold finish, coordinator, request. cbn [seq]. intro H. inversion H; subst; [split; [auto|discriminate]|split; [eauto|discriminate]|]. clear H.
  match goal with R : runs _ _ _ |- _ => rename R into K end. destruct r as [m|e]; cbn [of_result seq] in K.
  2: { apply runs_raise_inv in K as [-> [->| ->]]; split; try discriminate; right; eexists; reflexivity. }
  unfold field in K. destruct (dict_get (z_payload m) "ieeeaddr") as [i|] eqn:Ei; cbn [seq] in K.
  2: { apply runs_raise_inv in K as [-> [->| ->]]; split; try discriminate; right; eexists; reflexivity. }
  destruct (dict_get (z_payload m) "shortaddr") as [n|] eqn:En; cbn [seq] in K.
  2: { apply runs_raise_inv in K as [-> [->| ->]]; split; try discriminate; right; eexists; reflexivity. }
  destruct i; try (apply runs_raise_inv in K as [-> [->| ->]]; split; try discriminate; right; eexists; reflexivity).
  destruct n; cbn [seq] in K; try (apply runs_raise_inv in K as [-> [->| ->]]; split; try discriminate; right; eexists; reflexivity).
  apply runs_ret_inv in K as [-> K]. split; [right; eexists; reflexivity|]. intros rd E. destruct K as [->| ->]; [discriminate E|]. injection E as <-.
  exists m. cbn [rd_ieee rd_nwk rd_devices rd_product rd_limit rd_status]. auto 10.
Qed.
(** LED command after a successful start *)
Definition led_acts (p : Z) : list act := if p =? 1 then [] else [ASpawn UTIL "ledControl" (led_payload 0)].
Lemma switch_inv {A} p (r : A) t f : runs (switch_led p LED_Off;; DRet r) t f ->
  t = led_acts p /\ f = Returned r \/ (t = [] \/ t = led_acts p) /\ f = Interrupted.
Proof.
  unfold switch_led, led_acts. fold zStack3x0. destruct (p =? zStack3x0); unfold spawn; cbn [seq]; intro H.
  - apply runs_ret_inv in H as [-> [->| ->]]; auto.
  - inversion H; subst; [auto|]. match goal with R : runs (DRet _) _ _ |- _ => apply runs_ret_inv in R as [-> [->| ->]] end; auto.
Qed.
Lemma form_inv auto v c tr f : runs (form auto (version_of v) c) tr f ->
  if auto then exists t1 t2 g, tr = t1 ++ t2 /\ runs (start_znp (version_of v) (network_options c) 2948 false) t1 g /\
    match g with
    | Returned r => t2 = led_acts (version_of v) /\ f = Returned (Some r) \/ (t2 = [] \/ t2 = led_acts (version_of v)) /\ f = Interrupted
    | Raised e => t2 = [] /\ f = Raised e
    | Interrupted => t2 = [] /\ f = Interrupted
    end
  else tr = [] /\ (f = Interrupted \/ f = Returned None).
Proof.
  unfold form. destruct auto; [|intro H; apply runs_ret_inv in H; exact H].
  intro H. apply runs_seq in H as [(t1 & t2 & a & -> & H1 & H2)|[[H ->]|(e & H & ->)]].
  - unfold form_network in H1. apply runs_seq in H1 as [(t3 & t4 & b & -> & H3 & H4)|[[H Hx]|(e & H & Hx)]]; [|discriminate Hx..].
    exists t3, t4, (Returned b). apply runs_ret_inv in H2 as [-> H2]. rewrite app_nil_r. split; [reflexivity|]. split; [exact H3|].
    apply switch_inv in H4 as [[-> E]|[_ E]]; [injection E as ->|discriminate E]. destruct H2 as [->| ->]; auto.
  - unfold form_network in H. apply runs_seq in H as [(t3 & t4 & b & -> & H3 & H4)|[[H _]|(e & H & Hx)]]; [| |discriminate Hx].
    + exists t3, t4, (Returned b). split; [reflexivity|]. split; [exact H3|]. right. split; [|reflexivity]. apply switch_inv in H4 as [[-> E]|[E _]]; auto.
    + exists tr, [], Interrupted. rewrite app_nil_r. auto.
  - unfold form_network in H. apply runs_seq in H as [(t3 & t4 & b & -> & H3 & H4)|[[_ Hx]|(e' & H & Hx)]]; [|discriminate Hx|].
    + apply switch_inv in H4 as [[_ E]|[_ E]]; discriminate E.
    + injection Hx as <-. exists tr, [], (Raised e). rewrite app_nil_r. auto.
Qed.

(** ** Kinds of requests *)
Definition no_version (a : act) : Prop := match a with ARequest SYS cmd _ _ _ => cmd <> "version" | _ => True end.
Definition no_led (a : act) : Prop := match a with ARequest UTIL cmd _ _ _ | ASpawn UTIL cmd _ => cmd <> "ledControl" | _ => True end.
Ltac every := unfold has_configured, configure, rest, needs_init, validate_pan, validate_item, initialise, boot, register_endpoints, add_to_group, await_started, nv_write, soft_reset;
  onl; try exact I; try discriminate;
  try (match goal with |- only ?P (DRequest ?s ?c ?d ?x (fun r => seq (of_result r) ?k)) => change (only P (seq (request s c d x) k)) end; onl; try exact I; try discriminate);
  try (apply register_loop_only; intros; exact I).
Lemma start_no_version p o g b : only no_version (start_znp p o g b).
Proof. rewrite start_eq. every. Qed.
Lemma start_no_led p o g b : only no_led (start_znp p o g b).
Proof. rewrite start_eq. every. Qed.

Lemma led_modes_app t1 t2 : led_modes (t1 ++ t2) = led_modes t1 ++ led_modes t2.
Proof. apply flat_map_app. Qed.
Lemma no_led_modes t : Forall no_led t -> led_modes t = [].
Proof.
  induction 1 as [|a t H _ IH]; [reflexivity|]. change (led_modes (a :: t)) with (led_modes ([a] ++ t)). rewrite led_modes_app, IH, app_nil_r.
  cbv [led_modes flat_map]. destruct a as [sub cmd d x r|m t0|m r|sub cmd d]; try reflexivity; destruct sub; try reflexivity;
    cbn [no_led] in H; apply String.eqb_neq in H; rewrite H; reflexivity.
Qed.
Lemma no_version_reports t p : Forall no_version t -> ~ reports t p.
Proof. intros H (d & x & m & K & _). rewrite Forall_forall in H. apply H in K. apply K. reflexivity. Qed.
Lemma reports_app t1 t2 p : reports (t1 ++ t2) p <-> reports t1 p \/ reports t2 p.
Proof.
  unfold reports. split.
  - intros (d & x & m & K & E). apply in_app_iff in K as [K|K]; [left|right]; eauto 6.
  - intros [(d & x & m & K & E)|(d & x & m & K & E)]; exists d, x, m; rewrite in_app_iff; auto.
Qed.
Lemma version_reports n p : reports [version_act (Some (Ok n))] p <-> dict_get (z_payload n) "product" = Some (VInt p).
Proof.
  split.
  - intros (d & x & m & [K|[]] & E). injection K as _ _ <-. exact E.
  - intro E. exists [], [0], n. split; [left; reflexivity|exact E].
Qed.
Lemma led_acts_free p : Forall no_version (led_acts p) /\ Forall harmless (led_acts p).
Proof. unfold led_acts. destruct (p =? 1); repeat constructor. Qed.

(** everything after the version *)
Lemma body_inv auto v c devs t f : runs (let! status := form auto (version_of v) c in finish devs (version_of v) status) t f ->
  exists t1 t2, t = t1 ++ t2 /\ (exists g, runs (form auto (version_of v) c) t1 g /\
    match g with
    | Returned st => runs (finish devs (version_of v) st) t2 f
    | Raised e => t2 = [] /\ f = Raised e
    | Interrupted => t2 = [] /\ f = Interrupted
    end).
Proof.
  intro H. apply runs_seq in H as [(t1 & t2 & a & -> & H1 & H2)|[[H ->]|(e & H & ->)]].
  - exists t1, t2. split; [reflexivity|]. exists (Returned a). auto.
  - exists t, []. rewrite app_nil_r. split; [reflexivity|]. exists Interrupted. auto.
  - exists t, []. rewrite app_nil_r. split; [reflexivity|]. exists (Raised e). auto.
Qed.
Lemma form_no_version auto v c t g : runs (form auto (version_of v) c) t g -> Forall no_version t.
Proof.
  intro H. apply form_inv in H. destruct auto; [|destruct H as [-> _]; constructor].
  destruct H as (t1 & t2 & g' & -> & H & K). apply Forall_app. split; [eapply start_no_version, H|].
  destruct g'; [destruct K as [[-> _]|[[->| ->] _]]|destruct K as [-> _]..]; try constructor; apply led_acts_free.
Qed.
Lemma finish_free devs p st t f : runs (finish devs p st) t f -> Forall no_version t /\ Forall no_led t /\ Forall harmless t.
Proof. intro H. apply finish_inv in H as [[->|[r ->]] _]; repeat constructor; discriminate. Qed.
Lemma body_no_version auto v c devs t f : runs (let! status := form auto (version_of v) c in finish devs (version_of v) status) t f -> Forall no_version t.
Proof.
  intro H. apply body_inv in H as (t1 & t2 & -> & g & H1 & H2). apply Forall_app. split; [eapply form_no_version, H1|].
  destruct g; [eapply finish_free, H2|destruct H2 as [-> _]; constructor..].
Qed.

(** ** C81 *)
Lemma ping_first auto c devs tr f : runs (app_startup auto c devs) tr f ->
  match tr with
  | [] => f = Interrupted
  | a :: t => asks SYS "ping" [("capabilities", VInt 1)] a /\ (acknowledged a \/ t = [] /\ forall rd, f <> Returned rd)
  end.
Proof.
  intro H. apply app_course in H. inversion H; subst; try reflexivity; (split; [repeat split|]); try (left; exact I); right; (split; [reflexivity|]); try discriminate.
  intros rd. destruct H0 as [->| ->]; discriminate.
Qed.
Lemma ping_refused auto c devs d x e t f : runs (app_startup auto c devs) (ARequest SYS "ping" d x (Some (Err e)) :: t) f ->
  t = [] /\ (f = Interrupted \/ f = Raised match e with CommandError _ => GenericException | _ => e end).
Proof. intro H. apply app_course in H. inversion H; subst. auto. Qed.

(** ** C82 *)
Lemma limit_by_product auto c devs tr rd : runs (app_startup auto c devs) tr (Returned rd) ->
  (forall p, reports tr p <-> p = rd_product rd) /\ known_product (rd_product rd) /\ rd_limit rd = (if rd_product rd =? 1 then 16 else 2).
Proof.
  intro H. apply app_course in H. inversion H; subst;
    try (match goal with K : _ = _ \/ _ |- _ => destruct K as [K|K]; try discriminate K end).
  { exfalso. destruct (dict_get (z_payload n) "product") as [[]|]; discriminate. }
  match goal with K : runs _ _ _ |- _ => rename K into R end. pose proof (body_no_version _ _ _ _ _ _ R) as N.
  apply body_inv in R as (t1 & t2 & -> & g & H1 & H2). destruct g as [st|e|]; [|destruct H2; discriminate..].
  apply finish_inv in H2 as [_ K]. destruct (K rd eq_refl) as (i & _ & _ & _ & _ & Ep & El & _). rewrite Ep, El.
  split; [|split; [exists v; reflexivity|reflexivity]]. intro p.
  change (ping_act (Some (Ok m)) :: version_act (Some (Ok n)) :: t1 ++ t2) with ([ping_act (Some (Ok m))] ++ [version_act (Some (Ok n))] ++ (t1 ++ t2)).
  rewrite !reports_app, version_reports, H0. split.
  - intros [K1|[K1|[K1|K1]]]; [|congruence|..].
    + exfalso. destruct K1 as (d & x & m' & [K1|[]] & _). discriminate K1.
    + exfalso. apply Forall_app in N as [N _]. eapply no_version_reports; [exact N|exact K1].
    + exfalso. apply Forall_app in N as [_ N]. eapply no_version_reports; [exact N|exact K1].
  - intros ->. auto.
Qed.
Lemma unknown_product auto c devs tr f p : runs (app_startup auto c devs) tr f -> reports tr p -> ~ known_product p ->
  awaited_requests tr = [(SYS, "ping"); (SYS, "version")] /\ length tr = 2%nat /\ (f = Raised ValueError \/ f = Interrupted).
Proof.
  intros H (d & x & m & K & E) N. apply app_course in H. inversion H; subst; cbn [In] in K.
  1: contradiction.
  1-3: destruct K as [K|[]]; discriminate K.
  1-2: destruct K as [K|[K|[]]]; discriminate K.
  - destruct K as [K|[K|[]]]; [discriminate K|]. injection K as _ _ ->. rewrite E in H1. split; [reflexivity|]. split; [reflexivity|]. tauto.
  - destruct K as [K|[K|K]]; [discriminate K| |].
    + injection K as _ _ ->. exfalso. apply N. exists v. congruence.
    + exfalso. apply body_no_version in H1. eapply no_version_reports; [exact H1|]. exists d, x, m. eauto.
Qed.

(** ** C83 *)
Lemma stick_prefix a t s s' : harmless a -> stick s (a :: t) s' -> stick s t s'.
Proof. intros H K. inversion K; subst. replace s with s1; [assumption|]. eapply harmless_act; eassumption. Qed.
Lemma forms_network c devs tr rd s s' : valid_config c -> runs (app_startup true c devs) tr (Returned rd) -> stick s tr s' ->
  exists v r, rd_product rd = version_of v /\ rd_status rd = Some r /\
    (accepted v (network_options c) s /\ Forall harmless tr /\ s' = s /\ r = Resumed \/
     ~ accepted v (network_options c) s /\ initialised v (network_options c) tr /\ config_matches v (network_options c) s' /\ r <> Resumed).
Proof.
  intros V H S. destruct (options_valid c V) as [W _]. apply app_course in H. inversion H; subst;
    try (match goal with K : _ = _ \/ _ |- _ => destruct K as [K|K]; try discriminate K end).
  { exfalso. destruct (dict_get (z_payload n) "product") as [[]|]; discriminate. }
  apply body_inv in H1 as (t1 & t2 & -> & g & H1 & H2). destruct g as [st|e|]; [|destruct H2; discriminate..].
  pose proof (finish_free _ _ _ _ _ H2) as (_ & _ & F2).
  apply finish_inv in H2 as [_ K]. destruct (K rd eq_refl) as (i & _ & _ & _ & _ & Ep & _ & Es).
  apply form_inv in H1 as (t3 & t4 & g & -> & R & G). destruct g as [r|e|]; [|destruct G; discriminate..].
  destruct G as [[-> E]|[_ E]]; [|discriminate E]. injection E as ->.
  exists v, r. split; [exact Ep|]. split; [exact Es|].
  assert (P1 : forall m, harmless (ping_act m)) by (intro; exact I). assert (P2 : forall m, harmless (version_act m)) by (intro; exact I).
  apply stick_prefix in S; [|apply P1]. apply stick_prefix in S; [|apply P2].
  apply stick_app in S as (s1 & S & S2). apply stick_app in S as (s2 & S & S1).
  apply (harmless_stick _ _ _ (proj2 (led_acts_free _))) in S1 as ->. apply (harmless_stick _ _ _ F2) in S2 as ->.
  destruct (accepted_dec v (network_options c) s) as [Y|N]; [left|right].
  - destruct (accepted_left_alone _ _ _ _ _ _ _ _ W Y R S) as (A & B & C). split; [exact Y|]. split; [|split; [exact B|apply C; reflexivity]].
    constructor; [apply P1|]. constructor; [apply P2|]. apply Forall_app. split; [|exact F2]. apply Forall_app. split; [exact A|apply led_acts_free].
  - destruct (differs_initialised _ _ _ _ _ _ _ _ W N R S) as (A & (pre & a & post & -> & B1 & B2 & B3) & C). split; [exact N|]. split; [|auto].
    exists (ping_act (Some (Ok m)) :: version_act (Some (Ok n)) :: pre), a, ((post ++ led_acts (version_of v)) ++ t2).
    split; [cbn [app]; rewrite <- !app_assoc; reflexivity|]. split; [exact B1|]. split; [exact B2|].
    intros j b Hj. destruct (B3 j b Hj) as (w & Hw & K1). exists w. split; [right; right; exact Hw|exact K1].
Qed.
Lemma stick_left_alone auto c devs v tr f s s' : valid_config c -> runs (app_startup auto c devs) tr f -> stick s tr s' ->
  (forall p, reports tr p -> p = version_of v) -> auto = false \/ accepted v (network_options c) s -> Forall harmless tr /\ s' = s.
Proof.
  intros V H S Hv Ha. assert (F : Forall harmless tr); [|split; [exact F|eapply harmless_stick; eassumption]].
  destruct (options_valid c V) as [W _]. apply app_course in H. inversion H; subst; try (repeat constructor; fail).
  assert (v0 = v) as ->.
  { assert (K : version_of v0 = version_of v) by (apply Hv; exists [], [0], n; split; [right; left; reflexivity|assumption]). destruct v0, v; try discriminate K; reflexivity. }
  apply stick_prefix in S; [|exact I]. apply stick_prefix in S; [|exact I]. constructor; [exact I|]. constructor; [exact I|].
  apply body_inv in H1 as (t1 & t2 & -> & g & H1 & H2). apply Forall_app. split; [|destruct g; [eapply finish_free, H2|destruct H2 as [-> _]; constructor..]].
  apply form_inv in H1. destruct auto; [|destruct H1 as [-> _]; constructor].
  destruct Ha as [Ha|Ha]; [discriminate Ha|]. destruct H1 as (t3 & t4 & g' & -> & R & G).
  apply stick_app in S as (s1 & S & _). apply stick_app in S as (s2 & S & _). apply Forall_app. split.
  - eapply accepted_left_alone; eassumption.
  - destruct g'; [destruct G as [[-> _]|[[->| ->] _]]|destruct G as [-> _]..]; try constructor; apply led_acts_free.
Qed.
Lemma without_forming c devs tr rd : runs (app_startup false c devs) tr (Returned rd) ->
  length tr = 3%nat /\ awaited_requests tr = [(SYS, "ping"); (SYS, "version"); (UTIL, "getDeviceInfo")] /\ rd_status rd = None.
Proof.
  intro H. apply app_course in H. inversion H; subst;
    try (match goal with K : _ = _ \/ _ |- _ => destruct K as [K|K]; try discriminate K end).
  { exfalso. destruct (dict_get (z_payload n) "product") as [[]|]; discriminate. }
  apply body_inv in H1 as (t1 & t2 & -> & g & H1 & H2). destruct g as [st|e|]; [|destruct H2; discriminate..].
  apply form_inv in H1 as [-> [E|E]]; [discriminate E|]. injection E as ->.
  apply finish_inv in H2 as [_ K]. destruct (K rd eq_refl) as (i & -> & _ & _ & _ & Ep & _ & Es). auto.
Qed.

(** ** C84 *)
Lemma join_get devs n i j : get_device_ieee (join devs n i) j = if ieee_eqb i j then Ok (i, n) else get_device_ieee devs j.
Proof.
  unfold get_device_ieee. induction devs as [|[a b] devs IH]; cbn [join find fst].
  - destruct (ieee_eqb i j); reflexivity.
  - destruct (ieee_eqb a i) eqn:E.
    + cbn [find fst]. unfold ieee_eqb in E |- *. destruct (list_eq_dec Z.eq_dec a i) as [->|]; [|discriminate E]. destruct (list_eq_dec Z.eq_dec i j); reflexivity.
    + cbn [find fst]. destruct (ieee_eqb a j) eqn:E2; [|exact IH]. unfold ieee_eqb in *.
      destruct (list_eq_dec Z.eq_dec a j) as [->|]; [|discriminate E2]. destruct (list_eq_dec Z.eq_dec j i) as [|K]; [discriminate E|].
      destruct (list_eq_dec Z.eq_dec i j) as [->|]; [contradiction|reflexivity].
Qed.
Lemma coordinator_known auto c devs tr rd : runs (app_startup auto c devs) tr (Returned rd) ->
  exists pre m, tr = pre ++ [ARequest UTIL "getDeviceInfo" [] [0] (Some (Ok m))] /\
    dict_get (z_payload m) "ieeeaddr" = Some (VEui (rd_ieee rd)) /\ dict_get (z_payload m) "shortaddr" = Some (VInt (rd_nwk rd)) /\
    get_device_ieee (rd_devices rd) (rd_ieee rd) = Ok (rd_ieee rd, rd_nwk rd) /\
    forall j, j <> rd_ieee rd -> get_device_ieee (rd_devices rd) j = get_device_ieee devs j.
Proof.
  intro H. apply app_course in H. inversion H; subst;
    try (match goal with K : _ = _ \/ _ |- _ => destruct K as [K|K]; try discriminate K end).
  { exfalso. destruct (dict_get (z_payload n) "product") as [[]|]; discriminate. }
  apply body_inv in H1 as (t1 & t2 & -> & g & H1 & H2). destruct g as [st|e|]; [|destruct H2; discriminate..].
  apply finish_inv in H2 as [_ K]. destruct (K rd eq_refl) as (i & -> & Ei & En & Ed & _).
  exists (ping_act (Some (Ok m)) :: version_act (Some (Ok n)) :: t1), i. split; [reflexivity|]. split; [exact Ei|]. split; [exact En|].
  rewrite Ed. split; [|intros j Hj]; rewrite join_get; unfold ieee_eqb; destruct (list_eq_dec Z.eq_dec _ _); congruence.
Qed.
(** what the stick's answers decode to *)
Lemma decoded_row f r : bytes_ok (f_data f) -> from_unpi_frame f = Ok r -> z_type r = SRSP ->
  exists cs c ps n, definition (z_sub r) = Ok cs /\ In c cs /\ c_name c = z_cmd r /\ c_response c = Some ps /\
    payload_wire None ps (z_payload r) (firstn n (f_data f)) /\ NoDup (names ps).
Proof.
  intros Hok H Ht. destruct (decoded_inv f r Hok H) as (cs & c & ps & n & pl & Hd & Hc & _ & Hsel & -> & Hw & Hnd).
  cbn [z_type z_sub z_cmd z_payload] in *. exists cs, c, ps, n. destruct Hsel as [[_ E]|[E _]]; [|contradiction]. auto 10.
Qed.
Definition row_heads (name : string) (l : list param) (c : cmd) : bool :=
  if String.eqb (c_name c) name then match c_response c with Some ps => heads l ps | None => false end else true.
Lemma device_info_decoded f r : bytes_ok (f_data f) -> from_unpi_frame f = Ok r -> z_type r = SRSP -> z_sub r = UTIL -> z_cmd r = "getDeviceInfo" ->
  exists i n, dict_get (z_payload r) "ieeeaddr" = Some (VEui i) /\ dict_get (z_payload r) "shortaddr" = Some (VInt n) /\ 0 <= n < 65536.
Proof.
  intros Hok H Ht Hs Hn. destruct (decoded_row f r Hok H Ht) as (cs & c & ps & k & Hd & Hc & En & Er & Hw & Hnd).
  rewrite Hs in Hd. injection Hd as <-. rewrite Hn in En.
  assert (K : forallb (row_heads "getDeviceInfo" [("status", UINT8); ("ieeeaddr", IEEEADDR); ("shortaddr", UINT16)]) def_UTIL = true) by (vm_compute; reflexivity).
  rewrite forallb_forall in K. specialize (K c Hc). unfold row_heads in K. rewrite En, String.eqb_refl, Er in K. apply heads_ok in K as [rest ->].
  destruct (wire_get _ _ _ _ "ieeeaddr" IEEEADDR Hnd Hw) as (v1 & p1 & a1 & G1 & V1); [right; left; reflexivity|].
  destruct (wire_get _ _ _ _ "shortaddr" UINT16 Hnd Hw) as (v2 & p2 & a2 & G2 & V2); [right; right; left; reflexivity|].
  apply ieee_value in V1 as (l & -> & _). apply u16_value in V2 as (z & -> & Hz & _). eauto.
Qed.
Lemma version_decoded f r : bytes_ok (f_data f) -> from_unpi_frame f = Ok r -> z_type r = SRSP -> z_sub r = SYS -> z_cmd r = "version" ->
  exists p, dict_get (z_payload r) "product" = Some (VInt p) /\ 0 <= p < 256.
Proof.
  intros Hok H Ht Hs Hn. destruct (decoded_row f r Hok H Ht) as (cs & c & ps & k & Hd & Hc & En & Er & Hw & Hnd).
  rewrite Hs in Hd. injection Hd as <-. rewrite Hn in En.
  assert (K : forallb (row_heads "version" [("transportrev", UINT8); ("product", UINT8)]) def_SYS = true) by (vm_compute; reflexivity).
  rewrite forallb_forall in K. specialize (K c Hc). unfold row_heads in K. rewrite En, String.eqb_refl, Er in K. apply heads_ok in K as [rest ->].
  destruct (wire_get _ _ _ _ "product" UINT8 Hnd Hw) as (v1 & p1 & a1 & G1 & V1); [right; left; reflexivity|].
  apply u8_value in V1 as (z & -> & Hz & _). eauto.
Qed.

(** ** C85 *)
Lemma start_led auto c devs tr f : runs (app_startup auto c devs) tr f ->
  (forall m, In m (led_modes tr) -> m = 0) /\ (length (led_modes tr) <= 1)%nat /\
  (forall rd, f = Returned rd -> led_modes tr = if auto && negb (rd_product rd =? 1) then [0] else []) /\
  (reports tr 1 -> led_modes tr = []).
Proof.
  assert (E : led_modes (led_acts 1) = []) by reflexivity.
  assert (L : forall p, led_modes (led_acts p) = if p =? 1 then [] else [0]) by (intro p; unfold led_acts; destruct (p =? 1); reflexivity).
  intro H. apply app_course in H. inversion H; subst.
  1-7: split; [intros m0 []|]; split; [cbn; lia|]; split; [|reflexivity]; intros rd E0; try discriminate E0.
  1: destruct H0 as [->| ->]; discriminate E0.
  1: destruct H0 as [->| ->]; discriminate E0.
  1: { exfalso. subst f. destruct H1 as [H1|H1]; [discriminate H1|]. destruct (dict_get (z_payload n) "product") as [[]|]; discriminate H1. }
  change (ping_act (Some (Ok m)) :: version_act (Some (Ok n)) :: t) with ([ping_act (Some (Ok m)); version_act (Some (Ok n))] ++ t).
  rewrite led_modes_app. change (led_modes [ping_act (Some (Ok m)); version_act (Some (Ok n))]) with (@nil Z). cbn [app].
  assert (Q : reports (ping_act (Some (Ok m)) :: version_act (Some (Ok n)) :: t) 1 -> version_of v = 1).
  { intros (d & x & m' & [K|[K|K]] & Ep); [discriminate K|injection K as _ _ <-; congruence|].
    exfalso. eapply no_version_reports; [eapply body_no_version, H1|]. exists d, x, m'. eauto. }
  apply body_inv in H1 as (t1 & t2 & -> & g & H1 & H2).
  assert (L2 : led_modes t2 = []) by (apply no_led_modes; destruct g; [eapply finish_free, H2|destruct H2 as [-> _]; constructor..]).
  rewrite led_modes_app, L2, app_nil_r. apply form_inv in H1. destruct auto.
  2: { destruct H1 as [-> _]. split; [intros m0 []|]. split; [cbn; lia|]. split; [reflexivity|reflexivity]. }
  destruct H1 as (t3 & t4 & g' & -> & R & G). rewrite led_modes_app, (no_led_modes t3) by (eapply start_no_led, R). cbn [app].
  assert (C : t4 = [] \/ t4 = led_acts (version_of v)) by (destruct g'; [destruct G as [[-> _]|[[->| ->] _]]|destruct G as [-> _]..]; auto).
  split; [|split; [|split]].
  - intros k Hk. destruct C as [->| ->]; [destruct Hk|]. rewrite L in Hk. destruct (version_of v =? 1); [destruct Hk|destruct Hk as [<-|[]]; reflexivity].
  - destruct C as [->| ->]; [cbn; lia|]. rewrite L. destruct (version_of v =? 1); cbn [length]; lia.
  - intros rd ->. destruct g as [st|e|]; [|destruct H2; discriminate..]. apply finish_inv in H2 as [_ K].
    destruct (K rd eq_refl) as (i & _ & _ & _ & _ & -> & _). cbn [andb].
    destruct g'; [|destruct G; discriminate..]. destruct G as [[-> _]|[_ Eg]]; [|discriminate Eg]. rewrite L. destruct (version_of v =? 1); reflexivity.
  - intro K. apply Q in K. destruct C as [->| ->]; [reflexivity|]. rewrite K. reflexivity.
Qed.
Lemma led_place pre (a : act) post t1 x t2 : pre ++ a :: post = t1 ++ x ++ t2 -> led_modes [a] <> [] -> led_modes t1 = [] -> led_modes t2 = [] ->
  (length x <= 1)%nat -> pre = t1 /\ x = [a] /\ post = t2.
Proof.
  intros E L L1 L2 X. assert (N : forall l, led_modes l = [] -> ~ In a l).
  { intros l K I. apply L. apply in_split in I as (l1 & l2 & ->). rewrite led_modes_app in K. apply app_eq_nil in K as [_ K].
    change (a :: l2) with ([a] ++ l2) in K. rewrite led_modes_app in K. apply app_eq_nil in K as [K _]. exact K. }
  revert t1 E L1. induction pre as [|b pre IH]; intros t1 E L1.
  - destruct t1 as [|y t1]; cbn [app] in E.
    + destruct x as [|y [|]]; cbn [app length] in *; [|injection E as <- ->; auto|lia].
      exfalso. apply (N t2 L2). rewrite <- E. left. reflexivity.
    + exfalso. injection E as <- _. apply (N _ L1). left. reflexivity.
  - destruct t1 as [|y t1]; cbn [app] in E.
    + exfalso. destruct x as [|y [|]]; cbn [app length] in *; [| |lia].
      * apply (N t2 L2). rewrite <- E. right. apply in_app_iff. right. left. reflexivity.
      * injection E as -> E. apply (N t2 L2). rewrite <- E. apply in_app_iff. right. left. reflexivity.
    + injection E as -> E. destruct (IH t1 E) as (-> & K); [|auto].
      change (y :: t1) with ([y] ++ t1) in L1. rewrite led_modes_app in L1. apply app_eq_nil in L1 as [_ L1]. exact L1.
Qed.
Lemma led_after_forming auto c devs pre a post f : runs (app_startup auto c devs) (pre ++ a :: post) f -> led_modes [a] <> [] ->
  auto = true /\ exists v p q t r, pre = p :: q :: t /\ reports [q] (version_of v) /\
    runs (start_znp (version_of v) (network_options c) 2948 false) t (Returned r) /\
    (valid_config c -> forall s s', stick s pre s' -> accepted v (network_options c) s').
Proof.
  intros H L. apply app_course in H. remember (pre ++ a :: post) as tr eqn:E.
  assert (NL : forall l, led_modes l = [] -> l <> pre ++ a :: post).
  { intros l K ->. apply L. rewrite led_modes_app in K. apply app_eq_nil in K as [_ K]. change (a :: post) with ([a] ++ post) in K. rewrite led_modes_app in K. apply app_eq_nil in K as [K _]. exact K. }
  inversion H; subst; try (exfalso; match goal with K : _ = pre ++ a :: post |- _ => revert K; apply NL; reflexivity end).
  match goal with R : runs _ _ _ |- _ => rename R into K end. apply body_inv in K as (t1 & t2 & -> & g & Q1 & Q2).
  assert (L2 : led_modes t2 = []) by (apply no_led_modes; destruct g; [eapply finish_free, Q2|destruct Q2 as [-> _]; constructor..]).
  assert (L0 : led_modes [ping_act (Some (Ok m)); version_act (Some (Ok n))] = []) by reflexivity.
  match goal with K : _ = pre ++ a :: post |- _ => rename K into E end.
  change (ping_act (Some (Ok m)) :: version_act (Some (Ok n)) :: t1 ++ t2) with ([ping_act (Some (Ok m)); version_act (Some (Ok n))] ++ (t1 ++ t2)) in E.
  pose proof (form_inv _ _ _ _ _ Q1) as F. destruct auto.
  2: { exfalso. destruct F as [-> _]. revert E. apply NL. rewrite led_modes_app, L0. exact L2. }
  split; [reflexivity|]. destruct F as (t3 & t4 & g' & -> & R & G).
  pose proof (no_led_modes t3 (start_no_led _ _ _ _ _ _ R)) as L3.
  assert (C : (t4 = [] \/ t4 = led_acts (version_of v)) /\ (t4 <> [] -> exists r, g' = Returned r)).
  { destruct g'; [destruct G as [[-> _]|[[->| ->] _]]|destruct G as [-> _]..]; split; eauto; intros []; reflexivity. }
  destruct C as [C1 C2].
  rewrite <- !app_assoc, app_assoc in E. symmetry in E. apply led_place in E as (Ep & E4 & _); [|exact L| |exact L2|].
  2: { rewrite led_modes_app, L0. exact L3. }
  2: { destruct C1 as [->| ->]; [cbn; lia|]. unfold led_acts. destruct (version_of v =? 1); cbn; lia. }
  destruct C2 as [r ->]; [rewrite E4; discriminate|].
  exists v, (ping_act (Some (Ok m))), (version_act (Some (Ok n))), t3, r. split; [exact Ep|]. split; [apply version_reports; assumption|]. split; [exact R|].
  intros V s s' S. destruct (options_valid c V) as [W _]. rewrite Ep in S.
  apply stick_prefix in S; [|exact I]. apply stick_prefix in S; [|exact I].
  destruct (accepted_dec v (network_options c) s) as [Y|N].
  - destruct (accepted_left_alone _ _ _ _ _ _ _ _ W Y R S) as (_ & -> & _). exact Y.
  - destruct (differs_initialised _ _ _ _ _ _ _ _ W N R S) as (_ & _ & C3 & C4). split; [exact C3|auto].
Qed.

(** ** C86 *)
Lemma app_sendable auto c devs : valid_config c -> only act_sendable (app_startup auto c devs).
Proof.
  intros V tr f H. destruct (options_valid c V) as [W _]. apply app_course in H.
  assert (P1 : forall r, act_sendable (ping_act r)) by (intro; cbn [act_sendable ping_act]; sends; fits).
  assert (P2 : forall r, act_sendable (version_act r)) by (intro; cbn [act_sendable version_act]; sends; fits).
  assert (P3 : forall r, act_sendable (info_act r)) by (intro; cbn [act_sendable info_act]; sends; fits).
  assert (P4 : forall p, Forall act_sendable (led_acts p)).
  { intro p. unfold led_acts. destruct (p =? 1); constructor; [|constructor]. cbn [act_sendable]. unfold led_payload. sends; fits. }
  inversion H; subst; repeat (constructor; [first [apply P1|apply P2]|]); try constructor.
  apply body_inv in H1 as (t1 & t2 & -> & g & H1 & H2). apply Forall_app. split.
  - apply form_inv in H1. destruct auto; [|destruct H1 as [-> _]; constructor]. destruct H1 as (t3 & t4 & g' & -> & R & G).
    apply Forall_app. split; [exact (start_sendable v _ 2948 false W ltac:(lia) _ _ R)|].
    destruct g'; [destruct G as [[-> _]|[[->| ->] _]]|destruct G as [-> _]..]; try constructor; apply P4.
  - destruct g; [|destruct H2 as [-> _]; constructor..]. apply finish_inv in H2 as [[->|[r ->]] _]; repeat constructor. apply P3.
Qed.

(** ** C87 *)
Lemma app_completes dv v ieee nwk auto c devs s : works_app dv v ieee nwk -> (marked v s -> items_exist s) ->
  exists tr rd s', serve dv (app_startup auto c devs) s = (tr, Ok rd, s') /\
    rd_product rd = version_of v /\ rd_ieee rd = ieee /\ rd_nwk rd = nwk.
Proof.
  intros (W & Wp & Wv & Wd) Hi.
  assert (H : ends dv (app_startup auto c devs) s (fun r _ => exists rd, r = Ok rd /\ rd_product rd = version_of v /\ rd_ieee rd = ieee /\ rd_nwk rd = nwk)).
  { rewrite app_eq. apply ends_seq. unfold ping. apply ends_attempt. eapply ends_request; [unfold respond; reflexivity|].
    unfold checked, status_of. cbn [reply z_payload]. rewrite Wp. apply ends_seq. unfold ask_version. eapply ends_request; [unfold respond; reflexivity|].
    unfold checked, status_of. cbn [reply z_payload]. rewrite (proj1 (Wv [])). apply ends_seq. eapply ends_field; [exact (proj2 (Wv []))|].
    rewrite check_known. cbn [seq]. apply ends_seq.
    assert (F : forall st s', ends dv (finish devs (version_of v) st) s' (fun r _ => exists rd, r = Ok rd /\ rd_product rd = version_of v /\ rd_ieee rd = ieee /\ rd_nwk rd = nwk)).
    { intros st s'. unfold finish, coordinator. apply ends_seq, ends_seq. apply (ends_plain dv W); [reflexivity|discriminate|cbn [In]; tauto|left; discriminate|].
      intros m Em. apply ends_seq. eapply ends_field; [rewrite Em; exact (proj1 (Wd []))|]. apply ends_seq. eapply ends_field; [rewrite Em; exact (proj2 (Wd []))|].
      eexists. split; [reflexivity|]. auto. }
    unfold form. destruct auto; [|apply F].
    apply ends_seq. unfold form_network. apply ends_seq. eapply ends_weaken; [|exact (start_done dv W v (network_options c) 2948 s Hi)].
    intros [r|e] s' Hd; [|destruct Hd]. apply ends_seq. unfold switch_led. destruct (version_of v =? zStack3x0); apply F. }
  unfold ends in H. destruct (serve dv (app_startup auto c devs) s) as [[tr r] s']. destruct H as (rd & E & K). cbn [fst snd] in E. subst r. eauto 8.
Qed.

(** ** C88: LED while the application runs *)
Lemma led_effects_app a b : led_effects (a ++ b) = led_effects a ++ led_effects b.
Proof. apply flat_map_app. Qed.
Lemma deliver_no_led devs nwk ieee ct : led_effects (deliver_message devs nwk ieee ct) = [].
Proof. unfold deliver_message. destruct (match ieee with Some _ => _ | None => _ end) as [[i n]|]; reflexivity. Qed.
Lemma says_inv o b : says_joining o = Some b -> z_type o = AREQ /\ z_sub o = ZDO /\
  (z_cmd o = "mgmtPermitJoinRsp" /\ b = true \/ z_cmd o = "permitJoinInd" /\ exists d, dict_get (z_payload o) "duration" = Some (VInt d) /\ b = negb (d =? 0)).
Proof.
  unfold says_joining. destruct (z_type o); try discriminate. destruct (z_sub o); try discriminate. intro H. split; [reflexivity|]. split; [reflexivity|].
  destruct (String.eqb_spec (z_cmd o) "mgmtPermitJoinRsp") as [E|_]; [injection H as <-; auto|].
  destruct (String.eqb_spec (z_cmd o) "permitJoinInd") as [E|_]; [|discriminate H]. right. split; [exact E|].
  unfold int_of in H. destruct (dict_get (z_payload o) "duration") as [[d| | | |]|]; try discriminate H. injection H as <-. eauto.
Qed.
Lemma joining_encodes f o b : bytes_ok (f_data f) -> from_unpi_frame f = Ok o -> says_joining o = Some b -> exists f', to_unpi_frame o = Ok f'.
Proof.
  intros Hok H J. apply says_inv in J as (Ht & Hs & J).
  destruct (decoded_inv f o Hok H) as (cs & c & ps & n & pl & Hd & Hc & Hid & Hsel & -> & Hw & Hnd).
  cbn [z_type z_sub z_cmd z_payload z_params] in *. rewrite Hs in *. injection Hd as <-. destruct Hsel as [[E _]|[_ Hreq]]; [congruence|].
  assert (K : forallb (fun c => if String.eqb (c_name c) "mgmtPermitJoinRsp" || String.eqb (c_name c) "permitJoinInd" then
     match c_request c with Some ps => forallb (fun p => writable (snd p)) ps | None => false end else true) def_ZDO = true) by (vm_compute; reflexivity).
  rewrite forallb_forall in K. specialize (K c Hc). replace (String.eqb (c_name c) "mgmtPermitJoinRsp" || String.eqb (c_name c) "permitJoinInd") with true in K
    by (destruct J as [[-> _]|[-> _]]; reflexivity). rewrite Hreq, forallb_forall in K.
  assert (Hread : read_parameters (f_data f) ps = Ok pl).
  { unfold from_unpi_frame in H. rewrite Hs in H. cbn [definition bind] in H. unfold next_cmd in H.
    rewrite <- Hid, (find_by_id ZDO def_ZDO c eq_refl Hc) in H. cbn [bind] in H.
    unfold select_params in H. rewrite Ht in H. change (ct_eqb AREQ SRSP) with false in H. cbn [key] in H.
    rewrite Hreq in H. cbn [key bind] in H.
    destruct (read_parameters (f_data f) ps) as [pl'|]; [|discriminate]. cbn [bind] in H. injection H as ->. reflexivity. }
  assert (Hwr : Forall (fun p => writable (snd p) = true) ps) by (apply Forall_forall; exact K).
  destruct (decode_encode ps (f_data f) pl Hnd Hok Hread Hwr) as (m & body & _ & _ & _ & Hwp & _).
  unfold to_unpi_frame. cbn [z_params z_payload]. rewrite Hwp. eexists. reflexivity.
Qed.

Lemma rest_led version devs o f nwk ieee es r : handle_rest version devs o f nwk ieee = (es, r) -> z_type o = AREQ ->
  match says_joining o, version with
  | None, _ => led_effects es = []
  | Some b, Some v => led_effects es = if v =? 1 then [] else [if b then 1 else 0]
  | Some b, None => es = [] /\ r = Err KeyError
  end.
Proof.
  intros H Ht. unfold handle_rest in H. unfold says_joining. rewrite Ht.
  destruct (z_sub o) eqn:Es; cbn [sub_eqb] in H.
  all: repeat match type of H with context [sub_val ?a =? sub_val ?b] => let c := eval vm_compute in (sub_val a =? sub_val b) in change (sub_val a =? sub_val b) with c in H end; cbn [andb] in H.
  all: try (destruct (existsb (String.eqb (z_cmd o)) IGNORED); [injection H as <- <-; reflexivity|];
    destruct (message_content o f) as [[ct|]|e]; injection H as <- <-; cbn [app]; rewrite ?deliver_no_led; reflexivity).
  destruct (String.eqb_spec (z_cmd o) "mgmtPermitJoinRsp") as [E|N1].
  - rewrite E in H. change (existsb (String.eqb "mgmtPermitJoinRsp") IGNORED) with false in H. cbn iota in H.
    unfold set_led in H. destruct version as [v|]; [|injection H as <- <-; auto]. change (String.eqb "mgmtPermitJoinRsp" "permitJoinInd") with false in H. cbn iota in H.
    fold zStack3x0.
    destruct (message_content o f) as [[ct|]|e]; injection H as <- <-; rewrite ?led_effects_app, ?deliver_no_led, ?app_nil_r; destruct (v =? zStack3x0); reflexivity.
  - destruct (String.eqb_spec (z_cmd o) "permitJoinInd") as [E|N2].
    + rewrite E in H. change (existsb (String.eqb "permitJoinInd") IGNORED) with false in H. cbn iota in H. unfold get_int, int_of in *.
      destruct (dict_get (z_payload o) "duration") as [[d| | | |]|]; cbn [bind app] in H; try (injection H as <- <-; reflexivity).
      unfold set_led in H. destruct version as [v|]; [|injection H as <- <-; auto]. fold zStack3x0. injection H as <- <-.
      destruct (v =? zStack3x0), (d =? 0); reflexivity.
    + destruct (existsb (String.eqb (z_cmd o)) IGNORED); [injection H as <- <-; reflexivity|].
      destruct (message_content o f) as [[ct|]|e]; injection H as <- <-; cbn [app]; rewrite ?deliver_no_led; reflexivity.
Qed.
Lemma led_follows version devs o devs' es r : handle_znp version devs o = (devs', es, r) ->
  match says_joining o, to_unpi_frame o, version with
  | None, _, _ | _, Err _, _ => led_effects es = []
  | Some b, Ok _, Some v => led_effects es = if v =? 1 then [] else [if b then 1 else 0]
  | Some b, Ok _, None => es = [] /\ r = Err KeyError
  end.
Proof.
  unfold handle_znp. destruct (ct_eqb_spec (z_type o) AREQ) as [Ht|Nt]; cbn [negb]; intro H.
  2: { injection H as <- <- <-. destruct (says_joining o) as [b|] eqn:J; [|reflexivity]. apply says_inv in J as [J _]. contradiction. }
  destruct (to_unpi_frame o) as [f|e]; [|injection H as <- <- <-; destruct (says_joining o); reflexivity].
  destruct (sub_eqb (z_sub o) ZDO && String.eqb (z_cmd o) "endDeviceAnnceInd") eqn:A.
  - assert (J : says_joining o = None).
    { unfold says_joining. rewrite Ht. destruct (z_sub o); try reflexivity. apply andb_true_iff in A as [_ A]. apply String.eqb_eq in A. rewrite A. reflexivity. }
    rewrite J. destruct (get_int (z_payload o) "nwkaddr") as [n|]; [|injection H as <- <- <-; reflexivity].
    destruct (dict_get (z_payload o) "ieeeaddr") as [[]|]; try (injection H as <- <- <-; reflexivity).
    destruct (handle_rest _ _ _ _ _ _) as [es' r'] eqn:R. injection H as <- <- <-. apply rest_led in R; [|exact Ht].
    change (says_joining (with_seq o (Some 0))) with (says_joining o) in R. rewrite J in R. exact R.
  - destruct (handle_rest _ _ _ _ _ _) as [es' r'] eqn:R. injection H as <- <- <-. apply rest_led in R; [|exact Ht].
    destruct (says_joining o); [|exact R]. destruct version; exact R.
Qed.
