(** * PropsAppStart: start-up of the application and its LED (C81-C87) *)
From Verif Require Import Base Types Uart Buffalo Zpi Api App SpecWire SpecCodec SpecMachine Machine Nv StartZnp SpecStart StartExec
  AppStart SpecAppStart StartProofs StartProofs8 StartProofs9 StartSend UartProofs AppStartProofs PropsStart.

(** ** Literals for the examples *)
Definition lit_net : nwk_config := mk_config None (Some 4660) (Some [1; 2; 3; 4; 5; 6; 7; 8]) None.
Lemma lit_net_valid : valid_config lit_net.
Proof.
  repeat split; try discriminate; cbn [lit_net cf_key cf_pan cf_ext cf_channels] in *;
    match goal with E : Some _ = Some _ |- _ => injection E as <- end; try reflexivity; try (repeat constructor; discriminate); discriminate.
Qed.
Definition lit_ieee : list Z := [8; 7; 6; 5; 4; 3; 2; 1].
(** a stick that reports [product], or (with [alive] false) answers the first request with an error *)
Definition lit_dongle (alive : bool) (product : Z) : device :=
  mk_device
    (fun sub cmd d => if sub_eqb sub SYS && String.eqb cmd "ping" then (if alive then [("capabilities", VInt 377)] else [("status", VInt 2)])
                      else if sub_eqb sub SYS && String.eqb cmd "version" then [("transportrev", VInt 2); ("product", VInt product)]
                      else if sub_eqb sub UTIL && String.eqb cmd "getDeviceInfo" then
                        [("status", VInt 0); ("ieeeaddr", VEui lit_ieee); ("shortaddr", VInt 0); ("devicestate", VInt 9)]
                      else dv_answer (lit_stick 9 0 []) sub cmd d)
    (dv_indication (lit_stick 9 0 [])).
Definition lit_known : devices := [([1; 1; 1; 1; 1; 1; 1; 1], 77)].
Definition lit_run (auto : bool) (alive : bool) (product : Z) (s : store) : list act * fin ready * store :=
  exec (lit_dongle alive product) 200 (app_startup auto lit_net lit_known) s.

(** ** C81 *)
Theorem C81_ping_first : forall auto c devs tr f, runs (app_startup auto c devs) tr f ->
  match tr with
  | [] => f = Interrupted
  | a :: t => asks SYS "ping" [("capabilities", VInt 1)] a /\ (acknowledged a \/ t = [] /\ forall rd, f <> Returned rd)
  end.
Proof. exact ping_first. Qed.
Print Assumptions C81_ping_first.
Theorem C81_refused_ping_fails : forall auto c devs d x e t f, runs (app_startup auto c devs) (ARequest SYS "ping" d x (Some (Err e)) :: t) f ->
  t = [] /\ (f = Interrupted \/ f = Raised match e with CommandError _ => GenericException | _ => e end).
Proof. exact ping_refused. Qed.
Print Assumptions C81_refused_ping_fails.
Example C81_inhabited :
  fin_of (lit_run true false 0 lit_empty) = Raised GenericException /\ length (trace_of (lit_run true false 0 lit_empty)) = 1%nat /\
  exists rd, fin_of (lit_run true true 0 lit_empty) = Returned rd.
Proof. vm_compute. split; [reflexivity|]. split; [reflexivity|]. eexists. reflexivity. Qed.

(** ** C82 *)
Theorem C82_limit_by_product : forall auto c devs tr rd, runs (app_startup auto c devs) tr (Returned rd) ->
  (forall p, reports tr p <-> p = rd_product rd) /\ known_product (rd_product rd) /\ rd_limit rd = (if rd_product rd =? 1 then 16 else 2).
Proof. exact limit_by_product. Qed.
Print Assumptions C82_limit_by_product.
Theorem C82_unknown_product_refused : forall auto c devs tr f p, runs (app_startup auto c devs) tr f -> reports tr p -> ~ known_product p ->
  awaited_requests tr = [(SYS, "ping"); (SYS, "version")] /\ length tr = 2%nat /\ (f = Raised ValueError \/ f = Interrupted).
Proof. exact unknown_product. Qed.
Print Assumptions C82_unknown_product_refused.
(** the limit is the one the request machine uses *)
Theorem C82_limit_of_the_machine : forall p, concurrency p = concurrent p.
Proof. reflexivity. Qed.
Print Assumptions C82_limit_of_the_machine.
Example C82_inhabited :
  fin_of (lit_run false true 1 lit_empty) = Returned (mk_ready 1 16 lit_ieee 0 [([1; 1; 1; 1; 1; 1; 1; 1], 77); (lit_ieee, 0)] None) /\
  fin_of (lit_run false true 2 lit_empty) = Returned (mk_ready 2 2 lit_ieee 0 [([1; 1; 1; 1; 1; 1; 1; 1], 77); (lit_ieee, 0)] None) /\
  fin_of (lit_run true true 3 lit_empty) = Raised ValueError /\ reports (trace_of (lit_run true true 3 lit_empty)) 3 /\ ~ known_product 3.
Proof.
  split; [vm_compute; reflexivity|]. split; [vm_compute; reflexivity|]. split; [vm_compute; reflexivity|]. split.
  - exists [], [0]. eexists. split; [vm_compute; right; left; reflexivity|reflexivity].
  - intros [[] E]; discriminate E.
Qed.

(** ** C83 *)
Theorem C83_forms_the_configured_network : forall c devs tr rd s s', valid_config c ->
  runs (app_startup true c devs) tr (Returned rd) -> stick s tr s' ->
  exists v r, rd_product rd = version_of v /\ rd_status rd = Some r /\
    (accepted v (network_options c) s /\ Forall harmless tr /\ s' = s /\ r = Resumed \/
     ~ accepted v (network_options c) s /\ initialised v (network_options c) tr /\ config_matches v (network_options c) s' /\ r <> Resumed).
Proof. exact forms_network. Qed.
Print Assumptions C83_forms_the_configured_network.
(** also a start-up that fails or is interrupted *)
Theorem C83_stick_left_alone : forall auto c devs v tr f s s', valid_config c -> runs (app_startup auto c devs) tr f -> stick s tr s' ->
  (forall p, reports tr p -> p = version_of v) -> auto = false \/ accepted v (network_options c) s -> Forall harmless tr /\ s' = s.
Proof. exact stick_left_alone. Qed.
Print Assumptions C83_stick_left_alone.
Theorem C83_without_forming : forall c devs tr rd, runs (app_startup false c devs) tr (Returned rd) ->
  length tr = 3%nat /\ awaited_requests tr = [(SYS, "ping"); (SYS, "version"); (UTIL, "getDeviceInfo")] /\ rd_status rd = None.
Proof. exact without_forming. Qed.
Print Assumptions C83_without_forming.
Example C83_inhabited :
  let x := lit_run true true 2 lit_empty in
  (exists rd, fin_of x = Returned rd /\ rd_status rd = Some Reset) /\ store_of x 131 = Some [52; 18] /\ store_of x 45 = Some [1; 2; 3; 4; 5; 6; 7; 8] /\
  (exists rd, fin_of (lit_run true true 2 (store_of x)) = Returned rd /\ rd_status rd = Some Resumed) /\ accepted Stack30x (network_options lit_net) (store_of x).
Proof.
  split; [eexists; split; vm_compute; reflexivity|]. split; [vm_compute; reflexivity|]. split; [vm_compute; reflexivity|].
  split; [eexists; split; vm_compute; reflexivity|]. vm_compute. repeat split. auto.
Qed.

(** ** C84 *)
Theorem C84_coordinator_known : forall auto c devs tr rd, runs (app_startup auto c devs) tr (Returned rd) ->
  exists pre m, tr = pre ++ [ARequest UTIL "getDeviceInfo" [] [0] (Some (Ok m))] /\
    dict_get (z_payload m) "ieeeaddr" = Some (VEui (rd_ieee rd)) /\ dict_get (z_payload m) "shortaddr" = Some (VInt (rd_nwk rd)) /\
    get_device_ieee (rd_devices rd) (rd_ieee rd) = Ok (rd_ieee rd, rd_nwk rd) /\
    forall j, j <> rd_ieee rd -> get_device_ieee (rd_devices rd) j = get_device_ieee devs j.
Proof. exact coordinator_known. Qed.
Print Assumptions C84_coordinator_known.
(** every such answer that can be decoded has both addresses, and every version answer a product *)
Theorem C84_device_info_decoded : forall f r, bytes_ok (f_data f) -> from_unpi_frame f = Ok r ->
  z_type r = SRSP -> z_sub r = UTIL -> z_cmd r = "getDeviceInfo" ->
  exists i n, dict_get (z_payload r) "ieeeaddr" = Some (VEui i) /\ dict_get (z_payload r) "shortaddr" = Some (VInt n) /\ 0 <= n < 65536.
Proof. exact device_info_decoded. Qed.
Print Assumptions C84_device_info_decoded.
Theorem C84_version_decoded : forall f r, bytes_ok (f_data f) -> from_unpi_frame f = Ok r ->
  z_type r = SRSP -> z_sub r = SYS -> z_cmd r = "version" -> exists p, dict_get (z_payload r) "product" = Some (VInt p) /\ 0 <= p < 256.
Proof. exact version_decoded. Qed.
Print Assumptions C84_version_decoded.
Example C84_inhabited :
  (exists rd, fin_of (lit_run true true 0 lit_empty) = Returned rd /\ rd_ieee rd = lit_ieee /\
     rd_devices rd = [([1; 1; 1; 1; 1; 1; 1; 1], 77); (lit_ieee, 0)]) /\
  (exists r, from_unpi_frame (mk_frame SRSP UTIL 0 (0 :: lit_ieee ++ [18; 52; 7; 9; 0]) None None) = Ok r /\ dict_get (z_payload r) "shortaddr" = Some (VInt 13330)) /\
  exists r, from_unpi_frame (mk_frame SRSP SYS 2 [2; 1; 2; 7; 1; 0; 0; 0; 0] None None) = Ok r /\ dict_get (z_payload r) "product" = Some (VInt 1).
Proof.
  split; [eexists; split; [vm_compute; reflexivity|split; reflexivity]|].
  split; eexists; (split; [vm_compute; reflexivity|reflexivity]).
Qed.

(** ** C85 *)
Theorem C85_led_off_after_forming : forall auto c devs tr f, runs (app_startup auto c devs) tr f ->
  (forall m, In m (led_modes tr) -> m = 0) /\ (length (led_modes tr) <= 1)%nat /\
  (forall rd, f = Returned rd -> led_modes tr = if auto && negb (rd_product rd =? 1) then [0] else []) /\
  (reports tr 1 -> led_modes tr = []).
Proof. exact start_led. Qed.
Print Assumptions C85_led_off_after_forming.
(** when an LED command is sent the start of the stick has completed, and on a stick that stores what is written
    the configuration is in place *)
Theorem C85_nothing_before_forming : forall auto c devs pre a post f, runs (app_startup auto c devs) (pre ++ a :: post) f -> led_modes [a] <> [] ->
  auto = true /\ exists v p q t r, pre = p :: q :: t /\ reports [q] (version_of v) /\
    runs (start_znp (version_of v) (network_options c) 2948 false) t (Returned r) /\
    (valid_config c -> forall s s', stick s pre s' -> accepted v (network_options c) s').
Proof. exact led_after_forming. Qed.
Print Assumptions C85_nothing_before_forming.
Example C85_inhabited :
  led_modes (trace_of (lit_run true true 0 lit_empty)) = [0] /\ led_modes (trace_of (lit_run true true 1 lit_empty)) = [] /\
  (exists rd, fin_of (lit_run true true 1 lit_empty) = Returned rd) /\ led_modes (trace_of (lit_run false true 0 lit_empty)) = [] /\
  exists pre a post, trace_of (lit_run true true 0 lit_empty) = pre ++ a :: post /\ led_modes [a] = [0] /\ length post = 1%nat.
Proof.
  split; [vm_compute; reflexivity|]. split; [vm_compute; reflexivity|]. split; [eexists; vm_compute; reflexivity|]. split; [vm_compute; reflexivity|].
  set (tr := trace_of (lit_run true true 0 lit_empty)).
  exists (firstn (length tr - 2) tr), (ASpawn UTIL "ledControl" (led_payload 0)), (skipn (length tr - 1) tr).
  split; [vm_compute; reflexivity|]. split; vm_compute; reflexivity.
Qed.

(** ** C86 *)
Theorem C86_every_request_encodable : forall auto c devs tr f, valid_config c -> runs (app_startup auto c devs) tr f ->
  Forall (fun a => match a with
    | ARequest sub cmd d _ _ | ASpawn sub cmd d =>
      exists z fr bs, in_coroutine (from_command sub cmd d) = Ok z /\ to_unpi_frame z = Ok fr /\ to_buffer fr = Ok bs /\
        (length (f_data fr) <= 250)%nat
    | _ => True end) tr.
Proof.
  intros auto c devs tr f V R. eapply Forall_impl; [|exact (app_sendable auto c devs V tr f R)].
  assert (K : forall sub cmd d, can_send sub cmd d -> exists z fr bs, in_coroutine (from_command sub cmd d) = Ok z /\ to_unpi_frame z = Ok fr /\ to_buffer fr = Ok bs /\
        (length (f_data fr) <= 250)%nat).
  { intros sub cmd d (z & fr & H1 & _ & H2 & H3 & H4). exists z, fr, (wire_of fr). rewrite H1. split; [reflexivity|]. split; [exact H2|].
    split; [apply to_buffer_wire, H3|exact H4]. }
  intros [sub cmd d x r|m t|m r|sub cmd d] H; try exact I; apply K, H.
Qed.
Print Assumptions C86_every_request_encodable.
Theorem C86_completes_on_a_working_stick : forall dv v ieee nwk auto c devs s, works_app dv v ieee nwk -> (marked v s -> items_exist s) ->
  exists tr rd s', serve dv (app_startup auto c devs) s = (tr, Ok rd, s') /\ runs (app_startup auto c devs) tr (Returned rd) /\ stick s tr s' /\
    rd_product rd = version_of v /\ rd_ieee rd = ieee /\ rd_nwk rd = nwk.
Proof.
  intros dv v ieee nwk auto c devs s W Hi. destruct (app_completes dv v ieee nwk auto c devs s W Hi) as (tr & rd & s' & E & K).
  exists tr, rd, s'. split; [exact E|]. apply serve_sound in E as [R S]. auto.
Qed.
Print Assumptions C86_completes_on_a_working_stick.
Example C86_inhabited : works_app (lit_dongle true 2) Stack30x lit_ieee 0 /\ ~ marked Stack30x lit_empty.
Proof.
  split; [|discriminate]. split; [|split; [reflexivity|split; split; reflexivity]].
  split; [|split].
  - intros sub cmd d N. cbn [lit_dongle dv_answer]. replace (sub_eqb sub SYS) with false by (destruct sub; [reflexivity| |reflexivity..]; contradiction). cbn [andb].
    destruct (sub_eqb sub UTIL && String.eqb cmd "getDeviceInfo"); [exists 0; auto|]. cbn [lit_stick dv_answer].
    destruct (String.eqb cmd "getDeviceInfo"); [exists 0; auto|].
    destruct (sub_eqb sub ZDO && String.eqb cmd "extFindGroup") eqn:E; [|exists 0; auto]. apply andb_true_iff in E as [E1 E2].
    exists 1. split; [reflexivity|]. right. split; [reflexivity|]. split; [destruct sub; try discriminate E1; reflexivity|]. left. apply String.eqb_eq, E2.
  - intro d. exists (VInt 9). reflexivity.
  - intros m [->| ->]; eexists; (split; [reflexivity|]); (split; [vm_compute; reflexivity|]); intro E; [discriminate E|]. exists []. reflexivity.
Qed.

(** ** C87 *)
Theorem C87_led_follows_joining : forall version devs f o devs' es r, bytes_ok (f_data f) -> from_unpi_frame f = Ok o ->
  handle_znp version devs o = (devs', es, r) ->
  match says_joining o, version with
  | None, _ => led_effects es = []
  | Some b, Some v => led_effects es = if v =? 1 then [] else [if b then 1 else 0]
  | Some b, None => es = [] /\ r = Err KeyError
  end.
Proof.
  intros version devs f o devs' es r Hok Hf H. apply led_follows in H.
  destruct (says_joining o) as [b|] eqn:J; [|exact H]. destruct (joining_encodes f o b Hok Hf J) as [f' E]. rewrite E in H. exact H.
Qed.
Print Assumptions C87_led_follows_joining.
(** what is sent for it can be encoded and names LED 3 *)
Theorem C87_led_command : forall b, can_send UTIL "ledControl" (led_payload (if b : bool then 1 else 0)) /\
  int_of (led_payload (if b then 1 else 0)) "ledid" = Some 3 /\ int_of (led_payload (if b then 1 else 0)) "mode" = Some (if b then 1 else 0).
Proof. intro b. split; [|split; reflexivity]. unfold led_payload. destruct b; sends; fits. Qed.
Print Assumptions C87_led_command.
Example C87_inhabited : exists on off rsp,
  from_unpi_frame (mk_frame AREQ ZDO 203 [60] None None) = Ok on /\ from_unpi_frame (mk_frame AREQ ZDO 203 [0] None None) = Ok off /\
  from_unpi_frame (mk_frame AREQ ZDO 182 [0; 0; 0] None None) = Ok rsp /\
  says_joining on = Some true /\ says_joining off = Some false /\ says_joining rsp = Some true /\
  handle_znp (Some 2) [] on = ([], [ELed 1], Ok tt) /\ handle_znp (Some 2) [] off = ([], [ELed 0], Ok tt) /\ handle_znp (Some 1) [] on = ([], [], Ok tt).
Proof. eexists _, _, _. split; [vm_compute; reflexivity|]. split; [vm_compute; reflexivity|]. split; [vm_compute; reflexivity|]. vm_compute. repeat split. Qed.
