(** * RealProofs2: the start-up programs listen to one thing at a time *)
From Coq Require Import ZifyBool ZifyNat.
From Verif Require Import Base Types Uart Buffalo CmdTable Zpi Api App Machine SpecWire SpecCodec SpecMachine SpecProgress Nv StartZnp SpecStart Host SpecHost SpecEnds
  AppStart SpecAppStart ApiProofs MachineBase MachineInv MachineInv5 DispatchProofs StartProofs StartSend HostProofs HostEnds AppStartProofs FormProofs SpecReal RealProofs StartZnp.

Lemma neat_weaken {A} o (p : prog A) : neat o p -> o = None -> forall o', neat o' p.
Proof.
  induction 1 as [o a|o e|o sub cmd d x k H IH|o m t k Hz H IH|w k H IH|o sub cmd d k Ha H IH]; intros E o'; try discriminate; constructor; auto.
Qed.
Lemma neat_any {A} o (p : prog A) : neat None p -> neat o p.
Proof. intro H. eapply neat_weaken; [exact H|reflexivity]. Qed.
Lemma neat_seq {A B} o (p : prog A) (g : A -> prog B) : neat o p -> (forall a, neat None (g a)) -> neat o (seq p g).
Proof. intros H Hg. induction H; cbn [seq]; try (constructor; auto; fail). apply neat_any, Hg. Qed.
Lemma neat_attempt {A} o (p : prog A) h : neat o p -> (forall e q, h e = Some q -> neat None q) -> neat o (attempt p h).
Proof.
  intros H Hh. induction H; cbn [attempt]; try (constructor; auto; fail). destruct (h e) as [q|] eqn:E; [apply neat_any; eapply Hh, E|constructor].
Qed.
Lemma neat_of_result {A} o (r : result A) : neat o (of_result r).
Proof. destruct r; constructor. Qed.
Lemma neat_req o sub cmd d x : neat o (request sub cmd d x).
Proof. constructor. intro r. apply neat_of_result. Qed.
Lemma neat_field o r name : neat o (field r name).
Proof. unfold field. destruct (dict_get _ _); constructor. Qed.
Lemma neat_if {A} o (b : bool) (p q : prog A) : neat o p -> neat o q -> neat o (if b then p else q).
Proof. destruct b; auto. Qed.
Lemma neat_validate item sub cmd x : neat None (validate_item item sub cmd x).
Proof. unfold validate_item. apply neat_seq; [apply neat_req|intro]. apply neat_seq; [apply neat_field|intro]. apply neat_if; constructor. Qed.
(** inside: listening goes on *)
Lemma neat_listening {A} o m t (g : matcher * Z -> prog A) : for_zdo (m, t) -> neat (Some (m, t)) (g (m, t)) -> neat o (seq (listen m t) g).
Proof. intros Hz H. cbn [listen seq]. constructor; assumption. Qed.
Lemma neat_requesting {A} o sub cmd d x (g : zpi -> prog A) : (forall a, neat o (g a)) -> neat o (seq (request sub cmd d x) g).
Proof. intro H. cbn [request seq]. constructor. intros [a|e]; cbn [of_result seq]; [apply H|constructor]. Qed.
Lemma neat_spawning {A} o sub cmd d (g : unit -> prog A) : answered sub cmd d -> neat o (g tt) -> neat o (seq (spawn sub cmd d) g).
Proof. intros Ha H. cbn [spawn seq]. constructor; assumption. Qed.
Lemma neat_aw w : neat (Some w) (await w).
Proof. constructor. intro r. apply neat_of_result. Qed.

(** the two things the programs listen to *)
Definition row_state (c : cmd) : bool :=
  if String.eqb (c_name c) "stateChangeInd" then match c_request c with Some ps => ApiProofs.heads [("state", UINT8)] ps | None => true end else true.
Lemma state_known m : deliverable m -> z_type m = AREQ -> z_sub m = ZDO -> z_cmd m = "stateChangeInd" -> exists v, dict_get (z_payload m) "state" = Some v.
Proof.
  intros (f & (_ & Hb & _) & _ & Hf) Ht Hs Hn.
  destruct (decoded_inv (received f) m Hb Hf) as (cs & c & ps & n & pl & Hd & Hc & _ & Hsel & -> & Hw & Hnd). cbn [z_type z_sub z_cmd z_payload] in *.
  rewrite Ht in Hsel. rewrite Hs in Hd. injection Hd as <-. destruct Hsel as [[C _]|[_ Er]]; [discriminate C|].
  assert (K : forallb row_state def_ZDO = true) by (vm_compute; reflexivity). rewrite forallb_forall in K. specialize (K c Hc).
  unfold row_state in K. rewrite Hn, String.eqb_refl, Er in K. apply heads_ok in K as [rest ->].
  destruct (wire_get _ _ _ _ "state" UINT8 Hnd Hw) as (v & _ & _ & G & _); [left; reflexivity|]. eauto.
Qed.
Lemma zdo_started : for_zdo (mk_matcher AREQ ZDO "stateChangeInd" [("state", VInt 9)], 60000).
Proof.
  split; [reflexivity|]. split; [reflexivity|]. split; [discriminate|]. cbn [fst]. intros m Hm. unfold waiter_match. cbn [m_type m_sub m_cmd m_payload].
  destruct (ct_eqb_spec AREQ (z_type m)) as [E1|]; cbn [negb orb]; [|eauto]. destruct (sub_eqb_spec ZDO (z_sub m)) as [E2|]; cbn [negb orb]; [|eauto].
  destruct (String.eqb_spec "stateChangeInd" (z_cmd m)) as [E3|]; cbn [negb]; [|eauto].
  destruct (state_known m Hm) as [v Hv]; [congruence|congruence|congruence|]. cbn [match_payload]. unfold dict_getE. rewrite Hv. cbn [bind]. destruct (value_eqb _ _); eauto.
Qed.
Lemma zdo_endpoints : for_zdo (mk_matcher AREQ ZDO "activeEpRsp" [], 10000).
Proof.
  split; [reflexivity|]. split; [reflexivity|]. split; [discriminate|]. cbn [fst]. intros m _. unfold waiter_match. cbn [m_type m_sub m_cmd m_payload match_payload].
  destruct (_ || _); eauto.
Qed.
(** the two requests that are not awaited *)
Lemma frame_ok t s i d : byte_ok i -> bytes_ok d -> d <> [] -> (length d <= 255)%nat -> sendable (mk_frame t s i d None None) /\ f_data (mk_frame t s i d None None) <> [].
Proof. intros. split; [split; [assumption|]; split; assumption|assumption]. Qed.
Lemma answered_endpoints d : answered ZDO "activeEpReq" d.
Proof.
  exists (mk_zpi SRSP ZDO "activeEpReq" 5 [("status", VInt 0)] [("status", UINT8)] None). split.
  - split.
    + exists (mk_frame SRSP ZDO 5 [0] None None). destruct (frame_ok SRSP ZDO 5 [0]) as [H1 H2]; [split; [discriminate|reflexivity]|repeat constructor; discriminate|discriminate|cbn [length]; lia|].
      split; [exact H1|]. split; [exact H2|vm_compute; reflexivity].
    + eexists. split; [reflexivity|]. left. repeat split.
  - intros c [= <-]. left. reflexivity.
Qed.
Lemma answered_led d : answered UTIL "ledControl" d.
Proof.
  exists (mk_zpi SRSP UTIL "ledControl" 10 [("status", VInt 0)] [("status", UINT8)] None). split.
  - split.
    + exists (mk_frame SRSP UTIL 10 [0] None None). destruct (frame_ok SRSP UTIL 10 [0]) as [H1 H2]; [split; [discriminate|reflexivity]|repeat constructor; discriminate|discriminate|cbn [length]; lia|].
      split; [exact H1|]. split; [exact H2|vm_compute; reflexivity].
    + eexists. split; [reflexivity|]. left. repeat split.
  - intros c [= <-]. left. reflexivity.
Qed.

(** ** the programs *)
Ltac plainly := first [apply neat_ret|apply neat_raise|apply neat_req|apply neat_field|apply neat_validate|apply neat_of_result].
Ltac on t := apply neat_seq; [t|intro].
Ltac given := match goal with E : Some _ = Some ?q |- _ => apply some_eq in E; subst q | E : None = Some _ |- _ => discriminate E end.
Lemma neat_has_configured v : neat None (has_configured v).
Proof. unfold has_configured. apply neat_attempt; [on plainly; plainly|]. intros e q E. destruct e; given; plainly. Qed.
Lemma neat_needs_init v o : neat None (needs_init v o).
Proof.
  unfold needs_init. apply neat_attempt; [|intros e q E; destruct (is_assertion e); given; plainly].
  on plainly. on plainly. on plainly. on ltac:(apply neat_if; plainly). on idtac; [|plainly]. unfold validate_pan. apply neat_attempt; [on plainly; plainly|].
  intros e q E. destruct (is_assertion e); given. apply neat_if; [|plainly]. on plainly. on plainly. apply neat_if; plainly.
Qed.
Lemma neat_initialise v o : neat None (initialise v o).
Proof.
  unfold initialise, soft_reset, nv_write. do 9 (on plainly). on idtac.
  - apply neat_if.
    + do 3 (on plainly). apply neat_listening; [apply zdo_started|]. apply neat_requesting. intro. on idtac; [|plainly].
      unfold await_started. apply neat_attempt; [apply neat_aw|]. intros e q E. destruct e; given; plainly.
    + on plainly. plainly.
  - on plainly. on plainly. plainly.
Qed.
Lemma neat_boot : neat None StartZnp.boot.
Proof.
  unfold StartZnp.boot. on plainly. on plainly. apply neat_if; [plainly|]. apply neat_listening; [apply zdo_started|]. apply neat_requesting. intro. on ltac:(apply neat_aw). plainly.
Qed.
Lemma neat_register_loop active es : neat None (register_loop active es).
Proof. induction es as [|e es IH]; [plainly|]. cbn [register_loop]. on plainly. on idtac; [|exact IH]. apply neat_if; [plainly|]. on plainly. plainly. Qed.
Lemma neat_register : neat None register_endpoints.
Proof.
  unfold register_endpoints. apply neat_listening; [apply zdo_endpoints|]. apply neat_spawning; [apply answered_endpoints|]. on ltac:(apply neat_aw). apply neat_register_loop.
Qed.
Lemma neat_start v o g b : neat None (start_znp v o g b).
Proof.
  unfold start_znp. on ltac:(apply neat_has_configured). on idtac.
  { unfold configure. apply neat_if; [plainly|]. on ltac:(apply neat_needs_init). apply neat_if; [|plainly]. on ltac:(apply neat_initialise). plainly. }
  on ltac:(apply neat_boot). on ltac:(apply neat_register). on idtac.
  { unfold add_to_group. on plainly. on plainly. apply neat_if; [|plainly]. on plainly. plainly. }
  on idtac; [|plainly]. destruct a0; try plainly. unfold nv_write. on plainly. plainly.
Qed.
Lemma neat_form p c : neat None (form_network p c).
Proof.
  unfold form_network. on ltac:(apply neat_start). unfold switch_led. destruct (p =? zStack3x0); [on plainly; plainly|]. apply neat_spawning; [apply answered_led|plainly].
Qed.
Lemma neat_app auto c devs : neat None (app_startup auto c devs).
Proof.
  unfold app_startup. on idtac. { unfold ping. apply neat_attempt; [plainly|]. intros e q E. destruct e; given; plainly. }
  on ltac:(unfold ask_version; plainly). on plainly. on ltac:(unfold check_product; destruct a1; try plainly; apply neat_if; plainly). on idtac.
  - apply neat_if; [|plainly]. on ltac:(apply neat_form). plainly.
  - on idtac; [|destruct a4 as [[ieee nwk] devs']; plainly]. unfold coordinator. on plainly. on plainly. on plainly. destruct a5; try plainly; destruct a6; plainly.
Qed.

(** ** what the stick can bring about happens *)
Lemma rest_idle cap s : 0 <= cap -> reachable cap s -> at_rest s -> idle cap s.
Proof. intros Hc Hr (H1 & H2 & H3 & H4 & H5). split; [apply reachable_inv; assumption|]. rewrite H5. auto. Qed.
Lemma realised cap {A} (p : prog A) s tr f : 0 <= cap -> reachable cap s -> at_rest s -> neat None p -> only act_sendable p -> runs p tr f -> Forall can_come tr ->
  exists es, let h := hrun es (hosted p s) in acts h = tr /\ (f = Interrupted \/ ending h = f).
Proof.
  intros Hc Hr Hs Hn Ho R F. destruct (realise cap p tr f R None (hosted p s) Hn Ho F eq_refl (rest_idle cap s Hc Hr Hs) I) as (es & H). exists es. exact H.
Qed.
Lemma exactly cap {A} (p : prog A) s : 0 <= cap -> reachable cap s -> at_rest s -> neat None p -> only act_sendable p ->
  forall tr, Forall can_come tr ->
  ((exists es, acts (hrun es (hosted p s)) = tr) <-> exists f, runs p tr f) /\
  forall f, f <> Interrupted -> ((exists es, let h := hrun es (hosted p s) in acts h = tr /\ ending h = f) <-> runs p tr f).
Proof.
  intros Hc Hr Hs Hn Ho tr F. split.
  - split.
    + intros (es & <-). eexists. apply (host_runs cap). apply host_inv; assumption.
    + intros (f & R). destruct (realised cap p s tr f Hc Hr Hs Hn Ho R F) as (es & E & _). exists es. exact E.
  - intros f Hf. split.
    + intros (es & <- & <-). apply (host_runs cap). apply host_inv; assumption.
    + intro R. destruct (realised cap p s tr f Hc Hr Hs Hn Ho R F) as (es & E & [E2|E2]); [contradiction|]. exists es. auto.
Qed.
