(** * WholeBlind: start-up does not depend on the messages that end its waits *)
From Coq Require Import ZifyBool ZifyNat.
From Verif Require Import Base Types Uart Buffalo CmdTable Zpi Api App Machine Life World SpecMachine Nv StartZnp AppStart SpecStart Host SpecHost Whole SpecWhole WholeHost WholeProofs2.

Lemma like_refl a : like a a.
Proof. destruct a as [| |m [r|e]|]; reflexivity. Qed.
Lemma likes_refl l : Forall2 like l l.
Proof. induction l; constructor; [apply like_refl|assumption]. Qed.

(** Some message that the matcher accepts makes the program go on in the same way. *)
Inductive safe {A} : prog A -> Prop :=
| safe_ret a : safe (DRet a)
| safe_raise e : safe (DRaise e)
| safe_request sub cmd d x k : (forall r, safe (k r)) -> safe (DRequest sub cmd d x k)
| safe_listen m t k : safe (k (m, t)) -> safe (DListen m t k)
| safe_await w k : (forall r, safe (k r)) -> (forall y, exists y', waiter_match (fst w) y' = Ok true /\ k (Ok y') = k (Ok y)) -> safe (DAwait w k)
| safe_spawn sub cmd d k : safe k -> safe (DSpawn sub cmd d k).
Lemma safe_seq {A B} (m : prog A) (f : A -> prog B) : safe m -> (forall a, safe (f a)) -> safe (StartZnp.seq m f).
Proof.
  intros H F. induction H; cbn [StartZnp.seq]; try (constructor; auto; fail); [apply F|].
  constructor; [auto|]. intro y. destruct (H1 y) as (y' & M & E). exists y'. split; [exact M|]. rewrite E. reflexivity.
Qed.
Lemma safe_attempt {A} (m : prog A) h : safe m -> (forall e q, h e = Some q -> safe q) -> safe (attempt m h).
Proof.
  intros H F. induction H; cbn [attempt]; try (constructor; auto; fail).
  - destruct (h e) eqn:E; [eapply F, E|constructor].
  - constructor; [auto|]. intro y. destruct (H1 y) as (y' & M & E). exists y'. split; [exact M|]. rewrite E. reflexivity.
Qed.
Lemma safe_runs {A} (p : prog A) tr f : goes p tr f -> safe p -> exists tr', Forall2 like tr tr' /\ runs p tr' f.
Proof.
  induction 1 as [p|a|e|sub cmd d x k|sub cmd d x k r tr f P _ IH|m t k tr f _ IH|m t k r tr f N _ IH|sub cmd d k tr f _ IH]; intro S;
    try (exists []; split; constructor; fail).
  - eexists. split; [apply likes_refl|constructor].
  - inversion S as [| |? ? ? ? ? K| | |]; subst. destruct (IH (K r)) as (tr' & L & R). eexists. split; [constructor; [apply like_refl|exact L]|]. constructor; assumption.
  - inversion S as [| | |? ? ? K| |]; subst. destruct (IH K) as (tr' & L & R). eexists. split; [constructor; [apply like_refl|exact L]|]. constructor; assumption.
  - inversion S as [| | | |? ? K W|]; subst. destruct (IH (K r)) as (tr' & L & R). destruct r as [y|e].
    + destruct (W y) as (y' & M & E). exists (AAwait m (Ok y') :: tr'). split; [constructor; [reflexivity|exact L]|]. constructor; [exact M|rewrite E; exact R].
    + exists (AAwait m (Err e) :: tr'). split; [constructor; [reflexivity|exact L]|]. constructor; [|exact R]. cbn [indication_possible]. congruence.
  - inversion S as [| | | | |? ? ? ? K]; subst. destruct (IH K) as (tr' & L & R). eexists. split; [constructor; [apply like_refl|exact L]|]. constructor; assumption.
Qed.

(** ** the programs *)
Lemma safe_of_result {A} (r : result A) : safe (of_result r).
Proof. destruct r; constructor. Qed.
Lemma safe_req sub cmd d x : safe (request sub cmd d x).
Proof. constructor. intro r. apply safe_of_result. Qed.
Lemma safe_field m n : safe (field m n).
Proof. unfold field. destruct (dict_get _ n); constructor. Qed.
Lemma safe_validate i sub cmd x : safe (validate_item i sub cmd x).
Proof.
  unfold validate_item. apply safe_seq; [apply safe_req|]. intro m. apply safe_seq; [apply safe_field|]. intro v. destruct (value_eqb v _); constructor.
Qed.
Lemma safe_then {A B} (p : prog A) (q : prog B) : safe p -> safe q -> safe (p;; q).
Proof. intros P Q. apply safe_seq; [exact P|intros _; exact Q]. Qed.
Lemma safe_pan v o : safe (validate_pan v o).
Proof.
  unfold validate_pan. apply safe_attempt; [apply safe_then; apply safe_validate|]. intros e q. destruct (is_assertion e); [|discriminate]. intro E.
  apply (f_equal (fun x => match x with Some y => y | None => q end)) in E. cbv beta iota in E. rewrite <- E. destruct (stack3 v); [|constructor]. apply safe_seq; [apply safe_req|]. intro m. apply safe_seq; [apply safe_field|]. intro y. destruct (value_eqb y _); constructor.
Qed.
Lemma safe_needs v o : safe (needs_init v o).
Proof.
  unfold needs_init. apply safe_attempt; [repeat (apply safe_then; [first [apply safe_validate|apply safe_pan|destruct (v =? zStack3x0); apply safe_validate]|]); constructor|].
  intros e q. destruct (is_assertion e); [|discriminate]. intros [= <-]. constructor.
Qed.
Lemma safe_has v : safe (has_configured v).
Proof. unfold has_configured. apply safe_attempt; [apply safe_then; [apply safe_validate|constructor]|]. intros e q. destruct e; try discriminate; intros [= <-]; constructor. Qed.
(** a message that says that the coordinator has started *)
Definition started_ind : zpi := mk_zpi AREQ ZDO "stateChangeInd" 192 [("state", VInt 9)] [] None.
Lemma started_matches : waiter_match (mk_matcher AREQ ZDO "stateChangeInd" [("state", VInt 9)]) started_ind = Ok true.
Proof. reflexivity. Qed.
(** waiting for it, and looking at no more *)
Lemma safe_started {A B} (q : prog A) (s : matcher * Z -> prog zpi) (r : prog B) : safe q -> safe r ->
  (s = await \/ s = await_started) ->
  safe (let! started := listen (mk_matcher AREQ ZDO "stateChangeInd" [("state", VInt 9)]) 60000 in q;; s started;; r).
Proof.
  intros Q R S. unfold listen. cbn [StartZnp.seq]. constructor. apply safe_then; [exact Q|]. destruct S as [E|E]; rewrite E; clear E; unfold await_started, await; cbn [attempt StartZnp.seq]; constructor.
  - intros [y|e]; cbn [of_result StartZnp.seq]; [exact R|constructor].
  - intro y. exists started_ind. split; [exact started_matches|reflexivity].
  - intros [y|e]; cbn [of_result attempt StartZnp.seq]; [exact R|]. destruct e; cbn [StartZnp.seq]; constructor.
  - intro y. exists started_ind. split; [exact started_matches|reflexivity].
Qed.
Lemma safe_boot : safe StartZnp.boot.
Proof.
  unfold StartZnp.boot. apply safe_seq; [apply safe_req|]. intro m. apply safe_seq; [apply safe_field|]. intro v. destruct (value_eqb v _); [constructor|].
  apply safe_started; [apply safe_req|constructor|left; reflexivity].
Qed.
Lemma safe_initialise v o : safe (initialise v o).
Proof.
  unfold initialise, soft_reset, nv_write. repeat (apply safe_then; [apply safe_req|]). apply safe_then; [|repeat (apply safe_then; [apply safe_req|]); constructor].
  destruct (stack3 v); repeat (apply safe_then; [apply safe_req|]); [|apply safe_req]. apply safe_started; [apply safe_req|apply safe_req|right; reflexivity].
Qed.
Lemma register_same y y' es : dict_get (z_payload y) "activeeplist" = dict_get (z_payload y') "activeeplist" -> register_loop y es = register_loop y' es.
Proof. intro E. induction es as [|e es IH]; [reflexivity|]. cbn [register_loop]. rewrite IH. unfold field. rewrite E. reflexivity. Qed.
Lemma safe_loop y es : safe (register_loop y es).
Proof.
  induction es as [|e es IH]; [constructor|]. cbn [register_loop]. apply safe_seq; [apply safe_field|]. intro v. apply safe_then; [|exact IH].
  destruct (is_in _ v); [constructor|]. apply safe_then; [apply safe_req|constructor].
Qed.
Lemma safe_register : safe register_endpoints.
Proof.
  unfold register_endpoints, listen, StartZnp.spawn, await. cbn [StartZnp.seq]. constructor. constructor. constructor.
  - intros [y|e]; cbn [of_result StartZnp.seq]; [apply safe_loop|constructor].
  - intro y. cbn [of_result StartZnp.seq fst]. exists (mk_zpi AREQ ZDO "activeEpRsp" 133 (z_payload y) [] None). split; [reflexivity|]. apply register_same. reflexivity.
Qed.
Lemma safe_group e g : safe (add_to_group e g).
Proof.
  unfold add_to_group. apply safe_seq; [apply safe_req|]. intro m. apply safe_seq; [apply safe_field|]. intro v. destruct (value_eqb v _); [|constructor].
  apply safe_then; [apply safe_req|constructor].
Qed.
Lemma safe_start v o g b : safe (start_znp v o g b).
Proof.
  unfold start_znp. apply safe_seq; [apply safe_has|]. intro configured. apply safe_seq.
  - unfold configure. destruct (b && negb configured); [constructor|]. apply safe_seq; [apply safe_needs|]. intros [|]; [|constructor]. apply safe_then; [apply safe_initialise|constructor].
  - intro r. apply safe_then; [apply safe_boot|]. apply safe_then; [apply safe_register|]. apply safe_then; [apply safe_group|]. apply safe_then; [|constructor].
    destruct r; [constructor| |constructor]. apply safe_then; [apply safe_req|constructor].
Qed.
Lemma safe_ping : safe part_ping.
Proof. unfold part_ping, ping. apply safe_then; [|constructor]. apply safe_attempt; [apply safe_req|]. intros e q. destruct e; try discriminate. intros [= <-]. constructor. Qed.
Lemma safe_version : safe part_version.
Proof. unfold part_version, ask_version. apply safe_seq; [apply safe_req|]. intro m. apply safe_seq; [apply safe_field|]. intro v. destruct v; constructor. Qed.
Lemma safe_form p c : safe (part_form p c).
Proof. unfold part_form. apply safe_seq; [apply safe_start|]. intro r. constructor. Qed.
Lemma safe_device : safe part_device.
Proof.
  unfold part_device. apply safe_seq; [apply safe_req|]. intro m. apply safe_seq; [apply safe_field|]. intro v. apply safe_seq; [apply safe_field|]. intro y.
  destruct v; try constructor; destruct y; constructor.
Qed.
