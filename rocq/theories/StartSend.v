(** * StartSend: every request of the start-up program can be encoded *)
From Coq Require Import ZifyBool ZifyNat.
From Verif Require Import Base Types Uart Buffalo CmdTable Zpi Api SpecWire SpecCodec SpecMachine Nv StartZnp SpecStart
  StartProofs StartProofs2 StartProofs3 StartProofs4 StartProofs5.

(** requests that get an answer *)
Definition answered_kind (o : zpi) : bool := match z_type o with SREQ => true | AREQ => is_reset_command o | _ => false end.
(** [sub cmd d] is a known command whose frame can be written *)
Definition can_send (sub : subsystem) (cmd : string) (d : payload) : Prop :=
  exists o f, from_command sub cmd d = Ok o /\ answered_kind o = true /\ to_unpi_frame o = Ok f /\ sendable f /\ (length (f_data f) <= 250)%nat.
Definition act_sendable (a : act) : Prop :=
  match a with ARequest sub cmd d _ _ | ASpawn sub cmd d => can_send sub cmd d | _ => True end.

Lemma wp_nil d : write_params [] d = Ok [].
Proof. reflexivity. Qed.
Lemma wp_cons n t ps d v a b : dict_get d n = Some v -> write_parameter t v = Ok a -> write_params ps d = Ok b ->
  write_params ((n, t) :: ps) d = Ok (a ++ b).
Proof. intros H1 H2 H3. cbn [write_params]. unfold dict_getE. rewrite H1. cbn [bind]. rewrite H2. cbn [bind]. rewrite H3. reflexivity. Qed.
Lemma wu2 z : 0 <= z < 65536 -> write_parameter UINT16 (VInt z) = Ok (le_bytes 2 z).
Proof. intro H. cbn [write_parameter write]. unfold to_bytes. change (256 ^ Z.of_nat 2) with 65536. replace ((0 <=? z) && (z <? 65536)) with true by lia. reflexivity. Qed.
Lemma wu4 z : 0 <= z < 4294967296 -> write_parameter UINT32 (VInt z) = Ok (le_bytes 4 z).
Proof. intro H. cbn [write_parameter write]. unfold to_bytes. change (256 ^ Z.of_nat 4) with 4294967296. replace ((0 <=? z) && (z <? 4294967296)) with true by lia. reflexivity. Qed.
Lemma le_bytes_ok n : forall z, bytes_ok (le_bytes n z) /\ length (le_bytes n z) = n.
Proof.
  induction n as [|n IH]; intro z; cbn [le_bytes]; [split; [constructor|reflexivity]|]. destruct (IH (z / 256)) as [H1 H2].
  split; [constructor; [unfold byte_ok; apply Z.mod_pos_bound; lia|exact H1]|cbn [length]; lia].
Qed.
Lemma can_send_of sub cmd d o data : from_command sub cmd d = Ok o -> write_params (z_params o) (z_payload o) = Ok data ->
  answered_kind o = true /\ byte_ok (z_id o) -> bytes_ok data -> (length data <= 250)%nat -> can_send sub cmd d.
Proof.
  intros H1 H2 [H0 H3] H4 H5. exists o, (mk_frame (z_type o) (z_sub o) (z_id o) data None None).
  split; [exact H1|]. split; [exact H0|]. split; [unfold to_unpi_frame; rewrite H2; reflexivity|]. cbn [f_data]. split; [|exact H5].
  unfold sendable. cbn [f_id f_data]. repeat split; try assumption; try apply H3. lia.
Qed.
Ltac params := cbn [z_params z_payload]; repeat first [apply wp_nil|eapply wp_cons; [reflexivity|first [reflexivity|apply wu2|apply wu4]|]].
Ltac small := unfold bytes_ok in *; repeat first [assumption|apply Forall_nil|apply Forall_app; split|apply (proj1 (le_bytes_ok _ _))|apply Forall_cons; [unfold byte_ok; lia|]].
Lemma item_sendable i l b : 0 <= i < 65536 -> 0 <= l < 256 -> bytes_ok b -> (length b <= 200)%nat ->
  forall d, dict_get d "id" = Some (VInt i) -> dict_get d "offset" = Some (VInt 0) -> dict_get d "len" = Some (VInt l) -> dict_get d "value" = Some (VBytes b) ->
  can_send SYS "osalNvWrite" d /\ can_send SYS "osalNvRead" d.
Proof.
  intros Hi Hl Hb Hlen d E1 E2 E3 E4.
  assert (W1 : write_parameter UINT8 (VInt l) = Ok [l]).
  { cbn [write_parameter write]. unfold to_bytes. change (256 ^ Z.of_nat 1) with 256. replace ((0 <=? l) && (l <? 256)) with true by lia.
    cbn [le_bytes]. rewrite Z.mod_small by lia. reflexivity. }
  split; (eapply can_send_of; [reflexivity| | | |]; [cbn [z_params z_payload]; repeat first [apply wp_nil|eapply wp_cons; [eassumption|first [exact W1|reflexivity|apply wu2; exact Hi]|]]|split; [reflexivity|vm_compute; split; [discriminate|reflexivity]]|small|]);
    rewrite ?app_length; cbn [length]; rewrite ?(proj2 (le_bytes_ok _ _)); lia.
Qed.

Ltac sends := eapply can_send_of; [reflexivity|params|split; [reflexivity|vm_compute; split; [discriminate|reflexivity]]|small|].
Ltac fits := rewrite ?app_length; cbn [length]; rewrite ?(proj2 (le_bytes_ok _ _)); lia.
Definition item_ok (d : payload) : Prop := can_send SYS "osalNvWrite" d /\ can_send SYS "osalNvRead" d.
Lemma items_sendable v o : wf_options o ->
  item_ok (item_startup 2) /\ item_ok (item_logical 0) /\ item_ok (item_distribute (o_distribute o)) /\
  item_ok item_direct_cb /\ item_ok (item_channels (o_channels o)) /\ item_ok (item_pan (o_pan o)) /\
  item_ok (item_ext (o_ext o)) /\ item_ok (item_configured (version_of v)) /\ item_ok (item_key (o_key o)) /\
  can_send SAPI "readConfiguration" (item_key (o_key o)) /\ can_send SAPI "writeConfiguration" (item_key (o_key o)) /\
  can_send SYS "osalNvItemInit" (item_configured_init (version_of v)) /\ item_ok item_tc_link_key.
Proof.
  intros (Hk & Hkb & Hp & He & Heb & Hc).
  assert (Bd : forall b : bool, bytes_ok [if b then 1 else 0]) by (intros []; repeat constructor; discriminate).
  assert (Bp : bytes_ok [Z.land (o_pan o) 255; Z.land (Z.shiftr (o_pan o) 8) 255]) by (rewrite pan_bytes by exact Hp; apply le2_range, Hp).
  assert (Bc : bytes_ok [Z.land (o_channels o) 255; Z.land (Z.shiftr (o_channels o) 8) 255; Z.land (Z.shiftr (o_channels o) 16) 255; Z.land (Z.shiftr (o_channels o) 24) 255])
    by (rewrite channel_bytes by exact Hc; apply le4_range, Hc).
  split; [eapply item_sendable; try reflexivity; first [split; [discriminate|reflexivity]|repeat constructor; discriminate|cbn [length]; lia]|].
  split; [eapply item_sendable; try reflexivity; first [split; [discriminate|reflexivity]|repeat constructor; discriminate|cbn [length]; lia]|].
  split; [eapply item_sendable; try reflexivity; first [split; [discriminate|reflexivity]|apply Bd|cbn [length]; lia]|].
  split; [eapply item_sendable; try reflexivity; first [split; [discriminate|reflexivity]|repeat constructor; discriminate|cbn [length]; lia]|].
  split; [eapply item_sendable; try reflexivity; first [split; [discriminate|reflexivity]|exact Bc|cbn [length]; lia]|].
  split; [eapply item_sendable; try reflexivity; first [split; [discriminate|reflexivity]|exact Bp|cbn [length]; lia]|].
  split; [eapply item_sendable; try reflexivity; first [split; [discriminate|reflexivity]|exact Heb|lia]|].
  split; [destruct v; eapply item_sendable; try reflexivity; first [split; [discriminate|reflexivity]|repeat constructor; discriminate|cbn [length]; lia]|].
  split; [eapply item_sendable; try reflexivity; first [split; [discriminate|reflexivity]|exact Hkb|lia]|].
  split; [sends; fits|].
  split; [sends; fits|].
  split; [destruct v; sends; fits|].
  eapply item_sendable; try reflexivity; first [split; [discriminate|reflexivity]|repeat constructor; discriminate|cbn [length]; lia].
Qed.

Lemma only_send sub cmd d x : can_send sub cmd d -> only act_sendable (request sub cmd d x).
Proof. intro H. apply only_request. intro r. exact H. Qed.
Lemma only_check item sub cmd x : can_send sub cmd item -> only act_sendable (validate_item item sub cmd x).
Proof. intro H. unfold validate_item. apply only_seq; [apply only_send, H|intro]. apply only_seq; [apply only_field|intro]. destruct (value_eqb _ _); [apply only_ret|apply only_raise]. Qed.

Ltac good := first
  [ apply only_ret | apply only_raise | apply only_field | apply only_listen; exact I | apply only_await; intro; exact I
  | apply only_send; sends; fits ].
Lemma endpoints_sendable e : In e endpoints -> can_send AF "register" (ep_vars e).
Proof.
  unfold endpoints. cbn [In]. intro H. repeat (destruct H as [<-|H]; [eapply can_send_of; [reflexivity|cbn [z_params z_payload]; repeat first [apply wp_nil|eapply wp_cons; [reflexivity|reflexivity|]]|split; [reflexivity|vm_compute; split; [discriminate|reflexivity]]|vm_compute; repeat constructor; discriminate|vm_compute; repeat constructor]|]).
  contradiction.
Qed.

Lemma start_sendable v o g b : wf_options o -> 0 <= g < 65536 -> only act_sendable (start_znp (version_of v) o g b).
Proof.
  intros Hwf Hg. pose proof Hwf as (Hk & Hkb & Hp & He & Heb & Hc).
  destruct (items_sendable v o Hwf) as (H1 & H2 & H3 & H4 & H5 & H6 & H7 & H8 & H9 & H10 & H11 & H12 & H13).
  rewrite start_eq.
  next idtac.
  { unfold has_configured. apply only_attempt.
    - next ltac:(apply only_check, H8). good.
    - intros e q E. destruct e; try discriminate E; injection E as <-; good. }
  next idtac.
  { unfold configure. destruct (b && negb a); [good|]. next idtac.
    - unfold needs_init. apply only_attempt.
      + next ltac:(apply only_check, H8). next ltac:(apply only_check, H5). next ltac:(apply only_check, H3).
        next ltac:(destruct (version_of v =? zStack3x0); apply only_check; [apply H9|apply H10]). next idtac; [|good].
        unfold validate_pan. apply only_attempt.
        * next ltac:(apply only_check, H6). apply only_check, H7.
        * intros e q E. destruct (is_assertion e); [|discriminate E].
          match type of E with Some ?x = Some ?y => assert (Eq : y = x) by congruence; subst y end.
          destruct (stack3 (version_of v)); [|good]. next ltac:(apply only_send, H6). next good. destruct (value_eqb _ _); good.
      + intros e q E. destruct (is_assertion e); [injection E as <-; good|discriminate E].
    - destruct a0; [|good]. next idtac; [|good]. unfold initialise, nv_write, soft_reset.
      next good. next ltac:(apply only_send, H1). next good. next ltac:(apply only_send, H2). next ltac:(apply only_send, H3).
      next ltac:(apply only_send, H4). next ltac:(apply only_send, H5). next ltac:(apply only_send, H6). next ltac:(apply only_send, H7).
      next idtac.
      + rewrite stack3_version. destruct v.
        * next ltac:(apply only_send, H11). apply only_send, H13.
        * next ltac:(apply only_send, H9). next ltac:(apply only_send; sends; [exact Hc|fits]). next good. next good. next good. next idtac; [|good].
          unfold await_started. apply only_attempt; [good|]. intros e q E. destruct e; try discriminate E; injection E as <-; good.
        * next ltac:(apply only_send, H9). next ltac:(apply only_send; sends; [exact Hc|fits]). next good. next good. next good. next idtac; [|good].
          unfold await_started. apply only_attempt; [good|]. intros e q E. destruct e; try discriminate E; injection E as <-; good.
      + next ltac:(apply only_send, H12). next ltac:(apply only_send, H8). good. }
  unfold rest.
  next idtac. { unfold boot. next good. next good. destruct (value_eqb _ _); [good|]. next good. next good. next good. good. }
  next idtac. { unfold register_endpoints. next good. next ltac:(apply only_spawn; cbn [act_sendable]; sends; fits). next good. apply register_loop_only. intros e r Hin. cbn [act_sendable]. apply endpoints_sendable, Hin. }
  next idtac. { unfold add_to_group. next ltac:(apply only_send; sends; [exact Hg|fits]). next good. destruct (value_eqb _ _); [|good]. next ltac:(apply only_send; sends; [exact Hg|fits]). good. }
  next idtac; [|good]. destruct a0; try good. next ltac:(apply only_send, H5). good.
Qed.

Lemma startup_answered v o g b tr f sub cmd d x r : wf_options o -> 0 <= g < 65536 -> runs (start_znp (version_of v) o g b) tr f ->
  In (ARequest sub cmd d x r) tr -> forall z, from_command sub cmd d = Ok z -> z_type z = SREQ \/ z_type z = AREQ /\ resets z.
Proof.
  intros Hw Hg R K z E. pose proof (start_sendable v o g b Hw Hg tr f R) as F. rewrite Forall_forall in F.
  destruct (F _ K) as (o' & f' & E' & A & _). rewrite E in E'. injection E' as <-. unfold answered_kind in A.
  destruct (z_type z); try discriminate A; auto. right. split; [reflexivity|].
  unfold is_reset_command in A. rewrite orb_true_iff, !andb_true_iff, !String.eqb_eq in A. unfold resets.
  destruct A as [[A B]|[A B]]; destruct (z_sub z); try discriminate B; auto.
Qed.
