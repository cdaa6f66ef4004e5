(** * WholeProofs6: every frame has an author, and only forming start-ups change the stick *)
From Coq Require Import ZifyBool ZifyNat.
From Verif Require Import Base Types Uart Buffalo CmdTable Zpi Api App Machine Life World SpecWire SpecMachine SpecLife SpecWorld
  UartProofs MachineBase MachineInv MachineInv2 MachineInv4 WorldInv WorldBase WorldLife WorldProofs2 Nv StartZnp AppStart SpecStart SpecAppStart Host SpecHost HostProofs HostProofs2 Whole WholeHost WholeBase WorldOwn
  StartProofs AppStartProofs WholeBlind WholeProofs WholeProofs2 SpecWhole WholeProofs3 WholeProofs4 WholeOwn.

(** ** the head of a frame *)
Lemma frame_head z bs : frame_bytes z bs -> nth 2 bs 0 = 32 * type_code (z_type z) + sub_code (z_sub z) /\ nth 3 bs 0 = z_id z.
Proof.
  intros (f & F & B). unfold to_unpi_frame in F. destruct (write_params (z_params z) (z_payload z)) as [data|]; [|discriminate F]. cbn [bind] in F. injection F as <-.
  unfold to_buffer in B. rewrite cmd0_value in B. cbn [f_type f_sub f_id f_data] in B. unfold py_bytes in B at 1. destruct (forallb _ _); [|discriminate B]. cbn [bind] in B.
  destruct (py_bytes [_]) as [t|]; [|discriminate B]. cbn [bind] in B. injection B as <-. cbn [app nth]. split; [|reflexivity]. destruct (z_type z), (z_sub z); reflexivity.
Qed.
Lemma wire_head ct sub id data : nth 2 (wire ct sub id data) 0 = 32 * ct + sub /\ nth 3 (wire ct sub id data) 0 = id.
Proof. split; reflexivity. Qed.
Definition changes (bs : list Z) : Prop := exists ct sub id data, In (ct, sub, id) changing /\ bs = wire ct sub id data.
Lemma changes_head bs : changes bs -> nth 2 bs 0 = 33 /\ (nth 3 bs 0 = 7 \/ nth 3 bs 0 = 9) \/ nth 2 bs 0 = 38 \/ nth 2 bs 0 = 65.
Proof.
  intros (ct & sub & id & data & H & ->). destruct (wire_head ct sub id data) as [-> ->]. unfold changing in H. cbn [In] in H.
  repeat (destruct H as [H|H]; [injection H as <- <- <-; lia|]). contradiction.
Qed.
Lemma cluster_sub nwk profile cluster se de sq data radius mode z : from_cluster nwk profile cluster se de sq data radius mode = Ok z -> z_sub z = AF \/ z_sub z = ZDO.
Proof.
  unfold from_cluster. cbv zeta. intro H. destruct (definition _) as [cs|]; [|discriminate H]. cbn [bind] in H. destruct (next_cmd _ cs) as [c|]; [|discriminate H]. cbn [bind] in H.
  destruct (select_params _ c) as [ps|]; [|discriminate H]. cbn [bind] in H. match type of H with bind ?d _ = _ => destruct d as [d0|] end; [|discriminate H]. cbn [bind] in H.
  injection H as <-. cbn [z_sub]. destruct (profile =? ZHA_PROFILE); auto.
Qed.
Lemma coroutine_ok {A} (r : result A) z : in_coroutine r = Ok z -> r = Ok z.
Proof. destruct r as [|[]]; cbn [in_coroutine]; congruence. Qed.
Lemma built_sub j z : uses_sem j = true -> build j = Ok z -> z_sub z = AF \/ z_sub z = ZDO.
Proof.
  destruct j; try discriminate; intros _; cbn [build]; unfold build_request, build_mrequest, build_broadcast, build_permit; intro H.
  - apply coroutine_ok in H. eapply cluster_sub, H.
  - apply coroutine_ok in H. eapply cluster_sub, H.
  - apply coroutine_ok in H. eapply cluster_sub, H.
  - destruct (_ && _); [|discriminate H]. apply coroutine_ok in H. unfold from_command in H. destruct (definition ZDO) as [cs|]; [|discriminate H]. cbn [bind] in H.
    destruct (next_cmd _ cs) as [c|]; [|discriminate H]. cbn [bind] in H. destruct (select_params _ c); [|discriminate H]. cbn [bind] in H. injection H as <-. auto.
Qed.
Lemma led_frame mode z bs : from_command UTIL "ledControl" (led_payload mode) = Ok z -> frame_bytes z bs -> 0 <= mode <= 255 /\ bs = wire 1 7 10 [3; mode].
Proof.
  intros F (f & W & B). vm_compute in F. injection F as <-. unfold to_unpi_frame in W. cbn [z_params z_payload z_type z_sub z_id] in W.
  destruct (Z_le_dec 0 mode) as [L0|L0]; [destruct (Z_le_dec mode 255) as [L1|L1]|].
  - split; [lia|]. match type of W with bind ?d _ = _ => assert (E : d = Ok [3; mode]) end.
    { cbn. unfold to_bytes. cbn. rewrite !Z.mod_small by lia. destruct (_ && _) eqn:K; [reflexivity|lia]. }
    rewrite E in W. cbn [bind] in W. injection W as <-. rewrite to_buffer_wire in B; [injection B as <-; reflexivity|]. repeat split; cbn [f_id f_data length]; try lia. constructor; [split; lia|]. constructor; [split; lia|constructor].
  - exfalso. revert W. cbn. unfold to_bytes. cbn. destruct (_ && _) eqn:K; [lia|discriminate].
  - exfalso. revert W. cbn. unfold to_bytes. cbn. destruct (_ && _) eqn:K; [lia|discriminate].
Qed.
(** ** the author *)
Lemma frame_author c x a u at_ bs : xreachable c x -> In (OWritten u at_ bs) (history (x_world x) a) ->
  (exists t auto ds y, attempted x t auto ds /\ In (a, u, y) ds) \/
  (exists n o z, nth_error (w_ops (x_world x)) n = Some o /\ build (op_job o) = Ok z /\ frame_bytes z bs) \/
  (exists mode, 0 <= mode <= 255 /\ bs = wire 1 7 10 [3; mode]).
Proof.
  intros R H. pose proof (owned_reachable c x R) as O. pose proof (I_world c x (xreach_inv c x R)) as Rw. unfold history in H.
  destruct (nth_error (w_apis (x_world x)) a) as [s|] eqn:A; [|contradiction]. pose proof (proj2 (proj2 (wreach_good _ Rw)) a s A) as V.
  destruct (V_wrote _ V) as [_ W]. destruct (W u at_ bs H) as (_ & k & z & G & B & Ty & Fb). destruct (V_tids s V) as [_ T]. specialize (T u k G).
  destruct (O a u) as [(s' & j & A' & (k' & G' & J) & Hj)|D]; [unfold tasks_of; rewrite A; exact T| |left; destruct D as (t & auto & ds & y & D1 & D2 & _); eauto 6].
  assert (s' = s) by congruence. subst s'. assert (k' = k) by congruence. subst k'. rewrite J in B. right.
  destruct Hj as [(n & o & obj & Go & Bo & ->)|(mode & ->)].
  - left. exists n, o, obj. split; [exact Go|]. split; [exact Bo|]. cbn [build] in B. injection B as ->. exact Fb.
  - right. exists mode. cbn [build] in B. apply coroutine_ok in B. eapply led_frame; eassumption.
Qed.
Lemma version_acts_frame y bs : (exists r, y = ping_act r \/ y = version_act r \/ y = info_act r) ->
  match y with ARequest sub cmd d _ _ | ASpawn sub cmd d => exists o, from_command sub cmd d = Ok o /\ frame_bytes o bs | _ => False end -> ~ changes bs.
Proof.
  intros (r & E) H C. apply changes_head in C.
  assert (Q : forall sub cmd d z, from_command sub cmd d = Ok z -> frame_bytes z bs ->
    nth 2 bs 0 = 32 * type_code (z_type z) + sub_code (z_sub z) /\ nth 3 bs 0 = z_id z) by (intros; apply frame_head; assumption).
  destruct E as [->|[->| ->]]; destruct H as (z & F & B); pose proof (Q _ _ _ _ F B) as [E1 E2]; vm_compute in F; injection F as <-; cbn [z_type z_sub z_id type_code sub_code] in E1, E2; lia.
Qed.
Lemma only_forming c x a u at_ bs : xreachable c x -> In (OWritten u at_ bs) (history (x_world x) a) -> changes bs -> exists t ds y, attempted x t true ds /\ In (a, u, y) ds.
Proof.
  intros R H C. pose proof (I_world c x (xreach_inv c x R)) as Rw. destruct (frame_author c x a u at_ bs R H) as [(t & auto & ds & y & T & Hi)|[(n & o & z & Go & B & F)|(mode & _ & ->)]].
  - destruct auto; [eauto|exfalso]. pose proof (attempted_shape c x t false ds R T) as Sh. pose proof (shape_legs _ _ _ _ _ _ _ Sh Hi) as Lg.
    destruct (some_evidence _ _ _ _ _ _ _ Lg) as (s & A & (j & J1 & J2) & _). rewrite (history_of _ _ _ A) in H.
    pose proof (job_wrote s u y j at_ bs (proj2 (proj2 (wreach_good _ Rw)) a s A) J1 J2 H) as K.
    destruct Lg as [(p & l & pl & ws & L & Hil & Inc & P)|(s' & -> & _)].
    + destruct P as [P|(v & Ev & _)]; [|discriminate Ev].
      assert (S : safe p) by (destruct P as [->|[->| ->]]; [apply safe_ping|apply safe_version|apply safe_device]).
      destruct (leg_run _ _ _ _ _ _ L S) as (tr & Lt & Rt). destruct (likes_in _ _ y Lt) as (y' & Hy & Ly); [apply in_map_iff; exists (u, y); auto|].
      destruct (version_acts p tr _ P Rt y' Hy) as (r & E). assert (y = y') as <- by (destruct E as [E|[E|E]]; subst y'; apply like_request in Ly; exact Ly).
      eapply (version_acts_frame y bs); [exists r; exact E|exact K|exact C].
    + destruct K as (z & F & B). destruct (led_frame _ z bs F B) as [_ ->]. apply changes_head in C. cbn in C. lia.
  - exfalso. apply changes_head in C. destruct (frame_head _ _ F) as [E _]. pose proof (proj1 (proj2 (wreach_good _ Rw)) n o Go) as (Us & _).
    destruct (built_sub _ _ Us B) as [S|S]; rewrite S in E; destruct (z_type z); cbn [type_code sub_code] in E; lia.
  - exfalso. apply changes_head in C. cbn in C. lia.
Qed.
(** so the mark comes last on every link *)
Lemma marker_changes v e bs : In bs (item_frames (marker v) e) -> changes bs.
Proof. intros [<-|[<-|[]]]; eexists _, _, _, _; (split; [|reflexivity]); unfold changing; cbn [In]; auto. Qed.
Lemma marker_last_anyone c x a u at_ bs la lb v e : valid_config c -> xreachable c x ->
  history (x_world x) a = la ++ OWritten u at_ bs :: lb -> In bs (item_frames (marker v) e) ->
  e = set_mark /\ exists t ds, attempted x t true ds /\ (exists y, In (a, u, y) ds) /\
  forall i b, In (i, b) (settings v (network_options c)) -> exists u' y' at' bs' lb' m,
    In (a, u', y') ds /\ In bs' (item_frames i b) /\ outstanding u' at' bs' lb' la /\ In (OReceived m) lb' /\ stored_ok m.
Proof.
  intros V R El Hb. assert (H : In (OWritten u at_ bs) (history (x_world x) a)) by (rewrite El; apply in_or_app; right; left; reflexivity).
  destruct (only_forming c x a u at_ bs R H (marker_changes _ _ _ Hb)) as (t & ds & y & T & Hi).
  destruct (marker_last_attempt c x t true ds a u y at_ bs la lb v e V R T Hi El Hb) as [He Hs]. split; [exact He|]. exists t, ds. split; [exact T|]. split; [eauto|exact Hs].
Qed.
