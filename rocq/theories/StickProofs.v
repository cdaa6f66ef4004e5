(** * StickProofs: the stick reads exactly the requests *)
From Coq Require Import ZifyBool ZifyNat.
From Verif Require Import Base Types Uart Buffalo CmdTable Zpi Api App Machine Life World Port SpecWire SpecCodec SpecApi SpecMachine SpecWorld SpecStick
  UartProofs UartProofs2 CodecProofs CodecProofs2 ApiProofs AppProofs MachineBase MachineInv MachineInv2 MachineInv3 MachineInv4 MachineInv5 MachineProofs7 MachineProofs8 MachineProofs9 WorldBase WorldProgress2.

Lemma read_app r a b : read_bytes r (a ++ b) =
  (fst (read_bytes (fst (read_bytes r a)) b), snd (read_bytes r a) ++ snd (read_bytes (fst (read_bytes r a)) b)).
Proof.
  revert r. induction a as [|x a IH]; intro r; cbn [read_bytes app].
  - cbn [fst snd app]. destruct (read_bytes r b); reflexivity.
  - destruct (read_byte r x) as [r1 m1]. rewrite IH. destruct (read_bytes r1 a) as [r2 m2]. cbn [fst snd]. rewrite app_assoc. reflexivity.
Qed.
Lemma read_data len c0 c1 b data got : read_bytes (RData len c0 c1 (length data) got) (b :: data) = (RSum len c0 c1 (got ++ b :: data), []).
Proof.
  revert b got. induction data as [|x data IH]; intros b got; [reflexivity|].
  cbn [length]. cbn [read_bytes read_byte]. cbn [read_bytes] in IH. specialize (IH x (got ++ [b])).
  cbn [read_byte read_bytes] in IH. rewrite IH. rewrite <- app_assoc. reflexivity.
Qed.
(** one frame is one message *)
Lemma read_wire ct sub id data : read_bytes RStart (wire ct sub id data) = (RStart, [(32 * ct + sub, id, data)]).
Proof.
  unfold wire. set (n := Z.of_nat (length data)). set (c0 := 32 * ct + sub). set (x := xor_all (n :: c0 :: id :: data)).
  change (254 :: (n :: c0 :: id :: data) ++ [x]) with ([254; n; c0; id] ++ data ++ [x]). rewrite read_app.
  assert (E : read_bytes RStart [254; n; c0; id] = (match length data with O => RSum n c0 id [] | S k => RData n c0 id k [] end, [])).
  { cbn [read_bytes read_byte]. rewrite Z.eqb_refl. cbn [read_bytes read_byte app]. unfold n. rewrite Nat2Z.id. destruct (length data); reflexivity. }
  rewrite E. cbn [fst snd app]. rewrite read_app.
  assert (F : read_bytes (match length data with O => RSum n c0 id [] | S k => RData n c0 id k [] end) data = (RSum n c0 id data, [])).
  { destruct data as [|b data]; [reflexivity|]. cbn [length]. rewrite read_data. reflexivity. }
  rewrite F. cbn [fst snd read_bytes read_byte app]. fold x. rewrite Z.eqb_refl. reflexivity.
Qed.
Lemma read_frames (P : Z -> message -> Prop) l :
  (forall t at_ bs, In (OWritten t at_ bs) l -> exists m, P t m /\ read_bytes RStart bs = (RStart, [m])) ->
  exists ms, read_bytes RStart (concat (written_bytes l)) = (RStart, ms) /\ Forall2 P (writers l) ms.
Proof.
  induction l as [|x l IH]; intro H; [exists []; split; [reflexivity|constructor]|].
  destruct IH as (ms & E & F); [intros t at_ bs Hi; apply (H t at_ bs), in_cons, Hi|].
  destruct x; try (exists ms; split; [exact E|exact F]).
  destruct (H t at_ bs (or_introl eq_refl)) as (m & Pm & Em). exists (m :: ms). split; [|constructor; [exact Pm|exact F]].
  cbn [written_bytes flat_map app concat]. fold (written_bytes l). rewrite read_app, Em. cbn [fst snd]. rewrite E. reflexivity.
Qed.
(** a frame that could be made is the frame of the record, whatever its data *)
Lemma to_buffer_made f bs : to_buffer f = Ok bs -> bs = wire_of f.
Proof.
  unfold to_buffer. rewrite cmd0_value. intro E.
  destruct (py_bytes [SOF; zlen (f_data f); 32 * ct_val (f_type f) + sub_val (f_sub f); f_id f]) as [hd|] eqn:E1; cbn [bind] in E; [|discriminate E].
  apply py_bytes_inv in E1 as [-> _]. cbn [app skipn] in E. rewrite checksum_xor in E.
  match type of E with (do t <- ?x; _) = _ => destruct x as [t|] eqn:E2 end; cbn [bind] in E; [|discriminate E].
  apply py_bytes_inv in E2 as [-> _]. injection E as <-. rewrite wire_of_val, wire_body. unfold body, zlen, SOF. reflexivity.
Qed.
Lemma frame_read o bs : frame_bytes o bs -> exists f, to_unpi_frame o = Ok f /\
  read_bytes RStart bs = (RStart, [(32 * type_code (z_type o) + sub_code (z_sub o), z_id o, f_data f)]).
Proof.
  intros (f & F1 & F2). exists f. split; [exact F1|]. rewrite (to_buffer_made _ _ F2).
  unfold to_unpi_frame in F1. destruct (write_params (z_params o) (z_payload o)) as [data|]; cbn [bind] in F1; [|discriminate F1]. injection F1 as <-.
  unfold wire_of. cbn [f_type f_sub f_id f_data]. apply read_wire.
Qed.
Lemma stick_reads s : Wrote s -> exists ms, read_bytes RStart (port_bytes s) = (RStart, ms) /\ Forall2 (asked_by s) (writers (s_log s)) ms.
Proof.
  intros [W1 W2]. unfold port_bytes, greeting. cbn [app read_bytes read_byte]. change (239 =? 254) with false. cbn [read_bytes].
  destruct (read_frames (asked_by s) (s_log s)) as (ms & E & F).
  { intros t at_ bs Hi. destruct (W2 t at_ bs Hi) as (_ & k & o & G & B & _ & Fb). destruct (frame_read o bs Fb) as (f & Ff & R).
    eexists. split; [|exact R]. exists k, o, f. auto. }
  exists ms. rewrite W1, E. split; [reflexivity|exact F].
Qed.
Lemma forall2_length {A B} (P : A -> B -> Prop) l m : Forall2 P l m -> length l = length m.
Proof. induction 1; cbn [length]; congruence. Qed.
(** from the bytes that have arrived so far it reads the first of them *)
Lemma stick_reads_so_far s p q : Wrote s -> port_bytes s = p ++ q ->
  exists r ms, read_bytes RStart p = (r, ms) /\ Forall2 (asked_by s) (firstn (length ms) (writers (s_log s))) ms.
Proof.
  intros W E. destruct (stick_reads s W) as (ms & R & F). rewrite E, read_app in R. injection R as R1 R2.
  destruct (read_bytes RStart p) as [r m1] eqn:Ep. cbn [fst snd] in R1, R2. exists r, m1. split; [reflexivity|].
  rewrite <- R2 in F. apply Forall2_app_inv_r in F as (l1 & l2 & F1 & F2 & ->).
  rewrite <- (forall2_length _ _ _ F1), firstn_app, Nat.sub_diag, firstn_all, firstn_O, app_nil_r. exact F1.
Qed.
(** a command comes across with exactly the parameters it was called with *)
Lemma stick_reads_command s t k m sub cs c ps pl d w : asked_by s t m -> get s t = Some k -> t_job k = JCommand sub (c_name c) d w ->
  definition sub = Ok cs -> In c cs -> c_request c = Some ps -> payload_fits None ps pl -> SpecCodec.holds d pl ->
  exists body, m = (32 * type_code (c_type c) + sub_code sub, c_ID c, body) /\ payload_wire None ps pl body.
Proof.
  intros (k' & o & f & G' & Hb & F1 & ->) G Hj Hs Hin Hps Hfit Hd. rewrite G in G'. injection G' as <-.
  rewrite Hj in Hb. cbn [build] in Hb. apply in_coroutine_ok in Hb. rewrite (from_command_ok sub cs c ps d Hs Hin Hps) in Hb. injection Hb as <-.
  destruct (encode_decode ps pl d) as (body & E & Hok & W & _); [eapply table_params; eauto|exact Hfit|exact Hd|].
  unfold to_unpi_frame in F1. cbn [z_params z_payload z_type z_sub z_id] in F1. rewrite E in F1. cbn [bind] in F1. injection F1 as <-.
  exists body. split; [reflexivity|exact W].
Qed.
(** ** the receiver by itself *)
Lemma read_noise l : ~ In 254 l -> read_bytes RStart l = (RStart, []).
Proof.
  induction l as [|b l IH]; intro H; [reflexivity|]. cbn [read_bytes read_byte]. destruct (Z.eqb_spec b 254) as [->|_]; [exfalso; apply H; left; reflexivity|].
  rewrite IH; [reflexivity|]. intro C. apply H. right. exact C.
Qed.
Lemma read_damaged ct sub id data b : b <> last (wire ct sub id data) 0 -> read_bytes RStart (removelast (wire ct sub id data) ++ [b]) = (RStart, []).
Proof.
  unfold wire. set (n := Z.of_nat (length data)). set (c0 := 32 * ct + sub). set (x := xor_all (n :: c0 :: id :: data)).
  change (254 :: (n :: c0 :: id :: data) ++ [x]) with (([254; n; c0; id] ++ data) ++ [x]). rewrite last_last, removelast_last. intro Hb.
  rewrite <- app_assoc, read_app.
  assert (E : read_bytes RStart [254; n; c0; id] = (match length data with O => RSum n c0 id [] | S k => RData n c0 id k [] end, [])).
  { cbn [read_bytes read_byte]. rewrite Z.eqb_refl. cbn [read_bytes read_byte app]. unfold n. rewrite Nat2Z.id. destruct (length data); reflexivity. }
  rewrite E. cbn [fst snd app]. rewrite read_app.
  assert (F : read_bytes (match length data with O => RSum n c0 id [] | S k => RData n c0 id k [] end) data = (RSum n c0 id data, [])).
  { destruct data as [|y data]; [reflexivity|]. cbn [length]. rewrite read_data. reflexivity. }
  rewrite F. cbn [fst snd read_bytes read_byte app]. fold x. destruct (Z.eqb_spec b x); [contradiction|reflexivity].
Qed.
Lemma receiver_reads noise ct sub id data b : ~ In 254 noise ->
  read_bytes RStart (noise ++ wire ct sub id data) = (RStart, [(32 * ct + sub, id, data)]) /\
  (b <> last (wire ct sub id data) 0 -> read_bytes RStart (noise ++ removelast (wire ct sub id data) ++ [b]) = (RStart, [])).
Proof.
  intro H. split; [rewrite read_app, (read_noise _ H); cbn [fst snd app]; rewrite read_wire; reflexivity|].
  intro Hb. rewrite read_app, (read_noise _ H). cbn [fst snd app]. rewrite (read_damaged _ _ _ _ _ Hb). reflexivity.
Qed.
