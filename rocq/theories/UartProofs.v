(** * Proofs about the frame format and the byte parser *)
From Verif Require Import Base Types Uart SpecWire.
From Coq Require Import ZifyBool ZifyNat.

Lemma type_code_val c : type_code c = ct_val c.
Proof. reflexivity. Qed.
Lemma sub_code_val s : sub_code s = sub_val s.
Proof. reflexivity. Qed.
Lemma wire_of_val f : wire_of f = wire (ct_val (f_type f)) (sub_val (f_sub f)) (f_id f) (f_data f).
Proof. reflexivity. Qed.

(** ** bytes *)
Lemma byte_okb_ok b : byte_okb b = true <-> byte_ok b.
Proof. unfold byte_okb, byte_ok. lia. Qed.

Lemma py_bytes_ok l : bytes_ok l -> py_bytes l = Ok l.
Proof.
  intro H. unfold py_bytes.
  replace (forallb byte_okb l) with true; [reflexivity|].
  symmetry. apply forallb_forall. intros x Hx.
  apply byte_okb_ok. revert Hx. apply Forall_forall. exact H.
Qed.

Lemma py_bytes_inv l r : py_bytes l = Ok r -> r = l /\ bytes_ok l.
Proof.
  unfold py_bytes. destruct (forallb byte_okb l) eqn:E; [|discriminate].
  intro H; injection H as <-. split; [reflexivity|].
  apply Forall_forall. intros x Hx. apply byte_okb_ok.
  rewrite forallb_forall in E. auto.
Qed.

Lemma py_bytes_err l e : py_bytes l = Err e -> e = ValueError /\ ~ bytes_ok l.
Proof.
  unfold py_bytes. destruct (forallb byte_okb l) eqn:E; [discriminate|].
  intro H; injection H as <-. split; [reflexivity|].
  intro Hok. assert (forallb byte_okb l = true).
  { apply forallb_forall. intros x Hx. apply byte_okb_ok. revert Hx. apply Forall_forall. exact Hok. }
  congruence.
Qed.

Lemma lxor_byte a b : byte_ok a -> byte_ok b -> byte_ok (Z.lxor a b).
Proof.
  unfold byte_ok. intros Ha Hb.
  assert (0 <= Z.lxor a b) by (apply Z.lxor_nonneg; lia).
  split; [assumption|].
  destruct (Z.eq_dec (Z.lxor a b) 0) as [->|Hn]; [lia|].
  apply (Z.log2_lt_pow2 (Z.lxor a b) 8); [lia|].
  pose proof (Z.log2_lxor a b ltac:(lia) ltac:(lia)).
  assert (Z.log2 a < 8).
  { destruct (Z.eq_dec a 0) as [->|]; [reflexivity|]. apply Z.log2_lt_pow2; lia. }
  assert (Z.log2 b < 8).
  { destruct (Z.eq_dec b 0) as [->|]; [reflexivity|]. apply Z.log2_lt_pow2; lia. }
  lia.
Qed.

Lemma xor_all_byte l : bytes_ok l -> byte_ok (xor_all l).
Proof.
  induction 1 as [|x l Hx _ IH]; cbn; [unfold byte_ok; lia|]. apply lxor_byte; assumption.
Qed.

Lemma checksum_fold l a : fold_left Z.lxor l a = Z.lxor a (xor_all l).
Proof.
  revert a; induction l as [|x l IH]; intro a; cbn [fold_left xor_all fold_right].
  - rewrite Z.lxor_0_r. reflexivity.
  - rewrite IH. fold (xor_all l). apply Z.lxor_assoc.
Qed.

Lemma checksum_xor l : checksum l = xor_all l.
Proof. unfold checksum. rewrite checksum_fold. apply Z.lxor_0_l. Qed.

Lemma xor_all_app a b : xor_all (a ++ b) = Z.lxor (xor_all a) (xor_all b).
Proof.
  induction a as [|x a IH]; cbn [app xor_all fold_right].
  - symmetry. apply Z.lxor_0_l.
  - fold (xor_all (a ++ b)) (xor_all a). rewrite IH. symmetry. apply Z.lxor_assoc.
Qed.

(** ** command byte *)
Lemma cmd0_value c s :
  Z.lor (Z.land (Z.shiftl (ct_val c) 5) 224) (Z.land (sub_val s) 31) = 32 * ct_val c + sub_val s.
Proof. destruct c, s; reflexivity. Qed.

Lemma cmd0_byte c s : byte_ok (32 * ct_val c + sub_val s).
Proof. unfold byte_ok. destruct c, s; cbn; lia. Qed.

Lemma cmd0_sub c s : Z.land (32 * ct_val c + sub_val s) 31 = sub_val s.
Proof. destruct c, s; reflexivity. Qed.

Lemma cmd0_ct c s : Z.shiftr (Z.land (32 * ct_val c + sub_val s) 224) 5 = ct_val c.
Proof. destruct c, s; reflexivity. Qed.

Lemma ct_of_val c : ct_of (ct_val c) = Ok c.
Proof. destruct c; reflexivity. Qed.
Lemma sub_of_val s : sub_of (sub_val s) = Ok s.
Proof. destruct s; reflexivity. Qed.

Lemma ct_of_inv n c : ct_of n = Ok c -> n = ct_val c.
Proof.
  unfold ct_of. intro H.
  repeat match type of H with
         | (match ?x with _ => _ end) = _ => destruct x; try discriminate
         end; injection H as <-; reflexivity.
Qed.
Lemma sub_of_inv n s : sub_of n = Ok s -> n = sub_val s.
Proof.
  unfold sub_of. intro H.
  repeat match type of H with
         | (match ?x with _ => _ end) = _ => destruct x; try discriminate
         end; injection H as <-; reflexivity.
Qed.

(** every byte is recovered from its two fields (256 cases) *)
Definition byte_list : list Z := map Z.of_nat (seq 0 256).
Lemma byte_list_in b : byte_ok b -> In b byte_list.
Proof.
  unfold byte_ok, byte_list. intro H. apply in_map_iff.
  exists (Z.to_nat b). split; [lia|]. apply in_seq. lia.
Qed.
Lemma byte_sweep (P : Z -> bool) : forallb P byte_list = true -> forall b, byte_ok b -> P b = true.
Proof. intros H b Hb. rewrite forallb_forall in H. apply H, byte_list_in, Hb. Qed.

Lemma cmd0_split b : byte_ok b -> 32 * Z.shiftr (Z.land b 224) 5 + Z.land b 31 = b.
Proof.
  intro Hb. apply Z.eqb_eq.
  apply (byte_sweep (fun b => 32 * Z.shiftr (Z.land b 224) 5 + Z.land b 31 =? b)); [|exact Hb].
  vm_compute. reflexivity.
Qed.

(** ** serialisation *)
Definition body (ct sub id : Z) (data : list Z) : list Z :=
  Z.of_nat (length data) :: (32 * ct + sub) :: id :: data.

Lemma wire_body ct sub id data : wire ct sub id data = 254 :: body ct sub id data ++ [xor_all (body ct sub id data)].
Proof. reflexivity. Qed.

Lemma body_ok f : sendable f -> bytes_ok (body (ct_val (f_type f)) (sub_val (f_sub f)) (f_id f) (f_data f)).
Proof.
  intros (Hid & Hd & Hl). unfold body. constructor; [unfold byte_ok; lia|].
  constructor; [apply cmd0_byte|]. constructor; assumption.
Qed.

Lemma wire_ok f : sendable f -> bytes_ok (wire_of f).
Proof.
  intro H. rewrite wire_of_val, wire_body. constructor; [unfold byte_ok; lia|].
  apply Forall_app. split; [apply body_ok, H|]. constructor; [|constructor].
  apply xor_all_byte, body_ok, H.
Qed.

Lemma wire_length ct sub id data : length (wire ct sub id data) = (5 + length data)%nat.
Proof. unfold wire. cbn [length]. rewrite app_length. cbn [length]. lia. Qed.

Lemma to_buffer_wire f : sendable f -> to_buffer f = Ok (wire_of f).
Proof.
  intro H. unfold to_buffer. rewrite cmd0_value.
  pose proof (body_ok f H) as Hb. unfold body in Hb.
  assert (Hh : bytes_ok [SOF; zlen (f_data f); 32 * ct_val (f_type f) + sub_val (f_sub f); f_id f]).
  { destruct H as (Hid & Hd & Hl).
    repeat constructor; unfold SOF, zlen in *; try lia; try apply cmd0_byte; apply Hid. }
  rewrite (py_bytes_ok _ Hh). cbn [bind app skipn].
  rewrite checksum_xor.
  fold (zlen (f_data f)) in Hb.
  rewrite (py_bytes_ok [_]).
  - cbn [bind]. rewrite wire_of_val, wire_body. unfold body, zlen, SOF. reflexivity.
  - constructor; [|constructor]. apply xor_all_byte. exact Hb.
Qed.

Lemma to_buffer_inv f bs :
  to_buffer f = Ok bs -> byte_ok (f_id f) /\ (length (f_data f) <= 255)%nat.
Proof.
  unfold to_buffer. intro H.
  destruct (py_bytes [SOF; _; _; _]) as [hd|e] eqn:E; [|discriminate].
  apply py_bytes_inv in E as [_ E].
  inversion E as [|? ? _ E1]; subst. inversion E1 as [|? ? E2 E3]; subst.
  inversion E3 as [|? ? _ E4]; subst. inversion E4 as [|? ? E5 _]; subst.
  unfold byte_ok, zlen in *. split; lia.
Qed.

Lemma to_buffer_err f e :
  bytes_ok (f_data f) -> to_buffer f = Err e ->
  e = ValueError /\ (~ byte_ok (f_id f) \/ (length (f_data f) > 255)%nat).
Proof.
  intros Hd H.
  assert (Hdec : {byte_ok (f_id f)} + {~ byte_ok (f_id f)}).
  { destruct (byte_okb (f_id f)) eqn:E; [left; apply byte_okb_ok, E|right].
    intro C. apply byte_okb_ok in C. congruence. }
  assert (He : e = ValueError).
  { unfold to_buffer in H.
    destruct (py_bytes [SOF; _; _; _]) as [hd|e0] eqn:E.
    - cbn [bind] in H. destruct (py_bytes [checksum _]) as [t|e1] eqn:E1; [discriminate|].
      cbn [bind] in H. injection H as <-. apply py_bytes_err in E1. apply E1.
    - cbn [bind] in H. injection H as <-. apply py_bytes_err in E. apply E. }
  split; [exact He|].
  destruct Hdec as [Hid|Hid]; [right|left; exact Hid].
  destruct (Compare_dec.le_gt_dec (length (f_data f)) 255) as [Hl|Hl]; [|exact Hl].
  rewrite (to_buffer_wire f) in H; [discriminate|]. split; [|split]; assumption.
Qed.

(** ** the parser *)
Definition declared (buf : list Z) : nat := Z.to_nat (nth 1 buf 0).
Definition incomplete (buf : list Z) : Prop :=
  (length buf <= 5)%nat \/ (length buf < 5 + declared buf)%nat.
Definition incompleteb (buf : list Z) : bool :=
  Nat.leb (length buf) 5 || Nat.ltb (length buf) (5 + declared buf).
Lemma incompleteb_ok buf : incompleteb buf = true <-> incomplete buf.
Proof.
  unfold incompleteb, incomplete.
  rewrite orb_true_iff, Nat.leb_le, Nat.ltb_lt. reflexivity.
Qed.

Lemma write_step_sof r b buf :
  byte_ok b -> buf ++ [b] = 254 :: r ->
  parser_write buf b =
  if incompleteb (buf ++ [b]) then (buf ++ [b], Ok None)
  else (skipn (5 + declared (buf ++ [b])) (buf ++ [b]),
        from_buffer (nth 1 (buf ++ [b]) 0) (4 + declared (buf ++ [b]))
          (firstn (5 + declared (buf ++ [b])) (buf ++ [b]))).
Proof.
  intros Hb Hs. unfold parser_write.
  rewrite (py_bytes_ok [b]) by (constructor; [exact Hb|constructor]).
  set (l := buf ++ [b]) in *.
  assert (H0 : py_index l 0 = Ok 254) by (rewrite Hs; reflexivity).
  rewrite H0. unfold SOF. cbn [Z.eqb Pos.eqb].
  unfold incompleteb, MinMessageLength.
  destruct (Nat.ltb_spec 5 (length l)) as [Hl|Hl].
  - destruct (Nat.leb_spec (length l) 5) as [Hx|_]; [lia|]. cbn [orb].
    unfold py_index, PositionDataLength.
    destruct (nth_error l 1) as [n|] eqn:En.
    2:{ apply nth_error_None in En. lia. }
    assert (Hn : nth 1 l 0 = n) by (apply nth_error_nth; exact En).
    unfold declared. rewrite Hn. unfold DataStart.
    replace (4 + Z.to_nat n + 1)%nat with (5 + Z.to_nat n)%nat by lia.
    destruct (Nat.leb_spec (5 + Z.to_nat n) (length l)) as [Hc|Hc];
      destruct (Nat.ltb_spec (length l) (5 + Z.to_nat n)) as [Hd|Hd]; try lia; [|reflexivity].
    unfold py_slice. cbn [skipn]. rewrite Nat.sub_0_r. reflexivity.
  - destruct (Nat.leb_spec (length l) 5) as [_|Hx]; [|lia]. reflexivity.
Qed.

Lemma write_step_drop x r b buf :
  byte_ok b -> buf ++ [b] = x :: r -> x <> 254 -> parser_write buf b = ([], Ok None).
Proof.
  intros Hb Hs Hx. unfold parser_write.
  rewrite (py_bytes_ok [b]) by (constructor; [exact Hb|constructor]).
  rewrite Hs. change (py_index (x :: r) 0) with (Ok x). unfold SOF.
  destruct (Z.eqb_spec 254 x) as [E|_]; [congruence|reflexivity].
Qed.

Lemma parser_run_app buf a b :
  parser_run buf (a ++ b) =
  let '(b1, o1) := parser_run buf a in
  let '(b2, o2) := parser_run b1 b in (b2, o1 ++ o2).
Proof.
  revert buf; induction a as [|x a IH]; intro buf; cbn [parser_run app].
  - destruct (parser_run buf b); reflexivity.
  - destruct (parser_write buf x) as [b1 o]. rewrite IH.
    destruct (parser_run b1 a) as [b2 o1]. destruct (parser_run b2 b) as [b3 o2].
    destruct o as [[f|]|e]; reflexivity.
Qed.

Lemma parser_run_cons buf b r :
  parser_run buf (b :: r) =
  let '(b1, o) := parser_write buf b in
  let '(b2, os) := parser_run b1 r in
  (b2, match o with Ok None => os | Ok (Some f) => Ok f :: os | Err e => Err e :: os end).
Proof. reflexivity. Qed.

Lemma nth1_app (buf l : list Z) : (2 <= length buf)%nat -> nth 1 (buf ++ l) 0 = nth 1 buf 0.
Proof. intro H. apply app_nth1. lia. Qed.

Lemma incomplete_prefix buf l : incomplete (buf ++ l) -> incomplete buf.
Proof.
  unfold incomplete, declared. rewrite app_length.
  destruct (Compare_dec.le_gt_dec (length buf) 5) as [H|H]; [left; exact H|].
  rewrite nth1_app by lia. lia.
Qed.

(** feeding bytes that do not complete the frame just accumulates them *)
Lemma run_accumulate l buf :
  bytes_ok l -> incomplete ((254 :: buf) ++ l) ->
  parser_run (254 :: buf) l = ((254 :: buf) ++ l, []).
Proof.
  revert buf; induction l as [|x l IH]; intros buf Hok Hi.
  - rewrite app_nil_r. reflexivity.
  - inversion Hok as [|? ? Hx Hl]; subst.
    rewrite parser_run_cons.
    assert (Ha : (254 :: buf) ++ x :: l = (254 :: (buf ++ [x])) ++ l).
    { change (254 :: (buf ++ [x])) with ((254 :: buf) ++ [x]). rewrite <- app_assoc. reflexivity. }
    rewrite Ha in Hi |- *.
    rewrite (write_step_sof (buf ++ [x]) x (254 :: buf) Hx eq_refl).
    change ((254 :: buf) ++ [x]) with (254 :: (buf ++ [x])).
    apply incomplete_prefix in Hi as Hi'. apply incompleteb_ok in Hi'. rewrite Hi'.
    rewrite IH by assumption. reflexivity.
Qed.

(** ** one frame *)
Lemma declared_wire ct sub id data l : (0 < length (wire ct sub id data))%nat ->
  declared (wire ct sub id data ++ l) = length data.
Proof. intros _. unfold declared, wire. cbn [app nth]. lia. Qed.

Lemma from_buffer_wire f : sendable f ->
  from_buffer (Z.of_nat (length (f_data f))) (4 + length (f_data f)) (wire_of f) = Ok (Some (received f)).
Proof.
  intro H. rewrite wire_of_val. unfold from_buffer, py_index, PositionCmd0, PositionCmd1.
  set (d := f_data f). set (c := f_type f). set (s := f_sub f). set (id := f_id f).
  change (nth_error (wire (ct_val c) (sub_val s) id d) 2) with (Some (32 * ct_val c + sub_val s)).
  change (nth_error (wire (ct_val c) (sub_val s) id d) 3) with (Some id).
  cbn [bind].
  assert (Hn : nth_error (wire (ct_val c) (sub_val s) id d) (4 + length d)
               = Some (xor_all (body (ct_val c) (sub_val s) id d))).
  { rewrite wire_body. unfold body. cbn [app nth_error Nat.add].
    rewrite nth_error_app2 by lia. rewrite Nat.sub_diag. reflexivity. }
  rewrite Hn. cbn [bind].
  assert (Hd : py_slice (wire (ct_val c) (sub_val s) id d) DataStart (4 + length d) = d).
  { unfold py_slice, DataStart. replace (4 + length d - 4)%nat with (length d) by lia.
    unfold wire. cbn [app skipn]. rewrite firstn_app, Nat.sub_diag, firstn_all. cbn [firstn].
    apply app_nil_r. }
  assert (Hb : py_slice (wire (ct_val c) (sub_val s) id d) 1 (4 + length d)
               = body (ct_val c) (sub_val s) id d).
  { unfold py_slice. rewrite wire_body. cbn [skipn].
    replace (4 + length d - 1)%nat with (length (body (ct_val c) (sub_val s) id d))
      by (unfold body; cbn [length]; lia).
    rewrite firstn_app, Nat.sub_diag, firstn_all. cbn [firstn]. apply app_nil_r. }
  rewrite Hd, Hb, checksum_xor, Z.eqb_refl.
  rewrite cmd0_sub, cmd0_ct. unfold unpi_init. rewrite ct_of_val, sub_of_val. cbn [bind].
  reflexivity.
Qed.

(** all but the last byte *)
Lemma wire_last f : exists p, wire_of f = 254 :: p ++ [xor_all (body (ct_val (f_type f)) (sub_val (f_sub f)) (f_id f) (f_data f))]
  /\ p = body (ct_val (f_type f)) (sub_val (f_sub f)) (f_id f) (f_data f).
Proof. eexists. split; [unfold wire_of; apply wire_body|reflexivity]. Qed.

Lemma run_start : parser_run [] [254] = ([254], []).
Proof. reflexivity. Qed.

Lemma incomplete_body ct sub id d : d <> [] ->
  incomplete (254 :: body ct sub id d).
Proof.
  intro Hd. right. unfold declared, body. cbn [length nth]. lia.
Qed.

(** from "start byte seen" the rest of a non-empty frame delivers it *)
Lemma run_frame_tail f : sendable f -> f_data f <> [] ->
  parser_run [254] (skipn 1 (wire_of f)) = ([], [Ok (received f)]).
Proof.
  intros H Hd. destruct (wire_last f) as (p & Hw & Hp).
  set (x := xor_all (body _ _ _ _)) in *.
  assert (Hx : byte_ok x) by (apply xor_all_byte, body_ok, H).
  rewrite Hw. cbn [skipn]. rewrite parser_run_app.
  assert (Hbok : bytes_ok p) by (subst p; apply body_ok, H).
  rewrite (run_accumulate p [] Hbok).
  2:{ subst p. apply incomplete_body. exact Hd. }
  rewrite parser_run_cons.
  assert (E : (254 :: []) ++ p = 254 :: p) by reflexivity. rewrite E.
  assert (E2 : (254 :: p) ++ [x] = wire_of f) by (rewrite Hw; reflexivity).
  rewrite (write_step_sof (p ++ [x]) x (254 :: p) Hx eq_refl).
  rewrite E2.
  assert (Hdecl : declared (wire_of f) = length (f_data f)).
  { rewrite <- (app_nil_r (wire_of f)). apply declared_wire. unfold wire_of. rewrite wire_length. lia. }
  rewrite Hdecl.
  assert (Hlen : length (wire_of f) = (5 + length (f_data f))%nat) by apply wire_length.
  assert (Hinc : incompleteb (wire_of f) = false).
  { unfold incompleteb. rewrite Hlen, Hdecl.
    destruct (f_data f) as [|y d]; [congruence|]. cbn [length].
    rewrite orb_false_iff. rewrite Nat.leb_gt, Nat.ltb_ge. lia. }
  rewrite Hinc. rewrite <- Hlen, firstn_all, skipn_all.
  replace (nth 1 (wire_of f) 0) with (Z.of_nat (length (f_data f))) by reflexivity.
  rewrite from_buffer_wire by exact H. reflexivity.
Qed.

Lemma run_frame f : sendable f -> f_data f <> [] ->
  parser_run [] (wire_of f) = ([], [Ok (received f)]).
Proof.
  intros H Hd. change (wire_of f) with ([254] ++ skipn 1 (wire_of f)).
  rewrite parser_run_app, run_start, run_frame_tail by assumption. reflexivity.
Qed.

(** nothing is delivered before the last byte *)
Lemma run_frame_prefix f k : sendable f -> f_data f <> [] -> (k < length (wire_of f))%nat ->
  parser_run [] (firstn k (wire_of f)) = (firstn k (wire_of f), []).
Proof.
  intros H Hd Hk.
  destruct k as [|k]; [reflexivity|].
  destruct (wire_last f) as (p & Hw & Hp).
  set (x := xor_all (body _ _ _ _)) in *.
  rewrite Hw in Hk |- *. cbn [firstn]. cbn [length] in Hk. rewrite app_length in Hk. cbn [length] in Hk.
  rewrite firstn_app. replace (k - length p)%nat with 0%nat by lia. cbn [firstn]. rewrite app_nil_r.
  change (254 :: firstn k p) with ([254] ++ firstn k p).
  rewrite parser_run_app, run_start. cbn [app].
  rewrite (run_accumulate (firstn k p) []); cbn [app].
  - reflexivity.
  - assert (Hbok : bytes_ok p) by (subst p; apply body_ok, H).
    rewrite <- (firstn_skipn k p) in Hbok. apply Forall_app in Hbok. apply Hbok.
  - apply (incomplete_prefix _ (skipn k p)).
    change ((254 :: firstn k p) ++ skipn k p) with (254 :: (firstn k p ++ skipn k p)).
    rewrite firstn_skipn. subst p. apply incomplete_body. exact Hd.
Qed.

(** an empty frame is only buffered *)
Lemma run_empty_frame_tail f : sendable f -> f_data f = [] ->
  parser_run [254] (skipn 1 (wire_of f)) = (wire_of f, []).
Proof.
  intros H Hd.
  rewrite (run_accumulate (skipn 1 (wire_of f)) []).
  - reflexivity.
  - pose proof (wire_ok f H) as Hok. unfold wire_of, wire in *. cbn [skipn].
    inversion Hok; assumption.
  - left. change ((254 :: []) ++ skipn 1 (wire_of f)) with (wire_of f).
    unfold wire_of. rewrite wire_length, Hd. cbn. lia.
Qed.

Lemma run_empty_frame f : sendable f -> f_data f = [] ->
  parser_run [] (wire_of f) = (wire_of f, []).
Proof.
  intros H Hd. change (wire_of f) with ([254] ++ skipn 1 (wire_of f)) at 1.
  rewrite parser_run_app, run_start, run_empty_frame_tail by assumption. reflexivity.
Qed.

(** the byte after an empty frame releases it and stays in the buffer *)
Lemma run_empty_frame_next f b : sendable f -> f_data f = [] -> byte_ok b ->
  parser_run (wire_of f) [b] = ([b], [Ok (received f)]).
Proof.
  intros H Hd Hb. rewrite parser_run_cons.
  rewrite (write_step_sof (skipn 1 (wire_of f) ++ [b]) b (wire_of f) Hb eq_refl).
  assert (Hdecl : declared (wire_of f ++ [b]) = 0%nat).
  { unfold wire_of. rewrite declared_wire; [rewrite Hd; reflexivity|]. rewrite wire_length; lia. }
  assert (Hlen : length (wire_of f) = 5%nat) by (unfold wire_of; rewrite wire_length, Hd; reflexivity).
  rewrite Hdecl.
  assert (Hinc : incompleteb (wire_of f ++ [b]) = false).
  { unfold incompleteb. rewrite Hdecl, app_length, Hlen. reflexivity. }
  rewrite Hinc. cbn [Nat.add].
  rewrite <- Hlen at 1. rewrite skipn_app, skipn_all, Nat.sub_diag. cbn [app skipn].
  replace (firstn 5 (wire_of f ++ [b])) with (wire_of f).
  2:{ rewrite <- Hlen, firstn_app, firstn_all, Nat.sub_diag. cbn [firstn]. symmetry. apply app_nil_r. }
  rewrite nth1_app by lia.
  pose proof (from_buffer_wire f H) as E. rewrite Hd in E. cbn [length Nat.add] in E.
  replace (nth 1 (wire_of f) 0) with 0 by (unfold wire_of, wire; rewrite Hd; reflexivity).
  change (Z.of_nat 0) with 0 in E. rewrite E. reflexivity.
Qed.

(** ** streams *)
Lemma stream_outcome_snoc fs f :
  stream_outcome (fs ++ [f]) =
  match f_data f with
  | [] => (wire_of f, map (fun f => Ok (received f)) fs)
  | _ => ([], map (fun f => Ok (received f)) (fs ++ [f]))
  end.
Proof.
  unfold stream_outcome. rewrite rev_app_distr. cbn [rev app].
  rewrite rev_involutive. destruct (f_data f); reflexivity.
Qed.

Lemma run_stream fs : Forall sendable fs -> parser_run [] (stream fs) = stream_outcome fs.
Proof.
  induction fs as [|f fs IH] using rev_ind; intro H; [reflexivity|].
  apply Forall_app in H as [Hfs Hf]. inversion Hf as [|? ? Hs _]; subst. specialize (IH Hfs).
  unfold stream in *. rewrite map_app, concat_app. cbn [map concat]. rewrite app_nil_r.
  rewrite parser_run_app, IH, stream_outcome_snoc.
  destruct fs as [|g fs'] using rev_ind.
  - change (stream_outcome []) with (@nil Z, @nil (result frame)).
    destruct (f_data f) as [|y d] eqn:Hd.
    + rewrite run_empty_frame by assumption. reflexivity.
    + rewrite run_frame by (try assumption; congruence). reflexivity.
  - clear IHfs'. rewrite stream_outcome_snoc.
    apply Forall_app in Hfs as [_ Hg]. inversion Hg as [|? ? Hg' _]; subst.
    destruct (f_data g) as [|z dg] eqn:Hdg.
    + change (wire_of f) with ([254] ++ skipn 1 (wire_of f)).
      rewrite parser_run_app, run_empty_frame_next by (try assumption; unfold byte_ok; lia).
      destruct (f_data f) as [|y d] eqn:Hd.
      * rewrite run_empty_frame_tail by assumption.
        change ([254] ++ skipn 1 (wire_of f)) with (wire_of f).
        rewrite map_app. rewrite app_nil_r. reflexivity.
      * rewrite run_frame_tail by (try assumption; congruence).
        rewrite !map_app. cbn [map app]. rewrite <- app_assoc. reflexivity.
    + destruct (f_data f) as [|y d] eqn:Hd.
      * rewrite run_empty_frame by assumption. rewrite app_nil_r. reflexivity.
      * rewrite run_frame by (try assumption; congruence).
        rewrite !map_app. reflexivity.
Qed.

(** ** noise *)
Lemma run_noise l : bytes_ok l -> ~ In 254 l -> parser_run [] l = ([], []).
Proof.
  induction l as [|x l IH]; intros Hok Hn; [reflexivity|].
  inversion Hok; subst. cbn [In] in Hn.
  rewrite parser_run_cons, (write_step_drop x [] x []); auto.
  rewrite IH by tauto. reflexivity.
Qed.

Lemma run_noisy_stream l tail :
  Forall (fun p => bytes_ok (fst p) /\ ~ In 254 (fst p) /\ sendable (snd p) /\ f_data (snd p) <> []) l ->
  bytes_ok tail -> ~ In 254 tail ->
  parser_run [] (noisy_stream l ++ tail) = ([], map (fun p => Ok (received (snd p))) l).
Proof.
  intros H Ht Hnt. induction H as [|[n f] l (Hn & Hns & Hs & Hd) _ IH].
  - apply run_noise; assumption.
  - unfold noisy_stream in *. cbn [map concat fst snd] in *.
    rewrite <- app_assoc, <- app_assoc, parser_run_app, run_noise by assumption.
    rewrite parser_run_app, run_frame by assumption.
    rewrite IH. reflexivity.
Qed.

(** ** reachable buffers *)
Definition good_buffer (buf : list Z) : Prop :=
  bytes_ok buf /\
  (buf = [] \/ (exists x, buf = [x]) \/ (exists r, buf = 254 :: r /\ incomplete buf)).

Lemma good_nil : good_buffer [].
Proof. split; [constructor|left; reflexivity]. Qed.

Lemma incomplete_short buf : (length buf <= 5)%nat -> incomplete buf.
Proof. left. assumption. Qed.

Lemma good_length buf : good_buffer buf -> (length buf <= 259)%nat.
Proof.
  intros [Hok [->|[[x ->]|(r & -> & Hi)]]]; cbn [length]; try lia.
  destruct Hi as [Hi|Hi]; cbn [length] in Hi; [lia|].
  unfold declared in Hi. destruct r as [|n r]; cbn [nth] in Hi; cbn [length] in *; [lia|].
  inversion Hok as [|? ? _ H2]; subst. inversion H2 as [|? ? H3 _]; subst.
  unfold byte_ok in H3. lia.
Qed.

Lemma good_hd buf b : good_buffer buf -> byte_ok b ->
  (exists r, buf ++ [b] = 254 :: r) \/ (exists x r, buf ++ [b] = x :: r /\ x <> 254).
Proof.
  intros _ _. destruct (buf ++ [b]) as [|x r] eqn:E.
  - destruct buf; discriminate.
  - destruct (Z.eq_dec x 254) as [->|Hx]; [left|right]; eauto.
Qed.

(** how long the buffer can be when a frame completes *)
Lemma complete_rest buf b r : good_buffer buf -> byte_ok b -> buf ++ [b] = 254 :: r ->
  incompleteb (buf ++ [b]) = false ->
  let l := buf ++ [b] in
  (5 + declared l <= length l)%nat /\
  (skipn (5 + declared l) l = [] \/ (declared l = 0%nat /\ length l = 6%nat /\ skipn (5 + declared l) l = [b])).
Proof.
  intros [Hok Hg] Hb Hs Hc l.
  unfold incompleteb in Hc. rewrite orb_false_iff, Nat.leb_gt, Nat.ltb_ge in Hc. fold l in Hc.
  destruct Hc as [Hc1 Hc2].
  assert (Hll : length l = (length buf + 1)%nat) by (unfold l; rewrite app_length; reflexivity).
  split; [lia|].
  destruct Hg as [->|[[x ->]|(r' & -> & Hi)]]; cbn [length] in Hll; try lia.
  assert (Hdd : declared l = declared (254 :: r')).
  { unfold declared, l. rewrite nth1_app; [reflexivity|]. cbn [length]. lia. }
  destruct Hi as [Hi|Hi].
  - cbn [length] in Hi.
    destruct (declared l) as [|n] eqn:Hn.
    + right. split; [reflexivity|]. split; [lia|].
      unfold l. replace (5 + 0)%nat with (length (254 :: r')) by (cbn [length]; lia).
      rewrite skipn_app, skipn_all, Nat.sub_diag. reflexivity.
    + left. apply skipn_all2. lia.
  - left. apply skipn_all2. rewrite <- Hdd in Hi. cbn [length] in Hi. lia.
Qed.

Lemma good_write buf b : good_buffer buf -> byte_ok b -> good_buffer (fst (parser_write buf b)).
Proof.
  intros Hg Hb. destruct (good_hd buf b Hg Hb) as [[r Hs]|(x & r & Hs & Hx)].
  - rewrite (write_step_sof r b buf Hb Hs).
    assert (Hok : bytes_ok (buf ++ [b])).
    { apply Forall_app. split; [apply Hg|]. constructor; [exact Hb|constructor]. }
    destruct (incompleteb (buf ++ [b])) eqn:E; cbn [fst].
    + split; [exact Hok|]. right; right. exists r. split; [exact Hs|]. apply incompleteb_ok, E.
    + destruct (complete_rest buf b r Hg Hb Hs E) as [_ [H|(_ & _ & H)]]; rewrite H.
      * apply good_nil.
      * split; [constructor; [exact Hb|constructor]|]. right; left. eauto.
  - rewrite (write_step_drop x r b buf Hb Hs Hx). apply good_nil.
Qed.

Lemma good_run l buf : bytes_ok l -> good_buffer buf -> good_buffer (fst (parser_run buf l)).
Proof.
  revert buf; induction l as [|x l IH]; intros buf Hok Hg; [exact Hg|].
  inversion Hok; subst. rewrite parser_run_cons.
  pose proof (good_write buf x Hg ltac:(assumption)) as Hw.
  destruct (parser_write buf x) as [b1 o]; cbn [fst] in Hw.
  specialize (IH b1 ltac:(assumption) Hw). destruct (parser_run b1 l). exact IH.
Qed.

(** ** soundness of delivery *)
Lemma firstn_split_wire (l : list Z) (n : nat) :
  (5 + n <= length l)%nat -> nth_error l 0 = Some 254 ->
  exists a b c d x, firstn (5 + n) l = [254; a; b; c] ++ d ++ [x] /\ length d = n.
Proof.
  intros Hl H0.
  destruct l as [|s [|a [|b [|c l]]]]; cbn [length] in Hl; try lia.
  cbn in H0. injection H0 as ->.
  cbn [firstn Nat.add].
  exists a, b, c.
  assert (Hn : (n < length l)%nat) by lia.
  exists (firstn n l), (nth n l 0).
  split; [|rewrite firstn_length; lia].
  cbn [app]. do 4 f_equal.
  clear -Hn. revert l Hn. induction n as [|n IH]; intros [|x l] Hn; cbn [length] in Hn; try lia.
  - reflexivity.
  - cbn [firstn app nth]. f_equal. apply IH. lia.
Qed.

Lemma from_buffer_sound len n b1 b2 id d fcs f :
  length d = n -> byte_ok b2 -> b1 = Z.of_nat n ->
  from_buffer len (4 + n) ([254; b1; b2; id] ++ d ++ [fcs]) = Ok (Some f) ->
  [254; b1; b2; id] ++ d ++ [fcs] = wire_of f /\ f_id f = id /\ f_data f = d /\
  f_length f = Some len /\ f_fcs f = Some fcs.
Proof.
  intros Hn Hb2 Hb1. unfold from_buffer, py_index, PositionCmd0, PositionCmd1.
  cbn [app nth_error bind].
  assert (Hx : nth_error (254 :: b1 :: b2 :: id :: d ++ [fcs]) (4 + n) = Some fcs).
  { cbn [nth_error Nat.add]. rewrite nth_error_app2 by lia. rewrite Hn, Nat.sub_diag. reflexivity. }
  rewrite Hx. cbn [bind].
  assert (Hs : py_slice (254 :: b1 :: b2 :: id :: d ++ [fcs]) 1 (4 + n) = b1 :: b2 :: id :: d).
  { unfold py_slice. cbn [skipn]. replace (4 + n - 1)%nat with (S (S (S n))) by lia.
    cbn [firstn]. rewrite firstn_app, <- Hn, Nat.sub_diag, firstn_all. cbn [firstn].
    rewrite app_nil_r. reflexivity. }
  assert (Hd : py_slice (254 :: b1 :: b2 :: id :: d ++ [fcs]) DataStart (4 + n) = d).
  { unfold py_slice, DataStart. cbn [skipn]. replace (4 + n - 4)%nat with n by lia.
    rewrite firstn_app, <- Hn, Nat.sub_diag, firstn_all. cbn [firstn]. apply app_nil_r. }
  rewrite Hs, Hd, checksum_xor.
  destruct (Z.eqb_spec (xor_all (b1 :: b2 :: id :: d)) fcs) as [E|_]; [|discriminate].
  unfold unpi_init. destruct (ct_of _) as [c|] eqn:Ec; [|discriminate]. cbn [bind].
  destruct (sub_of _) as [s|] eqn:Es; [|discriminate]. cbn [bind].
  intro H. injection H as <-. cbn [f_id f_data f_length f_fcs].
  apply ct_of_inv in Ec. apply sub_of_inv in Es.
  assert (Hc : 32 * ct_val c + sub_val s = b2).
  { rewrite <- Ec, <- Es. apply cmd0_split, Hb2. }
  rewrite wire_of_val. unfold wire. cbn [f_type f_sub f_id f_data app]. rewrite Hc, Hn, <- Hb1.
  rewrite <- E. repeat split; reflexivity.
Qed.

Lemma write_sound buf b buf' f :
  good_buffer buf -> byte_ok b -> parser_write buf b = (buf', Ok (Some f)) ->
  buf ++ [b] = wire_of f ++ buf' /\ sendable f /\ f = received f.
Proof.
  intros Hg Hb H. destruct (good_hd buf b Hg Hb) as [[r Hs]|(x & r & Hs & Hx)].
  2:{ rewrite (write_step_drop x r b buf Hb Hs Hx) in H. discriminate. }
  rewrite (write_step_sof r b buf Hb Hs) in H.
  destruct (incompleteb (buf ++ [b])) eqn:E; [discriminate|].
  destruct (complete_rest buf b r Hg Hb Hs E) as [Hl _].
  apply pair_equal_spec in H as [Hb' Hf].
  assert (Hok : bytes_ok (buf ++ [b])).
  { apply Forall_app. split; [apply Hg|]. constructor; [exact Hb|constructor]. }
  set (l := buf ++ [b]) in *.
  destruct (firstn_split_wire l (declared l) Hl) as (b1 & b2 & id & d & fcs & Hsp & Hd).
  { rewrite Hs. reflexivity. }
  assert (Hall : l = ([254; b1; b2; id] ++ d ++ [fcs]) ++ buf').
  { rewrite <- Hsp, <- Hb'. symmetry. apply firstn_skipn. }
  assert (Hb1 : nth 1 l 0 = b1) by (rewrite Hall; reflexivity).
  rewrite Hsp in Hf.
  assert (Hok2 := Hok). rewrite Hall in Hok2. apply Forall_app in Hok2 as [Hok2 _].
  assert (Hbs : byte_ok b1 /\ byte_ok b2 /\ byte_ok id /\ bytes_ok d).
  { cbn [app] in Hok2.
    inversion Hok2 as [|? ? _ K1]; subst. inversion K1 as [|? ? Q1 K2]; subst.
    inversion K2 as [|? ? Q2 K3]; subst. inversion K3 as [|? ? Q3 K4]; subst.
    apply Forall_app in K4. tauto. }
  destruct Hbs as (Q1 & Q2 & Q3 & Q4).
  assert (Hdec : b1 = Z.of_nat (declared l)).
  { unfold declared. rewrite Hb1. unfold byte_ok in Q1. lia. }
  destruct (from_buffer_sound _ (declared l) b1 b2 id d fcs f Hd Q2 Hdec Hf)
    as (Hw & Hid & Hdat & Hlen & Hfcs).
  split; [rewrite Hall, Hw; reflexivity|].
  split.
  - split; [rewrite Hid; exact Q3|]. split; [rewrite Hdat; exact Q4|].
    rewrite Hdat, Hd. unfold byte_ok in Q1. lia.
  - clear Hall Hsp Hok Hok2 Hf. destruct f as [ft fs fi fd fl ff].
    cbn [f_id f_data f_length f_fcs] in Hid, Hdat, Hlen, Hfcs.
    rewrite Hb1 in Hlen. rewrite Hdec, <- Hd in Hlen. rewrite Hid, Hdat, Hlen, Hfcs in *.
    unfold received. cbn [f_type f_sub f_id f_data].
    f_equal. f_equal.
    unfold wire_of, wire in Hw. cbn [f_type f_sub f_id f_data app] in Hw.
    injection Hw as _ _ Hw. apply app_inv_head in Hw. injection Hw as Hw. exact Hw.
Qed.

Lemma segments_snoc js fs j f : length js = length fs ->
  segments (js ++ [j]) (fs ++ [f]) = segments js fs ++ j ++ wire_of f.
Proof.
  revert fs; induction js as [|a js IH]; intros [|g fs] H; cbn [segments app length] in *; try discriminate.
  - rewrite !app_nil_r. reflexivity.
  - rewrite IH by congruence. rewrite <- !app_assoc. reflexivity.
Qed.

Lemma delivered_app a b : delivered (a ++ b) = delivered a ++ delivered b.
Proof. apply flat_map_app. Qed.

(** a write keeps the bytes accounted for: the new buffer is a suffix of what is unaccounted *)
Lemma write_suffix buf b : good_buffer buf -> byte_ok b ->
  exists d, buf ++ [b] = d ++ fst (parser_write buf b).
Proof.
  intros Hg Hb. destruct (good_hd buf b Hg Hb) as [[r Hs]|(x & r & Hs & Hx)].
  - rewrite (write_step_sof r b buf Hb Hs). destruct (incompleteb _); cbn [fst].
    + exists []. reflexivity.
    + eexists. symmetry. apply firstn_skipn.
  - rewrite (write_step_drop x r b buf Hb Hs Hx). exists (buf ++ [b]). cbn [fst]. symmetry. apply app_nil_r.
Qed.

Lemma run_snoc buf l b :
  parser_run buf (l ++ [b]) =
  let '(b1, o1) := parser_run buf l in
  let '(b2, o) := parser_write b1 b in
  (b2, o1 ++ match o with Ok None => [] | Ok (Some f) => [Ok f] | Err e => [Err e] end).
Proof.
  rewrite parser_run_app. destruct (parser_run buf l) as [b1 o1]. rewrite parser_run_cons.
  destruct (parser_write b1 b) as [b2 [[f|]|e]]; reflexivity.
Qed.

Lemma run_decomposition h : bytes_ok h ->
  let '(buf, os) := parser_run [] h in
  exists js tail, length js = length (delivered os) /\
    h = segments js (delivered os) ++ tail ++ buf /\
    Forall (fun f => sendable f /\ f = received f) (delivered os).
Proof.
  induction h as [|b h IH] using rev_ind; intro Hok.
  - exists [], []. repeat split; constructor.
  - apply Forall_app in Hok as [Hh Hb]. inversion Hb as [|? ? Hb' _]; subst. specialize (IH Hh).
    rewrite run_snoc. pose proof (good_run h [] Hh good_nil) as Hg.
    destruct (parser_run [] h) as [b1 o1]. cbn [fst] in Hg.
    destruct IH as (js & tail & Hl & Heq & Hall).
    pose proof (write_suffix b1 b Hg Hb') as [d Hd].
    destruct (parser_write b1 b) as [b2 o] eqn:Ew. cbn [fst] in Hd.
    destruct o as [[f|]|e].
    + destruct (write_sound b1 b b2 f Hg Hb' Ew) as (Hw & Hs & Hr).
      exists (js ++ [tail]), []. rewrite delivered_app. cbn [delivered flat_map app].
      rewrite !app_length. cbn [length]. split; [lia|]. split.
      * rewrite segments_snoc by exact Hl. rewrite Heq.
        rewrite <- !app_assoc. rewrite Hw. reflexivity.
      * apply Forall_app. split; [exact Hall|]. constructor; [tauto|constructor].
    + exists js, (tail ++ d). rewrite app_nil_r. split; [exact Hl|]. split; [|exact Hall].
      rewrite Heq. rewrite <- !app_assoc. rewrite Hd. reflexivity.
    + exists js, (tail ++ d). rewrite delivered_app. cbn [delivered flat_map]. rewrite app_nil_r.
      split; [exact Hl|]. split; [|exact Hall].
      rewrite Heq. rewrite <- !app_assoc. rewrite Hd. reflexivity.
Qed.
