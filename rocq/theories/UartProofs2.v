(** * More proofs about the parser and the gateway: corruption, recovery, chunking, sending *)
From Verif Require Import Base Types Uart SpecWire UartProofs.
From Coq Require Import ZifyBool ZifyNat.

(** ** corruption *)
Lemma xor_all_snoc l x : xor_all (l ++ [x]) = Z.lxor (xor_all l) x.
Proof. rewrite xor_all_app. cbn [xor_all fold_right]. rewrite Z.lxor_0_r. reflexivity. Qed.

Lemma xor_self_zero ct sub id d : xor_all (skipn 1 (wire ct sub id d)) = 0.
Proof. rewrite wire_body. cbn [skipn]. rewrite xor_all_snoc. apply Z.lxor_nilpotent. Qed.

Lemma xor_overwrite l i v : (i < length l)%nat ->
  xor_all (overwrite l i v) = xor_all l -> v = nth i l 0.
Proof.
  intros Hi H. unfold overwrite in H.
  assert (Hs : l = firstn i l ++ nth i l 0 :: skipn (S i) l).
  { clear H. revert i Hi. induction l as [|x l IH]; intros [|i] Hi; cbn [length] in Hi; try lia.
    - reflexivity.
    - cbn [firstn app nth]. change (skipn (S (S i)) (x :: l)) with (skipn (S i) l).
      f_equal. apply IH. lia. }
  rewrite Hs in H at 3. rewrite !xor_all_app in H.
  apply (f_equal (Z.lxor (xor_all (firstn i l)))) in H.
  rewrite <- !Z.lxor_assoc, Z.lxor_nilpotent, !Z.lxor_0_l in H.
  cbn [xor_all fold_right] in H. fold (xor_all (skipn (S i) l)) in H.
  apply (f_equal (fun z => Z.lxor z (xor_all (skipn (S i) l)))) in H.
  rewrite !Z.lxor_assoc, Z.lxor_nilpotent, !Z.lxor_0_r in H. exact H.
Qed.

Lemma from_buffer_bad len b1 b2 id d fcs :
  xor_all (b1 :: b2 :: id :: d ++ [fcs]) <> 0 ->
  from_buffer len (4 + length d) ([254; b1; b2; id] ++ d ++ [fcs]) = Ok None.
Proof.
  intro H. unfold from_buffer, py_index, PositionCmd0, PositionCmd1.
  cbn [app nth_error bind].
  assert (Hx : nth_error (254 :: b1 :: b2 :: id :: d ++ [fcs]) (4 + length d) = Some fcs).
  { cbn [nth_error Nat.add]. rewrite nth_error_app2 by lia. rewrite Nat.sub_diag. reflexivity. }
  rewrite Hx. cbn [bind].
  assert (Hs : py_slice (254 :: b1 :: b2 :: id :: d ++ [fcs]) 1 (4 + length d) = b1 :: b2 :: id :: d).
  { unfold py_slice. cbn [skipn]. replace (4 + length d - 1)%nat with (S (S (S (length d)))) by lia.
    cbn [firstn]. rewrite firstn_app, Nat.sub_diag, firstn_all. cbn [firstn].
    rewrite app_nil_r. reflexivity. }
  rewrite Hs, checksum_xor.
  destruct (Z.eqb_spec (xor_all (b1 :: b2 :: id :: d)) fcs) as [E|_]; [|reflexivity].
  exfalso. apply H.
  change (b1 :: b2 :: id :: d ++ [fcs]) with ((b1 :: b2 :: id :: d) ++ [fcs]).
  rewrite xor_all_snoc, E. apply Z.lxor_nilpotent.
Qed.

(** a complete message with the right length and a wrong checksum is consumed silently *)
Lemma run_bad b1 b2 id d fcs :
  bytes_ok (b1 :: b2 :: id :: d ++ [fcs]) -> b1 = Z.of_nat (length d) ->
  xor_all (b1 :: b2 :: id :: d ++ [fcs]) <> 0 -> d <> [] ->
  parser_run [] (254 :: b1 :: b2 :: id :: d ++ [fcs]) = ([], []).
Proof.
  intros Hok Hb Hx Hd.
  change (254 :: b1 :: b2 :: id :: d ++ [fcs]) with ([254] ++ (b1 :: b2 :: id :: d) ++ [fcs]).
  rewrite parser_run_app, run_start, parser_run_app.
  change (b1 :: b2 :: id :: d ++ [fcs]) with ((b1 :: b2 :: id :: d) ++ [fcs]) in Hok.
  apply Forall_app in Hok as [Hok Hf].
  rewrite (run_accumulate (b1 :: b2 :: id :: d) []); [|exact Hok|].
  2:{ right. unfold declared. cbn [app length nth]. rewrite Hb. lia. }
  rewrite parser_run_cons.
  change ((254 :: []) ++ b1 :: b2 :: id :: d) with (254 :: b1 :: b2 :: id :: d).
  assert (Hfo' : byte_ok fcs) by (inversion Hf; assumption).
  rewrite (write_step_sof (b1 :: b2 :: id :: d ++ [fcs]) fcs (254 :: b1 :: b2 :: id :: d) Hfo' eq_refl).
  change ((254 :: b1 :: b2 :: id :: d) ++ [fcs]) with ([254; b1; b2; id] ++ d ++ [fcs]).
  set (l := [254; b1; b2; id] ++ d ++ [fcs]).
  assert (Hdecl : declared l = length d) by (unfold declared, l; cbn [app nth]; rewrite Hb; lia).
  assert (Hlen : length l = (5 + length d)%nat).
  { unfold l. rewrite !app_length. cbn [length]. lia. }
  assert (Hinc : incompleteb l = false).
  { unfold incompleteb. rewrite Hlen, Hdecl.
    destruct d as [|y d]; [congruence|]. cbn [length].
    rewrite orb_false_iff. rewrite Nat.leb_gt, Nat.ltb_ge. lia. }
  rewrite Hinc, Hdecl, <- Hlen, firstn_all, skipn_all. unfold l.
  rewrite from_buffer_bad by exact Hx. reflexivity.
Qed.

Lemma run_bad_empty b2 id fcs b :
  bytes_ok [b2; id; fcs; b] -> xor_all [0; b2; id; fcs] <> 0 ->
  parser_run [] [254; 0; b2; id; fcs; b] = ([b], []).
Proof.
  intros Hok Hx.
  change [254; 0; b2; id; fcs; b] with ([254] ++ [0; b2; id; fcs] ++ [b]).
  rewrite parser_run_app, run_start, parser_run_app.
  assert (Hok4 : bytes_ok [0; b2; id; fcs]).
  { change [b2; id; fcs; b] with ([b2; id; fcs] ++ [b]) in Hok. apply Forall_app in Hok as [Hok _].
    constructor; [unfold byte_ok; lia|exact Hok]. }
  assert (Hb : byte_ok b).
  { change [b2; id; fcs; b] with ([b2; id; fcs] ++ [b]) in Hok. apply Forall_app in Hok as [_ Hok].
    inversion Hok; assumption. }
  rewrite (run_accumulate [0; b2; id; fcs] []); [|exact Hok4|left; cbn; lia].
  rewrite parser_run_cons. cbn [app].
  rewrite (write_step_sof [0; b2; id; fcs; b] b [254; 0; b2; id; fcs] Hb eq_refl).
  cbn [app incompleteb declared nth length Nat.leb Nat.ltb orb Z.to_nat Nat.add skipn firstn].
  change 4%nat with (4 + length (@nil Z))%nat.
  change [254; 0; b2; id; fcs] with ([254; 0; b2; id] ++ [] ++ [fcs]).
  rewrite (from_buffer_bad 0 0 b2 id [] fcs Hx). reflexivity.
Qed.

Lemma overwrite_length l i v : (i < length l)%nat -> length (overwrite l i v) = length l.
Proof.
  intro H. unfold overwrite. rewrite app_length, firstn_length. cbn [length].
  rewrite skipn_length. lia.
Qed.

Lemma overwrite_nth_other l i j v : (i < length l)%nat -> (j < i)%nat -> nth_error (overwrite l i v) j = nth_error l j.
Proof.
  intros H Hj. unfold overwrite. rewrite nth_error_app1 by (rewrite firstn_length; lia).
  clear H. revert i j Hj. induction l as [|x l IH]; intros [|i] [|j] Hj; try lia; cbn; try reflexivity.
  apply IH. lia.
Qed.

Lemma overwrite_ok l i v : bytes_ok l -> byte_ok v -> bytes_ok (overwrite l i v).
Proof.
  intros H Hv. unfold overwrite. apply Forall_app. split.
  - rewrite <- (firstn_skipn i l) in H. apply Forall_app in H. apply H.
  - constructor; [exact Hv|]. rewrite <- (firstn_skipn (S i) l) in H. apply Forall_app in H. apply H.
Qed.

Lemma overwrite_cons x l i v : overwrite (x :: l) (S i) v = x :: overwrite l i v.
Proof. reflexivity. Qed.

Lemma list_ends (l : list Z) n : length l = S n -> exists d x, l = d ++ [x] /\ length d = n.
Proof.
  intro H. destruct (exists_last (l := l)) as (d & x & ->).
  { intro C. rewrite C in H. discriminate. }
  exists d, x. split; [reflexivity|]. rewrite app_length in H. cbn in H. lia.
Qed.

(** the corrupted frame, opened up *)
Lemma corrupted_shape f i v :
  sendable f -> byte_ok v -> (2 <= i < length (wire_of f))%nat -> v <> nth i (wire_of f) 0 ->
  exists b2 id d fcs,
    overwrite (wire_of f) i v = 254 :: Z.of_nat (length d) :: b2 :: id :: d ++ [fcs] /\
    length d = length (f_data f) /\
    bytes_ok (Z.of_nat (length d) :: b2 :: id :: d ++ [fcs]) /\
    xor_all (Z.of_nat (length d) :: b2 :: id :: d ++ [fcs]) <> 0.
Proof.
  intros Hs Hv [Hi1 Hi2] Hne.
  destruct i as [|[|i]]; try lia.
  pose proof (wire_ok f Hs) as Hok.
  pose proof (xor_self_zero (ct_val (f_type f)) (sub_val (f_sub f)) (f_id f) (f_data f)) as Hz.
  rewrite <- wire_of_val in Hz.
  remember (wire_of f) as w eqn:Ew.
  assert (Hlen : length w = (5 + length (f_data f))%nat) by (subst w; apply wire_length).
  assert (Hw : exists w2, w = 254 :: Z.of_nat (length (f_data f)) :: w2).
  { subst w. eexists. reflexivity. }
  destruct Hw as [w2 ->]. cbn [length] in *.
  rewrite !overwrite_cons.
  assert (Hl2 : length (overwrite w2 i v) = (3 + length (f_data f))%nat).
  { rewrite overwrite_length; lia. }
  assert (Hok2 : bytes_ok (overwrite w2 i v)).
  { apply overwrite_ok; [|exact Hv]. inversion Hok as [|? ? _ K]; subst. inversion K; assumption. }
  assert (Hx : xor_all (Z.of_nat (length (f_data f)) :: overwrite w2 i v) <> 0).
  { rewrite <- Hz. intro C. apply Hne. cbn [skipn] in C.
    change (nth (S (S i)) (254 :: Z.of_nat (length (f_data f)) :: w2) 0) with (nth i w2 0).
    cbn [xor_all fold_right] in C.
    apply (f_equal (Z.lxor (Z.of_nat (length (f_data f))))) in C.
    rewrite <- !Z.lxor_assoc, Z.lxor_nilpotent, !Z.lxor_0_l in C.
    apply xor_overwrite; [lia|exact C]. }
  destruct (overwrite w2 i v) as [|b2 [|id r]] eqn:Eo; cbn [length] in Hl2; try lia.
  destruct (list_ends r (length (f_data f))) as (d & fcs & -> & Hd); [lia|].
  exists b2, id, d, fcs. rewrite Hd.
  split; [reflexivity|]. split; [reflexivity|]. split; [|exact Hx].
  constructor; [|exact Hok2]. destruct Hs as (_ & _ & Hsl). unfold byte_ok. lia.
Qed.

Lemma corrupted_not_delivered f i v :
  sendable f -> byte_ok v -> (2 <= i < length (wire_of f))%nat -> v <> nth i (wire_of f) 0 ->
  (f_data f <> [] -> parser_run [] (overwrite (wire_of f) i v) = ([], [])) /\
  (f_data f = [] -> forall b, byte_ok b -> parser_run [] (overwrite (wire_of f) i v ++ [b]) = ([b], [])).
Proof.
  intros Hs Hv Hi Hne.
  destruct (corrupted_shape f i v Hs Hv Hi Hne) as (b2 & id & d & fcs & -> & Hd & Hok & Hx).
  split; intro Hf.
  - apply run_bad; auto. intro C. rewrite C in Hd. destruct (f_data f); [congruence|discriminate].
  - intros b Hb. rewrite Hf in Hd. destruct d; [|discriminate].
    cbn [length app] in *. change (Z.of_nat 0) with 0 in *. apply run_bad_empty; [|exact Hx].
    inversion Hok as [|? ? _ K]; subst. change [b2; id; fcs; b] with ([b2; id; fcs] ++ [b]).
    apply Forall_app. split; [exact K|]. constructor; [exact Hb|constructor].
Qed.

(** ** recovery *)
Definition pending (buf : list Z) : nat :=
  match buf with
  | [] => 0
  | x :: r => if x =? 254 then match r with [] => 259 | _ => Nat.max (5 + declared buf) 7 - length buf end else 1
  end.

Lemma pending_bound buf : bytes_ok buf -> (pending buf <= 259)%nat.
Proof.
  intro H. unfold pending, declared. destruct buf as [|x [|y r]]; try lia.
  - destruct (x =? 254); lia.
  - cbn [nth length]. inversion H as [|? ? _ K]; subst. inversion K as [|? ? Hy _]; subst.
    unfold byte_ok in Hy. destruct (x =? 254); lia.
Qed.

Lemma pending_decreases buf b : good_buffer buf -> byte_ok b -> b <> 254 -> buf <> [] ->
  (pending (fst (parser_write buf b)) < pending buf)%nat.
Proof.
  intros Hg Hb Hne Hbuf.
  destruct buf as [|x r]; [congruence|]. clear Hbuf.
  destruct (Z.eq_dec x 254) as [->|Hx].
  2:{ rewrite (write_step_drop x (r ++ [b]) b (x :: r) Hb eq_refl Hx). cbn [fst pending].
      destruct (Z.eqb_spec x 254); [congruence|]. lia. }
  pose proof (complete_rest (254 :: r) b (r ++ [b]) Hg Hb eq_refl) as Hc.
  rewrite (write_step_sof (r ++ [b]) b (254 :: r) Hb eq_refl).
  change ((254 :: r) ++ [b]) with (254 :: r ++ [b]) in *.
  destruct (incompleteb (254 :: r ++ [b])) eqn:E; cbn [fst].
  - clear Hc. apply incompleteb_ok in E. unfold pending. rewrite Z.eqb_refl.
    destruct r as [|y r].
    + cbn [app]. unfold declared. cbn [nth length].
      unfold byte_ok in Hb. lia.
    + cbn [app] in *. unfold incomplete, declared in *. cbn [nth length] in *.
      rewrite app_length in *. cbn [length] in *. lia.
  - destruct (Hc eq_refl) as [Hl [->|(Hd0 & Hl6 & ->)]].
    + unfold pending. rewrite Z.eqb_refl. destruct r as [|y r]; [lia|].
      unfold incompleteb in E. rewrite orb_false_iff, Nat.leb_gt, Nat.ltb_ge in E.
      destruct Hg as [_ [C|[[z C]|(r' & C & Hi)]]]; try discriminate.
      injection C as <-. unfold incomplete, declared in *. cbn [nth length app] in *. lia.
    + unfold pending. rewrite Z.eqb_refl. destruct (Z.eqb_spec b 254); [congruence|].
      destruct r as [|y r]; [lia|].
      cbn [length app] in *. rewrite app_length in Hl6. cbn [length] in Hl6. lia.
Qed.

Lemma run_recovers l buf : good_buffer buf -> bytes_ok l -> ~ In 254 l ->
  (pending buf <= length l)%nat -> fst (parser_run buf l) = [].
Proof.
  revert buf. induction l as [|b l IH]; intros buf Hg Hok Hn Hp.
  - cbn [length] in Hp. cbn [parser_run fst]. destruct buf as [|x r]; [reflexivity|exfalso].
    cbn [pending] in Hp. destruct (Z.eqb_spec x 254) as [->|]; [|lia].
    destruct r as [|y r]; [lia|].
    destruct Hg as [_ [C|[[z C]|(r' & C & Hi)]]]; try discriminate.
    unfold incomplete in Hi. cbn [length] in *. lia.
  - inversion Hok as [|? ? Hb Hl]; subst. cbn [In] in Hn.
    destruct buf as [|x r].
    + rewrite run_noise; [reflexivity|exact Hok|cbn [In]; tauto].
    + rewrite parser_run_cons.
      pose proof (pending_decreases (x :: r) b Hg Hb ltac:(intro; subst; tauto) ltac:(discriminate)) as Hd.
      pose proof (good_write (x :: r) b Hg Hb) as Hg1.
      destruct (parser_write (x :: r) b) as [b1 o]. cbn [fst] in *.
      specialize (IH b1 Hg1 Hl ltac:(tauto)). cbn [length] in Hp.
      destruct (parser_run b1 l) as [b2 os]. cbn [fst] in *. apply IH. lia.
Qed.

Lemma recovery h l fs : bytes_ok h -> bytes_ok l -> ~ In 254 l -> (259 <= length l)%nat ->
  Forall sendable fs ->
  fst (parser_run [] (h ++ l)) = [] /\
  parser_run [] (h ++ l ++ stream fs) =
    (fst (stream_outcome fs), snd (parser_run [] (h ++ l)) ++ snd (stream_outcome fs)).
Proof.
  intros Hh Hl Hn Hlen Hfs.
  assert (H1 : fst (parser_run [] (h ++ l)) = []).
  { rewrite parser_run_app. pose proof (good_run h [] Hh good_nil) as Hg.
    destruct (parser_run [] h) as [b1 o1]. cbn [fst] in Hg.
    assert (Hr : fst (parser_run b1 l) = []).
    { apply run_recovers; auto. pose proof (pending_bound b1 (proj1 Hg)). lia. }
    destruct (parser_run b1 l). exact Hr. }
  split; [exact H1|].
  rewrite app_assoc, parser_run_app. destruct (parser_run [] (h ++ l)) as [b o]. cbn [fst snd] in *.
  subst b. rewrite run_stream by exact Hfs. destruct (stream_outcome fs). reflexivity.
Qed.

(** ** the gateway: chunks *)
Section Gateway.
  Context {S : Type} (h : S -> frame -> S * result unit).

  Lemma gw_app a b buf s :
    gw_data_received h buf s (a ++ b) =
    let '(b1, s1, o) := gw_data_received h buf s a in
    match o with Ok _ => gw_data_received h b1 s1 b | Err e => (b1, s1, Err e) end.
  Proof.
    revert buf s; induction a as [|x a IH]; intros buf s; cbn [gw_data_received app]; [reflexivity|].
    destruct (parser_write buf x) as [b1 [[f|]|e]].
    - destruct (h s f) as [s1 [u|e]]; [apply IH|reflexivity].
    - apply IH.
    - reflexivity.
  Qed.

  Lemma chunks_whole cs : forall buf s b' s',
    gw_data_received h buf s (concat cs) = (b', s', Ok tt) -> gw_chunks h buf s cs = (b', s', []).
  Proof.
    induction cs as [|c cs IH]; intros buf s b' s' H; cbn [concat gw_chunks] in *.
    - injection H as -> ->. reflexivity.
    - rewrite gw_app in H. destruct (gw_data_received h buf s c) as [[b1 s1] [[]|e]]; [|discriminate].
      rewrite (IH _ _ _ _ H). reflexivity.
  Qed.

  Lemma whole_chunks cs : forall buf s b' s',
    gw_chunks h buf s cs = (b', s', []) -> gw_data_received h buf s (concat cs) = (b', s', Ok tt).
  Proof.
    induction cs as [|c cs IH]; intros buf s b' s' H; cbn [concat gw_chunks] in *.
    - injection H as -> ->. reflexivity.
    - rewrite gw_app. destruct (gw_data_received h buf s c) as [[b1 s1] [[]|e]].
      + apply IH. destruct (gw_chunks h b1 s1 cs) as [[b2 s2] es]. exact H.
      + destruct (gw_chunks h b1 s1 cs) as [[b2 s2] es]. discriminate.
  Qed.

  (** data_received is the parser followed by the callback, up to the first exception *)
  Fixpoint feed (s : S) (os : list (result frame)) : S * result unit :=
    match os with
    | [] => (s, Ok tt)
    | Err e :: _ => (s, Err e)
    | Ok f :: os => let '(s1, o) := h s f in match o with Ok _ => feed s1 os | Err e => (s1, Err e) end
    end.

  Lemma gw_feed l : forall buf s,
    let '(_, s', o) := gw_data_received h buf s l in (s', o) = feed s (snd (parser_run buf l)).
  Proof.
    induction l as [|b l IH]; intros buf s; [reflexivity|].
    cbn [gw_data_received]. rewrite parser_run_cons.
    destruct (parser_write buf b) as [b1 [[f|]|e]].
    - specialize (IH b1). destruct (parser_run b1 l) as [b2 os]. cbn [snd feed] in *.
      destruct (h s f) as [s1 [u|e]]; [|reflexivity]. apply IH.
    - specialize (IH b1 s). destruct (parser_run b1 l) as [b2 os]. cbn [snd] in *. apply IH.
    - destruct (parser_run b1 l) as [b2 os]. reflexivity.
  Qed.

  Lemma gw_buffer l : forall buf s b' s' u,
    gw_data_received h buf s l = (b', s', Ok u) -> b' = fst (parser_run buf l).
  Proof.
    induction l as [|b l IH]; intros buf s b' s' u H; cbn [gw_data_received] in H.
    - injection H as <- <- _. reflexivity.
    - rewrite parser_run_cons. destruct (parser_write buf b) as [b1 [[f|]|e]].
      + destruct (h s f) as [s1 [v|e]]; [|discriminate].
        apply IH in H. destruct (parser_run b1 l). exact H.
      + apply IH in H. destruct (parser_run b1 l). exact H.
      + discriminate.
  Qed.
End Gateway.

(** ** one message per chunk: exceptions do not spread *)
Lemma raw_fields ct sub : 0 <= ct < 8 -> 0 <= sub < 32 ->
  byte_ok (32 * ct + sub) /\ Z.land (32 * ct + sub) 31 = sub /\
  Z.shiftr (Z.land (32 * ct + sub) 224) 5 = ct.
Proof.
  intros H1 H2.
  assert (Hb : byte_ok (32 * ct + sub)) by (unfold byte_ok; lia).
  split; [exact Hb|].
  assert (Hl : Z.land (32 * ct + sub) 31 = (32 * ct + sub) mod 32).
  { change 31 with (Z.ones 5). apply Z.land_ones. lia. }
  assert (Hs : Z.land (32 * ct + sub) 31 = sub).
  { rewrite Hl, Z.add_comm, Z.mul_comm, Z_mod_plus_full, Z.mod_small; lia. }
  split; [exact Hs|]. pose proof (cmd0_split _ Hb) as E. lia.
Qed.

Lemma raw_frame_of ct sub id d :
  raw_frame (ct, sub, id, d) =
  match ct_of ct, sub_of sub with
  | Ok c, Ok s => Some (received (mk_frame c s id d None None))
  | _, _ => None
  end.
Proof.
  unfold raw_frame.
  assert (E1 : find (fun c => type_code c =? ct) [POLL; SREQ; AREQ; SRSP] =
               match ct_of ct with Ok c => Some c | Err _ => None end).
  { destruct (ct_of ct) as [c|e] eqn:E.
    - apply ct_of_inv in E. subst ct. destruct c; reflexivity.
    - match goal with |- find ?g ?l = _ => destruct (find g l) as [c|] eqn:F; [|reflexivity] end.
      apply find_some in F as [_ F]. apply Z.eqb_eq in F. subst ct.
      change (type_code c) with (ct_val c) in E. rewrite ct_of_val in E. discriminate. }
  assert (E2 : find (fun s => sub_code s =? sub)
          [RESERVED; SYS; MAC; NWK; AF; ZDO; SAPI; UTIL; DEBUG; APP; APP_CNF; GREENPOWER] =
               match sub_of sub with Ok c => Some c | Err _ => None end).
  { destruct (sub_of sub) as [c|e] eqn:E.
    - apply sub_of_inv in E. subst sub. destruct c; reflexivity.
    - match goal with |- find ?g ?l = _ => destruct (find g l) as [c|] eqn:F; [|reflexivity] end.
      apply find_some in F as [_ F]. apply Z.eqb_eq in F. subst sub.
      change (sub_code c) with (sub_val c) in E. rewrite sub_of_val in E. discriminate. }
  rewrite E1, E2. destruct (ct_of ct), (sub_of sub); reflexivity.
Qed.

Lemma run_raw r : raw_ok r ->
  parser_run [] (raw_wire r) =
  ([], [match raw_frame r with Some f => Ok f | None => Err ValueError end]).
Proof.
  destruct r as [[[ct sub] id] d]. intros (Hct & Hsub & Hid & Hd & Hne & Hlen).
  destruct (raw_fields ct sub Hct Hsub) as (Hb2 & Hland & Hshift).
  unfold raw_wire, wire.
  set (b2 := 32 * ct + sub) in *. set (n := Z.of_nat (length d)).
  set (x := xor_all (n :: b2 :: id :: d)).
  change (254 :: (n :: b2 :: id :: d) ++ [x]) with ([254] ++ (n :: b2 :: id :: d) ++ [x]).
  assert (Hok : bytes_ok (n :: b2 :: id :: d)).
  { repeat constructor; try assumption; unfold n; try lia; apply Hb2 || apply Hid. }
  assert (Hx : byte_ok x) by (apply xor_all_byte, Hok).
  rewrite parser_run_app, run_start, parser_run_app.
  rewrite (run_accumulate (n :: b2 :: id :: d) []); [|exact Hok|].
  2:{ right. unfold declared, n. cbn [app length nth]. lia. }
  change ((254 :: []) ++ n :: b2 :: id :: d) with (254 :: n :: b2 :: id :: d).
  rewrite parser_run_cons.
  rewrite (write_step_sof (n :: b2 :: id :: d ++ [x]) x (254 :: n :: b2 :: id :: d) Hx eq_refl).
  change ((254 :: n :: b2 :: id :: d) ++ [x]) with ([254; n; b2; id] ++ d ++ [x]).
  set (l := [254; n; b2; id] ++ d ++ [x]).
  assert (Hdecl : declared l = length d) by (unfold declared, l, n; cbn [app nth]; lia).
  assert (Hl : length l = (5 + length d)%nat).
  { unfold l. rewrite !app_length. cbn [length]. lia. }
  assert (Hinc : incompleteb l = false).
  { unfold incompleteb. rewrite Hl, Hdecl.
    destruct d as [|y d']; [congruence|]. cbn [length].
    rewrite orb_false_iff. rewrite Nat.leb_gt, Nat.ltb_ge. lia. }
  rewrite Hinc, Hdecl, <- Hl, firstn_all, skipn_all.
  assert (Hfb : from_buffer (nth 1 l 0) (4 + length d) l =
                do f <- unpi_init ct sub id d (Some n) (Some x); Ok (Some f)).
  { unfold from_buffer, py_index, PositionCmd0, PositionCmd1, l.
    cbn [app nth_error bind].
    assert (E1 : nth_error (254 :: n :: b2 :: id :: d ++ [x]) (4 + length d) = Some x).
    { cbn [nth_error Nat.add]. rewrite nth_error_app2 by lia. rewrite Nat.sub_diag. reflexivity. }
    rewrite E1. cbn [bind].
    assert (E2 : py_slice (254 :: n :: b2 :: id :: d ++ [x]) 1 (4 + length d) = n :: b2 :: id :: d).
    { unfold py_slice. cbn [skipn]. replace (4 + length d - 1)%nat with (Datatypes.S (Datatypes.S (Datatypes.S (length d)))) by lia.
      cbn [firstn]. rewrite firstn_app, Nat.sub_diag, firstn_all. cbn [firstn].
      rewrite app_nil_r. reflexivity. }
    assert (E3 : py_slice (254 :: n :: b2 :: id :: d ++ [x]) DataStart (4 + length d) = d).
    { unfold py_slice, DataStart. cbn [skipn]. replace (4 + length d - 4)%nat with (length d) by lia.
      rewrite firstn_app, Nat.sub_diag, firstn_all. cbn [firstn]. apply app_nil_r. }
    rewrite E2, E3, checksum_xor. unfold x at 1. rewrite Z.eqb_refl, Hland, Hshift. reflexivity. }
  rewrite Hfb. unfold unpi_init. rewrite raw_frame_of.
  destruct (ct_of ct) as [c|e] eqn:Ec; cbn [bind].
  - destruct (sub_of sub) as [s|e] eqn:Es; cbn [bind].
    + apply ct_of_inv in Ec as Hc. apply sub_of_inv in Es as Hsv.
      unfold received. cbn [f_type f_sub f_id f_data]. rewrite type_code_val, sub_code_val, <- Hc, <- Hsv. reflexivity.
    + assert (e = ValueError) as ->; [|reflexivity].
      unfold sub_of in Es.
      repeat match type of Es with
             | (match ?y with _ => _ end) = _ => destruct y; try discriminate
             end; injection Es as <-; reflexivity.
  - assert (e = ValueError) as ->; [|reflexivity].
    unfold ct_of in Ec.
    repeat match type of Ec with
           | (match ?y with _ => _ end) = _ => destruct y; try discriminate
           end; injection Ec as <-; reflexivity.
Qed.

Lemma chunk_raw {S} (h : S -> frame -> S * result unit) s r : raw_ok r ->
  gw_data_received h [] s (raw_wire r) =
  ([], deliver h s r, match raw_frame r with Some f => snd (h s f) | None => Err ValueError end).
Proof.
  intro H. pose proof (run_raw r H) as Hr.
  (* nothing can raise before the last byte, so the buffer is empty afterwards *)
  assert (G : forall l buf f s0, parser_run buf l = ([], [f]) ->
     l <> [] -> (forall p q, l = p ++ q -> q <> [] -> snd (parser_run buf p) = []) ->
     gw_data_received h buf s0 l =
       ([], match f with Ok g => fst (h s0 g) | Err _ => s0 end, match f with Ok g => snd (h s0 g) | Err e => Err e end)).
  { induction l as [|b l IH]; intros buf f s0 Hp Hne Hpre; [congruence|].
    rewrite parser_run_cons in Hp. cbn [gw_data_received].
    destruct l as [|b' l].
    - destruct (parser_write buf b) as [b1 o]. cbn [parser_run] in Hp.
      destruct o as [[g|]|e]; try (injection Hp as -> <-).
      + cbn [gw_data_received]. destruct (h s0 g) as [s1 [[]|e]]; reflexivity.
      + discriminate.
      + reflexivity.
    - pose proof (Hpre [b] (b' :: l) eq_refl ltac:(discriminate)) as H1.
      rewrite parser_run_cons in H1. cbn [parser_run] in H1.
      assert (Hpre' : forall p q, b' :: l = p ++ q -> q <> [] ->
                snd (parser_run (fst (parser_write buf b)) p) = []).
      { intros p q E Hq. specialize (Hpre (b :: p) q ltac:(cbn; rewrite E; reflexivity) Hq).
        rewrite parser_run_cons in Hpre. destruct (parser_write buf b) as [b1 o]. cbn [fst].
        destruct (parser_run b1 p) as [b2 os]. cbn [snd] in *. destruct o as [[g|]|e]; try discriminate.
        exact Hpre. }
      destruct (parser_write buf b) as [b1 o]. cbn [fst] in Hpre'.
      destruct o as [[g|]|e]; try discriminate.
      destruct (parser_run b1 (b' :: l)) as [b2 os] eqn:Er.
      injection Hp as -> ->. apply IH; [exact Er|discriminate|exact Hpre']. }
  specialize (G (raw_wire r) [] (match raw_frame r with Some f => Ok f | None => Err ValueError end) s Hr).
  rewrite G.
  - unfold deliver. destruct (raw_frame r); reflexivity.
  - destruct r as [[[? ?] ?] ?]. discriminate.
  - intros p q E Hq.
    destruct r as [[[ct sub] id] d]. destruct H as (Hct & Hsub & Hid & Hd & Hne & Hlen).
    unfold raw_wire in E. rewrite wire_body in E.
    set (bd := body ct sub id d) in E. pose proof (eq_refl : bd = body ct sub id d) as Ebd.
    clearbody bd.
    destruct p as [|p0 p]; [reflexivity|].
    cbn [app] in E. injection E as <- E.
    destruct (exists_last Hq) as (q' & z & ->).
    assert (Ep : p ++ q' = Z.of_nat (length d) :: 32 * ct + sub :: id :: d).
    { rewrite app_assoc in E. apply app_inj_tail in E as [E _]. rewrite <- E. exact Ebd. }
    change (254 :: p) with ([254] ++ p). rewrite parser_run_app, run_start.
    destruct (raw_fields ct sub Hct Hsub) as (Hb2 & _ & _).
    assert (Hok : bytes_ok (p ++ q')).
    { rewrite Ep. repeat constructor; try assumption; try lia; apply Hb2 || apply Hid. }
    apply Forall_app in Hok as [Hok _].
    rewrite (run_accumulate p []); [reflexivity|exact Hok|].
    apply (incomplete_prefix _ q'). rewrite <- app_assoc, Ep.
    right. unfold declared. cbn [app length nth]. lia.
Qed.

Lemma chunks_raw {S} (h : S -> frame -> S * result unit) rs : Forall raw_ok rs ->
  forall s, exists es, gw_chunks h [] s (map raw_wire rs) = ([], fold_left (deliver h) rs s, es).
Proof.
  induction 1 as [|r rs Hr _ IH]; intro s; [eexists; reflexivity|].
  cbn [map gw_chunks fold_left]. rewrite (chunk_raw h s r Hr).
  destruct (IH (deliver h s r)) as [es ->]. eexists. reflexivity.
Qed.

(** ** sending *)
Lemma gw_send_spec w f : bytes_ok (f_data f) ->
  (sendable f /\ gw_send w f = (w ++ [wire_of f], Ok tt)) \/
  (~ sendable f /\ gw_send w f = (w, Err ValueError)).
Proof.
  intro Hd. unfold gw_send. destruct (to_buffer f) as [bs|e] eqn:E.
  - left. apply to_buffer_inv in E as E'. 
    assert (Hs : sendable f) by (unfold sendable; tauto).
    split; [exact Hs|]. rewrite to_buffer_wire in E by exact Hs. injection E as <-. reflexivity.
  - right. destruct (to_buffer_err f e Hd E) as [-> H]. split; [|reflexivity].
    unfold sendable. intros (H1 & _ & H2). destruct H; [tauto|lia].
Qed.

(** ** a busy line on which the receiver starts in the middle of a frame *)
Definition evil : frame := mk_frame SREQ SYS 3 [254; 3; 7] None None.
Lemma evil_period buf : parser_run [254; 3; 7; buf] [] = ([254; 3; 7; buf], []). Proof. reflexivity. Qed.

Definition ghost : frame := received (mk_frame POLL UTIL 219 [254; 3; 33] None None).

Lemma evil_resync n :
  parser_run [] (skipn 4 (concat (repeat (wire_of evil) (Datatypes.S n)))) =
  ([254; 3; 7; 219], repeat (Ok ghost) n).
Proof.
  assert (H : forall n, parser_run [254; 3; 7; 219] (concat (repeat (wire_of evil) n)) =
    ([254; 3; 7; 219], repeat (Ok ghost) n)).
  { induction n0 as [|n0 IH]; [reflexivity|]. cbn [repeat concat].
    rewrite parser_run_app.
    replace (parser_run [254; 3; 7; 219] (wire_of evil)) with ([254; 3; 7; 219], [Ok ghost])
      by (vm_compute; reflexivity).
    rewrite IH. reflexivity. }
  cbn [repeat concat]. specialize (H n). remember (concat (repeat (wire_of evil) n)) as x.
  change (skipn 4 (wire_of evil ++ x)) with ([254; 3; 7; 219] ++ x).
  rewrite parser_run_app. change (parser_run [] [254; 3; 7; 219]) with ([254; 3; 7; 219], @nil (result frame)).
  cbv iota beta. rewrite H. reflexivity.
Qed.

Lemma busy_line :
  exists f g, sendable f /\ f_data f <> [] /\
    (f_type g, f_sub g, f_id g, f_data g) <> (f_type f, f_sub f, f_id f, f_data f) /\
    forall n, snd (parser_run [] (skipn 4 (concat (repeat (wire_of f) (S n))))) = repeat (Ok g) n.
Proof.
  exists evil, ghost. split; [|split; [discriminate|split; [discriminate|]]].
  - split; [unfold byte_ok; cbn; lia|]. split; [repeat constructor; unfold byte_ok; lia|cbn; lia].
  - intro n. rewrite evil_resync. reflexivity.
Qed.

Lemma parser_chunks cs : forall buf,
  fold_left (fun '(b, os) c => let '(b', os') := parser_run b c in (b', os ++ os')) cs (buf, []) =
  parser_run buf (concat cs).
Proof.
  assert (G : forall cs buf os,
    fold_left (fun '(b, os) c => let '(b', os') := parser_run b c in (b', os ++ os')) cs (buf, os) =
    let '(b', os') := parser_run buf (concat cs) in (b', os ++ os')).
  { induction cs0 as [|c cs0 IH]; intros buf os; cbn [fold_left concat].
    - cbn [parser_run]. rewrite app_nil_r. reflexivity.
    - rewrite parser_run_app. destruct (parser_run buf c) as [b1 o1]. rewrite IH.
      destruct (parser_run b1 (concat cs0)) as [b2 o2]. rewrite app_assoc. reflexivity. }
  intro buf. rewrite G. destruct (parser_run buf (concat cs)). reflexivity.
Qed.

Lemma bad_frame_hides_next :
  exists r f, raw_ok r /\ raw_frame r = None /\ sendable f /\ f_data f <> [] /\
    gw_data_received record_frames [] [] (raw_wire r ++ wire_of f) = ([], [], Err ValueError) /\
    gw_data_received record_frames [] [] (wire_of f ++ raw_wire r) = ([], [received f], Err ValueError) /\
    gw_chunks record_frames [] [] [raw_wire r; wire_of f] = ([], [received f], [ValueError]).
Proof.
  exists (4, 1, 0, [0]), (mk_frame AREQ ZDO 193 [1; 2] None None).
  split; [cbn; repeat split; try lia; try discriminate; repeat constructor; unfold byte_ok; lia|].
  split; [reflexivity|].
  split; [split; [unfold byte_ok; cbn; lia|split; [repeat constructor; unfold byte_ok; lia|cbn; lia]]|].
  split; [discriminate|]. repeat split; reflexivity.
Qed.

Lemma delivery_time f : sendable f ->
  (f_data f <> [] -> snd (parser_run [] (wire_of f)) = [Ok (received f)]) /\
  (f_data f = [] -> forall b, byte_ok b -> parser_run (fst (parser_run [] (wire_of f))) [b] = ([b], [Ok (received f)])).
Proof.
  intro H. split.
  - intro Hd. rewrite run_frame by assumption. reflexivity.
  - intros Hd b Hb. rewrite run_empty_frame by assumption. apply run_empty_frame_next; assumption.
Qed.

Lemma oversize_sent :
  exists f w', bytes_ok (f_data f) /\ length (f_data f) = 251%nat /\ gw_send [] f = ([w'], Ok tt) /\ length w' = 256%nat.
Proof.
  exists (mk_frame SREQ SYS 2 (repeat 0 251) None None). eexists. cbn [f_data].
  split; [apply Forall_forall; intros x Hx; apply repeat_spec in Hx; subst; unfold byte_ok; lia|].
  split; [apply repeat_length|]. split; [vm_compute; reflexivity|vm_compute; reflexivity].
Qed.

(** concrete side conditions *)
Ltac concrete :=
  unfold sendable, raw_ok, bytes_ok, byte_ok in *; cbn;
  repeat match goal with
         | |- _ /\ _ => split
         | |- Forall _ [] => constructor
         | |- Forall _ (_ :: _) => constructor; cbn
         end; try lia; try discriminate; try reflexivity.

(** ** several messages per read *)
Lemma read_raw {S} (h : S -> frame -> S * result unit) rs : Forall raw_ok rs ->
  forall s, gw_data_received h [] s (concat (map raw_wire rs)) = ([], fst (read_of h s rs), snd (read_of h s rs)).
Proof.
  induction 1 as [|r rs Hr _ IH]; intro s; [reflexivity|].
  cbn [map concat read_of]. rewrite gw_app, (chunk_raw h s r Hr). unfold deliver.
  destruct (raw_frame r) as [f|]; [|reflexivity]. destruct (h s f) as [s1 [u|e]]; cbn [fst snd]; [apply IH|reflexivity].
Qed.
Lemma reads_raw {S} (h : S -> frame -> S * result unit) rss : Forall (Forall raw_ok) rss ->
  forall s, gw_chunks h [] s (map (fun rs => concat (map raw_wire rs)) rss) = ([], fst (reads_of h s rss), snd (reads_of h s rss)).
Proof.
  induction 1 as [|rs rss Hr _ IH]; intro s; [reflexivity|].
  cbn [map gw_chunks reads_of]. rewrite (read_raw h rs Hr). destruct (read_of h s rs) as [s1 o]. cbn [fst snd]. rewrite IH.
  destruct (reads_of h s1 rss) as [s2 es]. reflexivity.
Qed.
(** whatever follows the byte at which a read failed plays no part *)
Lemma rest_discarded {S} (h : S -> frame -> S * result unit) data : forall buf s b' s' e,
  gw_data_received h buf s data = (b', s', Err e) ->
  exists pre rest, data = pre ++ rest /\ pre <> [] /\ forall more, gw_data_received h buf s (pre ++ more) = (b', s', Err e).
Proof.
  induction data as [|b data IH]; intros buf s b' s' e H; cbn [gw_data_received] in H; [discriminate|].
  destruct (parser_write buf b) as [b1 [[f|]|e1]] eqn:E.
  - destruct (h s f) as [s1 [u|e1]] eqn:Eh.
    + destruct (IH _ _ _ _ _ H) as (pre & rest & -> & _ & H1). exists (b :: pre), rest. split; [reflexivity|]. split; [discriminate|].
      intro more. cbn [app gw_data_received]. rewrite E, Eh. apply H1.
    + injection H as <- <- <-. exists [b], data. split; [reflexivity|]. split; [discriminate|]. intro more. cbn [app gw_data_received]. rewrite E, Eh. reflexivity.
  - destruct (IH _ _ _ _ _ H) as (pre & rest & -> & _ & H1). exists (b :: pre), rest. split; [reflexivity|]. split; [discriminate|].
    intro more. cbn [app gw_data_received]. rewrite E. apply H1.
  - injection H as <- <- <-. exists [b], data. split; [reflexivity|]. split; [discriminate|]. intro more. cbn [app gw_data_received]. rewrite E. reflexivity.
Qed.
