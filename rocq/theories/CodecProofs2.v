(** * Proofs about re-encoding, the command table and request building *)
From Verif Require Import Base Types Uart Buffalo CmdTable Zpi SpecWire SpecCodec UartProofs UartProofs2 CodecProofs.
From Coq Require Import ZifyBool ZifyNat.
Ltac Zify.zify_post_hook ::= Z.div_mod_to_equations.

(** ** decode then encode *)
Lemma Forall2_same_masked l : Forall2 masked l l.
Proof. induction l; constructor; [left; reflexivity|assumption]. Qed.

Lemma neighbor_of_fits pan ext nwk bits pj depth lqi :
  length pan = 8%nat -> length ext = 8%nat -> bytes_ok pan -> bytes_ok ext -> 0 <= nwk < 65536 ->
  byte_ok bits -> byte_ok pj -> byte_ok depth -> byte_ok lqi ->
  neighbor_fits (neighbor_of pan ext nwk bits pj depth lqi) /\
  neighbor_bytes (neighbor_of pan ext nwk bits pj depth lqi) =
    pan ++ ext ++ le2 nwk ++ [bits mod 128; pj mod 4; depth; lqi].
Proof.
  intros Hp He Hpo Heo Hn Hb Hpj Hd Hl. unfold byte_ok in *.
  split.
  - unfold neighbor_fits, neighbor_of. cbn [n_extPanId n_extAddr n_nwkAddr n_deviceType
      n_rxOnWhenIdle n_relationship n_permitJoin n_depth n_lqi].
    unfold byte_ok. repeat split; try assumption; lia.
  - unfold neighbor_bytes, neighbor_of. cbn [n_extPanId n_extAddr n_nwkAddr n_deviceType
      n_rxOnWhenIdle n_relationship n_permitJoin n_depth n_lqi].
    do 3 f_equal. f_equal. lia.
Qed.

Lemma rewrite_neighbors l bs : neighbors_wire l bs ->
  exists bs', write_neighbors l = Ok bs' /\ neighbors_wire l bs' /\ Forall2 masked bs bs'.
Proof.
  induction 1 as [|n l a b Hn _ (b' & E & Hw & Hm)].
  - exists []. repeat split; constructor.
  - destruct Hn as [pan ext nwk bits pj depth lqi Hp He Hpo Heo Hn Hb Hpj Hd Hl].
    destruct (neighbor_of_fits pan ext nwk bits pj depth lqi) as [Hf Hbytes]; try assumption.
    destruct (write_neighbor_ok _ Hf) as [E1 E2].
    exists (neighbor_bytes (neighbor_of pan ext nwk bits pj depth lqi) ++ b').
    cbn [write_neighbors]. rewrite E1. cbn [bind]. rewrite E.
    split; [reflexivity|]. split; [constructor; assumption|].
    apply Forall2_app; [|exact Hm]. rewrite Hbytes.
    do 3 (apply Forall2_app; [apply Forall2_same_masked|]).
    unfold masked. repeat (apply Forall2_cons; [tauto|]). apply Forall2_nil.
Qed.

Lemma rewrite_parameter name t prev v a : value_wire name t prev v a -> writable t = true ->
  exists a', write_parameter t v = Ok a' /\ value_wire name t prev v a' /\ Forall2 masked a a' /\
    (t <> LIST_NEIGHBOR_LQI -> a' = a).
Proof.
  intros H Hw.
  destruct H as [p z Hz Hm|p z Hz|p z Hz|p z Hz|p l Hl Hok|l Hok|t' n p l Hs Hl Hok|l k Hok Hk|l k Hok Hk|l k bs Hn Hk].
  - exists [z]. cbn [write_parameter write]. rewrite to_bytes1 by exact Hz.
    split; [reflexivity|]. split; [constructor; assumption|]. split; [apply Forall2_same_masked|reflexivity].
  - exists (le2 z). cbn [write_parameter write]. rewrite to_bytes2 by exact Hz.
    split; [reflexivity|]. split; [constructor; assumption|]. split; [apply Forall2_same_masked|reflexivity].
  - exists (le4 z). cbn [write_parameter write]. rewrite to_bytes4 by exact Hz.
    split; [reflexivity|]. split; [constructor; assumption|]. split; [apply Forall2_same_masked|reflexivity].
  - discriminate.
  - exists l. cbn [write_parameter]. rewrite write_each1 by exact Hok.
    split; [reflexivity|]. split; [constructor; assumption|]. split; [apply Forall2_same_masked|reflexivity].
  - exists l. split; [reflexivity|]. split; [constructor; assumption|]. split; [apply Forall2_same_masked|reflexivity].
  - destruct t'; discriminate.
  - exists l. cbn [write_parameter]. rewrite write_each1 by exact Hok.
    split; [reflexivity|]. split; [constructor; assumption|]. split; [apply Forall2_same_masked|reflexivity].
  - exists (concat (map le2 l)). cbn [write_parameter]. rewrite write_each2 by exact Hok.
    split; [reflexivity|]. split; [constructor; assumption|]. split; [apply Forall2_same_masked|reflexivity].
  - destruct (rewrite_neighbors l bs Hn) as (bs' & E & Hw' & Hm). exists bs'.
    split; [exact E|]. split; [constructor; assumption|]. split; [exact Hm|congruence].
Qed.

Lemma rewrite_payload prev ps pl bs : payload_wire prev ps pl bs -> forall d, holds d pl ->
  Forall (fun p => writable (snd p) = true) ps ->
  exists bs', write_params ps d = Ok bs' /\ payload_wire prev ps pl bs' /\ Forall2 masked bs bs' /\
    (Forall (fun p => snd p <> LIST_NEIGHBOR_LQI) ps -> bs' = bs).
Proof.
  induction 1 as [prev|prev n t v a ps pl b Hv Hp IH]; intros d Hh Hw.
  - exists []. repeat split; constructor.
  - inversion Hw as [|? ? Hw1 Hw2]; subst. cbn [snd] in Hw1.
    destruct (rewrite_parameter n t prev v a Hv Hw1) as (a' & Ea & Ha & Hma & Haeq).
    destruct (IH d) as (b' & Eb & Hb & Hmb & Hbeq); [intros m w Hin; apply Hh; right; exact Hin|exact Hw2|].
    exists (a' ++ b'). cbn [write_params]. unfold dict_getE. rewrite (Hh n v) by (left; reflexivity).
    cbn [bind]. rewrite Ea. cbn [bind]. rewrite Eb. split; [reflexivity|].
    split; [constructor; assumption|]. split; [apply Forall2_app; assumption|].
    intro Hl. inversion Hl as [|? ? H1 H2]; subst. rewrite Haeq, Hbeq by assumption. reflexivity.
Qed.

Lemma dict_get_nodup {A} (d : list (string * A)) n v : NoDup (map fst d) -> In (n, v) d -> dict_get d n = Some v.
Proof.
  induction d as [|[k w] d IH]; intros Hnd Hin; [destruct Hin|]. cbn [map fst] in Hnd.
  inversion Hnd as [|? ? Hk Hd]; subst. cbn [dict_get]. destruct Hin as [E|Hin].
  - injection E as -> ->. rewrite String.eqb_refl. reflexivity.
  - destruct (String.eqb_spec n k) as [->|_]; [|apply IH; assumption].
    exfalso. apply Hk. apply (in_map fst) in Hin. exact Hin.
Qed.

Lemma holds_self ps prev pl bs : NoDup (names ps) -> payload_wire prev ps pl bs -> holds pl pl.
Proof.
  intros Hn Hw n v Hin. apply dict_get_nodup; [|exact Hin].
  rewrite (payload_wire_names _ _ _ _ Hw). exact Hn.
Qed.

Lemma firstn_prefix (a b : list Z) : firstn (length a) (a ++ b) = a.
Proof. rewrite firstn_app, Nat.sub_diag, firstn_all. cbn [firstn]. apply app_nil_r. Qed.

Lemma firstn_prefix_le (a b : list Z) m : (m <= length a)%nat -> firstn m (a ++ b) = firstn m a.
Proof. intro H. rewrite firstn_app. replace (m - length a)%nat with 0%nat by lia. cbn [firstn]. apply app_nil_r. Qed.

(** a successful decode consumed a definite prefix *)
Lemma decode_consumes ps l pl : NoDup (names ps) -> bytes_ok l -> read_parameters l ps = Ok pl ->
  exists n, (n <= length l)%nat /\ payload_wire None ps pl (firstn n l) /\
    (forall m, (m < n)%nat -> read_parameters (firstn m l) ps = Err OverflowError) /\
    (forall x, read_parameters (firstn n l ++ x) ps = Ok pl).
Proof.
  intros Hn Hok H. destruct (decode_inv ps pl l Hn Hok H) as (bs & rest & -> & Hw).
  exists (length bs). rewrite firstn_prefix, app_length. split; [lia|]. split; [exact Hw|]. split.
  - intros m Hm. rewrite firstn_prefix_le by lia. apply (decode_short ps pl bs); assumption.
  - intro x. apply decode_ok; assumption.
Qed.

Lemma decode_encode ps l pl : NoDup (names ps) -> bytes_ok l -> read_parameters l ps = Ok pl ->
  Forall (fun p => writable (snd p) = true) ps ->
  exists n bs', (n <= length l)%nat /\
    (forall m, (m < n)%nat -> read_parameters (firstn m l) ps = Err OverflowError) /\
    (forall x, read_parameters (firstn n l ++ x) ps = Ok pl) /\
    write_params ps pl = Ok bs' /\ read_parameters bs' ps = Ok pl /\
    Forall2 masked (firstn n l) bs' /\
    (Forall (fun p => snd p <> LIST_NEIGHBOR_LQI) ps -> bs' = firstn n l).
Proof.
  intros Hn Hok H Hw. destruct (decode_consumes ps l pl Hn Hok H) as (n & Hle & Hwire & Hs & Ht).
  destruct (rewrite_payload _ _ _ _ Hwire pl (holds_self _ _ _ _ Hn Hwire) Hw) as (bs' & E & Hw' & Hm & He).
  exists n, bs'. repeat split; try assumption.
  rewrite <- (app_nil_r bs'). apply decode_ok; assumption.
Qed.

Lemma trailing ps l pl x : NoDup (names ps) -> bytes_ok l -> read_parameters l ps = Ok pl ->
  read_parameters (l ++ x) ps = Ok pl.
Proof.
  intros Hn Hok H. destruct (decode_inv ps pl l Hn Hok H) as (bs & rest & -> & Hw).
  rewrite <- app_assoc. apply decode_ok; assumption.
Qed.

(** the exact bits of a neighbour entry that survive *)
Lemma neighbor_mask pan ext nwk bits pj depth lqi r :
  length pan = 8%nat -> length ext = 8%nat -> bytes_ok pan -> bytes_ok ext -> 0 <= nwk < 65536 ->
  byte_ok bits -> byte_ok pj -> byte_ok depth -> byte_ok lqi ->
  exists n, read_neighbor_lqi (pan ++ ext ++ le2 nwk ++ [bits; pj; depth; lqi] ++ r) = Ok (n, r) /\
    write_neighbor_lqi n = Ok (pan ++ ext ++ le2 nwk ++ [bits mod 128; pj mod 4; depth; lqi]).
Proof.
  intros Hp He Hpo Heo Hn Hb Hpj Hd Hl.
  destruct (neighbor_of_fits pan ext nwk bits pj depth lqi) as [Hf Hbytes]; try assumption.
  exists (neighbor_of pan ext nwk bits pj depth lqi). split.
  - replace (pan ++ ext ++ le2 nwk ++ [bits; pj; depth; lqi] ++ r)
      with ((pan ++ ext ++ le2 nwk ++ [bits; pj; depth; lqi]) ++ r) by (rewrite <- !app_assoc; reflexivity).
    apply read_neighbor_ok. constructor; assumption.
  - destruct (write_neighbor_ok _ Hf) as [E _]. rewrite E, Hbytes. reflexivity.
Qed.

(** ** nothing is cut when encoding *)
Lemma write_each_inv n l bs : write_each n l = Ok bs ->
  Forall (fun z => 0 <= z < 256 ^ Z.of_nat n) l /\ bs = concat (map (le_bytes n) l).
Proof.
  revert bs; induction l as [|z l IH]; intros bs H; cbn [write_each] in H.
  - injection H as <-. split; constructor.
  - destruct (to_bytes n z) as [a|] eqn:E; [|discriminate]. cbn [bind] in H.
    destruct (write_each n l) as [b|] eqn:E2; [|discriminate]. cbn [bind] in H. injection H as <-.
    apply to_bytes_inv in E as [Hz ->]. destruct (IH b eq_refl) as [Hf ->].
    split; [constructor; assumption|reflexivity].
Qed.

Lemma le_bytes1 z : 0 <= z < 256 -> le_bytes 1 z = [z].
Proof. intro H. cbn [le_bytes]. f_equal. lia. Qed.
Lemma le_bytes2 z : 0 <= z < 65536 -> le_bytes 2 z = le2 z.
Proof. intro H. cbn [le_bytes]. unfold le2. f_equal. f_equal. lia. Qed.

Lemma concat_le1 l : Forall (fun z => 0 <= z < 256) l -> concat (map (le_bytes 1) l) = l.
Proof. induction 1 as [|z l Hz _ IH]; [reflexivity|]. cbn [map concat]. rewrite le_bytes1, IH by exact Hz. reflexivity. Qed.
Lemma concat_le2 l : Forall (fun z => 0 <= z < 65536) l -> concat (map (le_bytes 2) l) = concat (map le2 l).
Proof. induction 1 as [|z l Hz _ IH]; [reflexivity|]. cbn [map concat]. rewrite le_bytes2, IH by exact Hz. reflexivity. Qed.

Lemma int_faithful n z bs : to_bytes n z = Ok bs ->
  bytes_ok bs /\ length bs = n /\ 0 <= z < 256 ^ Z.of_nat n /\ le_value bs = z.
Proof.
  intro H. apply to_bytes_inv in H as [Hz ->]. split; [apply le_bytes_ok|]. split; [apply le_bytes_length|].
  split; [exact Hz|]. apply le_value_bytes, Hz.
Qed.

Lemma write_each1_faithful l bs : write_each 1 l = Ok bs -> bs = l /\ bytes_ok l.
Proof.
  intro H. apply write_each_inv in H as [Hf ->]. change (256 ^ Z.of_nat 1) with 256 in Hf.
  split; [apply concat_le1, Hf|exact Hf].
Qed.
Lemma write_each2_faithful l bs : write_each 2 l = Ok bs ->
  Forall (fun z => 0 <= z < 65536) l /\ bs = concat (map le2 l).
Proof.
  intro H. apply write_each_inv in H as [Hf ->]. change (256 ^ Z.of_nat 2) with 65536 in Hf.
  split; [exact Hf|apply concat_le2, Hf].
Qed.

Lemma write_parameter_faithful t v bs : write_parameter t v = Ok bs -> faithful t v bs.
Proof.
  intro H.
  destruct t; try discriminate; cbn [write_parameter] in H.
  - destruct v; try discriminate. cbn [write] in H. apply int_faithful in H as (H1 & H2 & H3 & H4).
    unfold faithful. rewrite H2. auto.
  - destruct v; try discriminate. cbn [write] in H. apply int_faithful in H as (H1 & H2 & H3 & H4).
    unfold faithful. rewrite H2. auto.
  - destruct v; try discriminate. cbn [write] in H. apply int_faithful in H as (H1 & H2 & H3 & H4).
    unfold faithful. rewrite H2. auto.
  - destruct v; try (apply write_each1_faithful in H; exact H).
    + cbn [write] in H. apply int_faithful in H as (H1 & H2 & H3 & H4). cbn. auto.
    + destruct l; [injection H as <-; cbn; auto|discriminate].
  - destruct v; try discriminate. injection H as <-. reflexivity.
  - destruct v; try discriminate; try (apply write_each1_faithful in H; exact H).
    destruct l; [injection H as <-; cbn; auto|discriminate].
  - destruct v; try discriminate; try (apply write_each2_faithful in H; exact H).
    destruct l; [injection H as <-; cbn; auto|discriminate].
  - destruct v; exact I.
Qed.

Lemma write_params_faithful ps : forall d bs, write_params ps d = Ok bs ->
  exists ws, bs = concat ws /\
    Forall2 (fun p w => exists v, dict_get d (fst p) = Some v /\ faithful (snd p) v w) ps ws.
Proof.
  induction ps as [|[n t] ps IH]; intros d bs H; cbn [write_params] in H.
  - injection H as <-. exists []. split; [reflexivity|constructor].
  - unfold dict_getE in H. destruct (dict_get d n) as [v|] eqn:Ed; [|discriminate]. cbn [bind] in H.
    destruct (write_parameter t v) as [a|] eqn:Ea; [|discriminate]. cbn [bind] in H.
    destruct (write_params ps d) as [b|] eqn:Eb; [|discriminate]. cbn [bind] in H. injection H as <-.
    destruct (IH d b Eb) as (ws & -> & Hws). exists (a :: ws). split; [reflexivity|].
    constructor; [|exact Hws]. exists v. split; [exact Ed|]. apply write_parameter_faithful, Ea.
Qed.

Lemma out_of_range_raises ps d n t w z : In (n, t) ps -> int_width t = Some w ->
  dict_get d n = Some (VInt z) -> ~ (0 <= z < 256 ^ Z.of_nat w) -> exists e, write_params ps d = Err e.
Proof.
  intros Hin Hw Hd Hz. destruct (write_params ps d) as [bs|e] eqn:E; [|eauto]. exfalso.
  apply write_params_faithful in E as (ws & _ & HF).
  induction HF as [|[n' t'] w' ps ws (v & Hv & Hf) _ IH]; [destruct Hin|].
  destruct Hin as [Eq|Hin]; [|apply IH, Hin]. injection Eq as -> ->. cbn [fst snd] in *.
  rewrite Hd in Hv. injection Hv as <-.
  destruct t; try discriminate Hw; cbn [faithful] in Hf; destruct Hf as (_ & Hl & Hr & _);
    assert (w = length w') as -> by congruence; exact (Hz Hr).
Qed.

(** ** the command table *)
Definition all_subs : list subsystem :=
  [RESERVED; SYS; MAC; NWK; AF; ZDO; SAPI; UTIL; DEBUG; APP; APP_CNF; GREENPOWER].
Lemma all_subs_in s : In s all_subs.
Proof. destruct s; cbn; tauto. Qed.
Definition table : list (subsystem * cmd) :=
  flat_map (fun s => match definition s with Ok l => map (pair s) l | Err _ => [] end) all_subs.
Lemma table_in s cs c : definition s = Ok cs -> In c cs -> In (s, c) table.
Proof.
  intros H Hc. unfold table. apply in_flat_map. exists s. split; [apply all_subs_in|].
  rewrite H. apply in_map. exact Hc.
Qed.
Lemma table_sweep (P : subsystem -> cmd -> bool) :
  forallb (fun '(s, c) => P s c) table = true ->
  forall s cs c, definition s = Ok cs -> In c cs -> P s c = true.
Proof.
  intros H s cs c Hs Hc. rewrite forallb_forall in H.
  exact (H (s, c) (table_in s cs c Hs Hc)).
Qed.

Fixpoint nodupb (l : list string) : bool :=
  match l with [] => true | x :: r => negb (existsb (String.eqb x) r) && nodupb r end.
Lemma nodupb_ok l : nodupb l = true -> NoDup l.
Proof.
  induction l as [|x l IH]; intro H; [constructor|]. cbn [nodupb] in H. apply andb_true_iff in H as [H1 H2].
  constructor; [|apply IH, H2]. intro C. apply negb_true_iff in H1.
  assert (existsb (String.eqb x) l = true); [|congruence].
  apply existsb_exists. exists x. split; [exact C|apply String.eqb_refl].
Qed.
Fixpoint nodupzb (l : list Z) : bool :=
  match l with [] => true | x :: r => negb (existsb (Z.eqb x) r) && nodupzb r end.
Lemma nodupzb_ok l : nodupzb l = true -> NoDup l.
Proof.
  induction l as [|x l IH]; intro H; [constructor|]. cbn [nodupzb] in H. apply andb_true_iff in H as [H1 H2].
  constructor; [|apply IH, H2]. intro C. apply negb_true_iff in H1.
  assert (existsb (Z.eqb x) l = true); [|congruence].
  apply existsb_exists. exists x. split; [exact C|apply Z.eqb_refl].
Qed.

Lemma table_names s cs : definition s = Ok cs -> NoDup (map c_name cs).
Proof.
  intro H. apply nodupb_ok.
  assert (E : forallb (fun s => match definition s with Ok l => nodupb (map c_name l) | Err _ => true end) all_subs = true)
    by (vm_compute; reflexivity).
  rewrite forallb_forall in E. specialize (E s (all_subs_in s)). rewrite H in E. exact E.
Qed.
Lemma table_ids s cs : definition s = Ok cs -> NoDup (map c_ID cs).
Proof.
  intro H. apply nodupzb_ok.
  assert (E : forallb (fun s => match definition s with Ok l => nodupzb (map c_ID l) | Err _ => true end) all_subs = true)
    by (vm_compute; reflexivity).
  rewrite forallb_forall in E. specialize (E s (all_subs_in s)). rewrite H in E. exact E.
Qed.
Lemma table_params s cs c ps : definition s = Ok cs -> In c cs ->
  (c_request c = Some ps \/ c_response c = Some ps) -> NoDup (names ps).
Proof.
  intros Hs Hc Hps. apply nodupb_ok.
  assert (E : forallb (fun '(s, c) =>
     match c_request c with Some ps => nodupb (names ps) | None => true end &&
     match c_response c with Some ps => nodupb (names ps) | None => true end) table = true)
    by (vm_compute; reflexivity).
  apply (table_sweep (fun s c =>
     match c_request c with Some ps => nodupb (names ps) | None => true end &&
     match c_response c with Some ps => nodupb (names ps) | None => true end)) with (s := s) (cs := cs) (c := c) in E; try assumption.
  apply andb_true_iff in E as [E1 E2]. destruct Hps as [H|H]; rewrite H in *; assumption.
Qed.

Lemma find_unique {A} (p : A -> bool) (f : A -> Z) l c :
  NoDup (map f l) -> In c l -> (forall x, p x = true <-> f x = f c) -> find p l = Some c.
Proof.
  intros Hn Hc Hp. induction l as [|x l IH]; [destruct Hc|]. cbn [find map] in *.
  inversion Hn as [|? ? Hx Hl]; subst. destruct (p x) eqn:E.
  - apply Hp in E. destruct Hc as [->|Hc]; [reflexivity|]. exfalso. apply Hx. rewrite E. apply in_map, Hc.
  - destruct Hc as [->|Hc]; [|apply IH; assumption]. exfalso.
    assert (p c = true) by (apply Hp; reflexivity). congruence.
Qed.
Lemma find_unique_s {A} (p : A -> bool) (f : A -> string) l c :
  NoDup (map f l) -> In c l -> (forall x, p x = true <-> f x = f c) -> find p l = Some c.
Proof.
  intros Hn Hc Hp. induction l as [|x l IH]; [destruct Hc|]. cbn [find map] in *.
  inversion Hn as [|? ? Hx Hl]; subst. destruct (p x) eqn:E.
  - apply Hp in E. destruct Hc as [->|Hc]; [reflexivity|]. exfalso. apply Hx. rewrite E. apply in_map, Hc.
  - destruct Hc as [->|Hc]; [|apply IH; assumption]. exfalso.
    assert (p c = true) by (apply Hp; reflexivity). congruence.
Qed.

Lemma find_by_id s cs c : definition s = Ok cs -> In c cs -> find (fun x => c_ID x =? c_ID c) cs = Some c.
Proof. intros H Hc. apply (find_unique _ c_ID); [eapply table_ids; eassumption|exact Hc|]. intro x. apply Z.eqb_eq. Qed.
Lemma find_by_name s cs c : definition s = Ok cs -> In c cs -> find (fun x => String.eqb (c_name x) (c_name c)) cs = Some c.
Proof. intros H Hc. apply (find_unique_s _ c_name); [eapply table_names; eassumption|exact Hc|]. intro x. apply String.eqb_eq. Qed.

(** every command is a request or an indication, has a request list and a one-byte id *)
Lemma table_shape s cs c : definition s = Ok cs -> In c cs ->
  (c_type c = SREQ \/ c_type c = AREQ) /\ (exists ps, c_request c = Some ps) /\ byte_ok (c_ID c) /\
  (c_type c = SREQ -> exists ps, c_response c = Some ps).
Proof.
  intros Hs Hc.
  assert (E : forallb (fun '(s, c) =>
     (ct_eqb (c_type c) SREQ || ct_eqb (c_type c) AREQ) &&
     match c_request c with Some _ => true | None => false end && byte_okb (c_ID c) &&
     (negb (ct_eqb (c_type c) SREQ) || match c_response c with Some _ => true | None => false end)) table = true)
    by (vm_compute; reflexivity).
  apply (table_sweep (fun s c => (ct_eqb (c_type c) SREQ || ct_eqb (c_type c) AREQ) &&
     match c_request c with Some _ => true | None => false end && byte_okb (c_ID c) &&
     (negb (ct_eqb (c_type c) SREQ) || match c_response c with Some _ => true | None => false end)))
    with (s := s) (cs := cs) (c := c) in E; try assumption.
  rewrite !andb_true_iff in E. destruct E as [[[E1 E2] E3] E4].
  repeat split.
  - destruct (c_type c); try discriminate; auto.
  - destruct (c_request c); [eauto|discriminate].
  - apply byte_okb_ok, E3.
  - apply byte_okb_ok, E3.
  - intro Ht. rewrite Ht in E4. cbn in E4. destruct (c_response c); [eauto|discriminate].
Qed.

Lemma select_request s cs c ps : definition s = Ok cs -> In c cs -> c_request c = Some ps ->
  select_params (c_type c) c = Ok ps.
Proof.
  intros Hs Hc Hps. destruct (table_shape s cs c Hs Hc) as [[Ht|Ht] _]; unfold select_params; rewrite Ht; cbn; rewrite Hps; reflexivity.
Qed.

(** ** building, framing, parsing, decoding *)
Lemma from_command_ok s cs c ps d : definition s = Ok cs -> In c cs -> c_request c = Some ps ->
  from_command s (c_name c) d = Ok (mk_zpi (c_type c) s (c_name c) (c_ID c) d ps None).
Proof.
  intros Hs Hc Hps. unfold from_command. rewrite Hs. cbn [bind]. unfold next_cmd.
  rewrite (find_by_name s cs c) by assumption. cbn [bind].
  rewrite (select_request s cs c ps) by assumption. reflexivity.
Qed.

Lemma from_unpi_ok s cs c ps t pl bs rest l k : definition s = Ok cs -> In c cs ->
  (t = SRSP /\ c_response c = Some ps \/ t <> SRSP /\ c_request c = Some ps) ->
  payload_wire None ps pl bs ->
  from_unpi_frame (mk_frame t s (c_ID c) (bs ++ rest) l k) = Ok (mk_zpi t s (c_name c) (c_ID c) pl ps None).
Proof.
  intros Hs Hc Hps Hw. unfold from_unpi_frame. cbn [f_sub f_id f_type f_data]. rewrite Hs. cbn [bind].
  unfold next_cmd. rewrite (find_by_id s cs c) by assumption. cbn [bind].
  assert (Hsel : select_params t c = Ok ps).
  { unfold select_params. destruct Hps as [[-> H]|[Hne H]].
    - cbn. rewrite H. reflexivity.
    - destruct t; try congruence; cbn; rewrite H; reflexivity. }
  rewrite Hsel. cbn [bind].
  rewrite (decode_ok ps pl bs rest); [reflexivity| |exact Hw].
  eapply table_params; [exact Hs|exact Hc|]. destruct Hps as [[_ H]|[_ H]]; auto.
Qed.

Lemma end_to_end s cs c ps pl d : definition s = Ok cs -> In c cs -> c_request c = Some ps ->
  payload_fits None ps pl -> holds d pl ->
  exists o f, from_command s (c_name c) d = Ok o /\ to_unpi_frame o = Ok f /\
    payload_wire None ps pl (f_data f) /\
    ((1 <= length (f_data f) <= 255)%nat ->
     exists bs f' o', gw_send [] f = ([bs], Ok tt) /\ parser_run [] bs = ([], [Ok f']) /\
       from_unpi_frame f' = Ok o' /\
       z_type o' = c_type c /\ z_sub o' = s /\ z_cmd o' = c_name c /\ z_payload o' = pl).
Proof.
  intros Hs Hc Hps Hf Hh.
  destruct (encode_decode ps pl d) as (bs & E & Hok & Hw & _); try assumption.
  { eapply table_params; [exact Hs|exact Hc|auto]. }
  eexists. exists (mk_frame (c_type c) s (c_ID c) bs None None).
  split; [eapply from_command_ok; eassumption|].
  unfold to_unpi_frame. cbn [z_params z_payload z_type z_sub z_id]. rewrite E. cbn [bind].
  split; [reflexivity|]. cbn [f_data]. split; [exact Hw|].
  intro Hl. destruct (table_shape s cs c Hs Hc) as (Ht & _ & Hid & _).
  assert (Hsd : sendable (mk_frame (c_type c) s (c_ID c) bs None None)).
  { unfold sendable. cbn [f_id f_data]. repeat split; try assumption; try apply Hid; lia. }
  set (f := mk_frame (c_type c) s (c_ID c) bs None None) in *.
  exists (wire_of f), (received f), (mk_zpi (c_type c) s (c_name c) (c_ID c) pl ps None).
  split; [unfold gw_send; rewrite to_buffer_wire by exact Hsd; reflexivity|].
  split; [apply run_frame; [exact Hsd|unfold f; cbn [f_data]; destruct bs; [cbn in Hl; lia|discriminate]]|].
  split; [|repeat split; reflexivity].
  unfold received. cbn [f_type f_sub f_id f_data f].
  rewrite <- (app_nil_r bs) at 1. unfold f. cbn [f_type f_sub f_id f_data].
  apply (from_unpi_ok s cs c ps (c_type c) pl bs []); try assumption.
  right. split; [|exact Hps]. destruct Ht as [->| ->]; discriminate.
Qed.

(** ** which parameter lists can be decoded *)
Definition some_int (prev : option Z) : bool := match prev with Some _ => true | None => false end.

Lemma zeros_ok k : bytes_ok (repeat 0 k).
Proof. apply Forall_forall. intros x Hx. apply repeat_spec in Hx. subst. unfold byte_ok. lia. Qed.

Lemma decodable_exists ps : forall prev, (prev = Some 0 \/ prev = None) ->
  decodable (some_int prev) ps = true -> exists pl bs, payload_wire prev ps pl bs.
Proof.
  induction ps as [|[n t] ps IH]; intros prev Hp Hd.
  - exists [], []. constructor.
  - cbn [decodable] in Hd. apply andb_true_iff in Hd as [Ht Hd].
    assert (Hv : exists v a, value_wire n t prev v a /\ (int_of v = Some 0 \/ int_of v = None) /\ some_int (int_of v) = is_int t).
    { assert (Hpn : some_int prev = true -> prev = Some 0) by (destruct Hp as [->| ->]; [reflexivity|discriminate]).
      assert (Hfix : forall k, fixed_size t = Some k -> exists v a, value_wire n t prev v a /\
         (int_of v = Some 0 \/ int_of v = None) /\ some_int (int_of v) = is_int t).
      { intros k Hk. exists (VBytes (repeat 0 k)), (repeat 0 k).
        split; [apply (vw_fixed n t k); [exact Hk|apply repeat_length|apply zeros_ok]|].
        split; [right; reflexivity|]. destruct t; try discriminate Hk; reflexivity. }
      destruct t; try discriminate Ht; try (eapply Hfix; reflexivity).
      - exists (VInt 0), [0]. split; [constructor; [unfold byte_ok; lia|intros _; cbn; auto]|]. cbn. auto.
      - exists (VInt 0), (le2 0). split; [constructor; lia|]. cbn. auto.
      - exists (VInt 0), (le4 0). split; [constructor; lia|]. cbn. auto.
      - exists (VEui (repeat 0 8)), (repeat 0 8). split; [constructor; [reflexivity|apply zeros_ok]|]. cbn. auto.
      - rewrite (Hpn Ht). exists (VBytes []), []. split; [apply (vw_buffer n []); constructor|]. cbn. auto.
      - rewrite (Hpn Ht). exists (VList []), []. split; [constructor; [constructor|reflexivity]|]. cbn. auto.
      - rewrite (Hpn Ht). exists (VList []), []. split; [apply (vw_list16 n [] 0); [constructor|reflexivity]|]. cbn. auto.
      - rewrite (Hpn Ht). exists (VNeighbors []), []. split; [constructor; [constructor|reflexivity]|]. cbn. auto.
      - exists (VInt 0), [0 mod 256]. split; [constructor; lia|]. cbn. auto. }
    destruct Hv as (v & a & Hv & Hi & Hs). rewrite <- Hs in Hd.
    destruct (IH (int_of v) Hi Hd) as (pl & b & Hw).
    exists ((n, v) :: pl), (a ++ b). constructor; assumption.
Qed.

Lemma wire_decodable prev ps pl bs : payload_wire prev ps pl bs -> decodable (some_int prev) ps = true.
Proof.
  induction 1 as [prev|prev n t v a ps pl b Hv _ IH]; [reflexivity|].
  cbn [decodable]. apply andb_true_iff.
  assert (H : (match t with
      | LIST_ROUTING_TABLE | LIST_BIND_TABLE | LIST_NETWORK | LIST_ASSOC_DEV => false
      | BUFFER | LIST_UINT8 | LIST_UINT16 | LIST_NEIGHBOR_LQI => some_int prev
      | _ => true
      end = true) /\ some_int (int_of v) = is_int t).
  { destruct Hv as [p z Hz Hm|p z Hz|p z Hz|p z Hz|p l Hl Hok|l Hok|t' k p l Hs Hl Hok|l k Hok Hk|l k Hok Hk|l k bs Hn Hk];
      try (split; reflexivity). destruct t'; try discriminate Hs; split; reflexivity. }
  destruct H as [H1 H2]. rewrite <- H2. auto.
Qed.

Lemma decodable_iff ps : NoDup (names ps) ->
  (exists l pl, bytes_ok l /\ read_parameters l ps = Ok pl) <-> decodable false ps = true.
Proof.
  intro Hn. split.
  - intros (l & pl & Hok & H). destruct (decode_inv ps pl l Hn Hok H) as (bs & rest & _ & Hw).
    exact (wire_decodable _ _ _ _ Hw).
  - intro Hd. destruct (decodable_exists ps None (or_intror eq_refl) Hd) as (pl & bs & Hw).
    exists bs, pl. split; [eapply payload_wire_bytes; exact Hw|].
    rewrite <- (app_nil_r bs). apply decode_ok; assumption.
Qed.

(** names of the commands whose message in the given direction can never be decoded *)
Definition undecodable_names (resp : bool) : list (subsystem * string) :=
  map (fun '(s, c) => (s, c_name c))
    (filter (fun '(s, c) => match (if resp then c_response c else c_request c) with
                            | Some ps => negb (decodable false ps) | None => false end) table).
Lemma undecodable_requests : undecodable_names false =
  [(ZDO, "setLinkKey"); (ZDO, "nwkAddrRsp"); (ZDO, "ieeeAddrRsp"); (ZDO, "mgmtNwkDiscRsp");
   (ZDO, "mgmtRtgRsp"); (ZDO, "mgmtBindRsp"); (ZDO, "secAddLinkKey"); (UTIL, "setPrecfgkey");
   (UTIL, "testLoopback")].
Proof. vm_compute. reflexivity. Qed.
Lemma undecodable_responses : undecodable_names true = [(UTIL, "testLoopback")].
Proof. vm_compute. reflexivity. Qed.

Lemma undecodable_spec s cs c ps (resp : bool) : definition s = Ok cs -> In c cs ->
  (if resp then c_response c else c_request c) = Some ps ->
  (In (s, c_name c) (undecodable_names resp) <-> decodable false ps = false).
Proof.
  intros Hs Hc Hps. unfold undecodable_names. split.
  - intro H. apply in_map_iff in H as ([s' c'] & E & H). apply filter_In in H as [Hin Hf].
    injection E as -> Hn.
    assert (c' = c) as ->.
    { unfold table in Hin. apply in_flat_map in Hin as (s2 & _ & Hin).
      destruct (definition s2) as [l|] eqn:E2; [|destruct Hin].
      apply in_map_iff in Hin as (c2 & E3 & Hin). injection E3 as -> ->.
      rewrite Hs in E2. injection E2 as <-.
      pose proof (find_by_name s cs c' Hs Hin) as F1. pose proof (find_by_name s cs c Hs Hc) as F2.
      rewrite Hn in F1. congruence. }
    rewrite Hps in Hf. apply negb_true_iff in Hf. exact Hf.
  - intro Hd. apply in_map_iff. exists (s, c). split; [reflexivity|]. apply filter_In.
    split; [eapply table_in; eassumption|]. rewrite Hps, Hd. reflexivity.
Qed.

(** direction of an incoming message: a response for SRSP, else the "request" list *)
Lemma incoming_decodable s cs c ps t : definition s = Ok cs -> In c cs ->
  (t = SRSP /\ c_response c = Some ps \/ t <> SRSP /\ c_request c = Some ps) ->
  ((exists l o, bytes_ok l /\ from_unpi_frame (mk_frame t s (c_ID c) l None None) = Ok o) <->
   ~ In (s, c_name c) (undecodable_names (ct_eqb t SRSP))).
Proof.
  intros Hs Hc Hps.
  assert (Hsel : (if ct_eqb t SRSP then c_response c else c_request c) = Some ps).
  { destruct Hps as [[-> H]|[Hne H]]; [exact H|]. destruct t; try congruence; exact H. }
  assert (Hsel' : select_params t c = Ok ps).
  { unfold select_params. destruct (ct_eqb t SRSP); rewrite Hsel; reflexivity. }
  assert (Hn : NoDup (names ps)).
  { eapply table_params; [exact Hs|exact Hc|]. destruct Hps as [[_ H]|[_ H]]; auto. }
  assert (Hun : forall l, from_unpi_frame (mk_frame t s (c_ID c) l None None) =
     do d <- read_parameters l ps; Ok (mk_zpi t s (c_name c) (c_ID c) d ps None)).
  { intro l. unfold from_unpi_frame. cbn [f_sub f_id f_type f_data]. rewrite Hs. cbn [bind].
    unfold next_cmd. rewrite (find_by_id s cs c) by assumption. cbn [bind]. rewrite Hsel'. reflexivity. }
  rewrite (undecodable_spec s cs c ps (ct_eqb t SRSP) Hs Hc Hsel).
  rewrite not_false_iff_true, <- (decodable_iff ps Hn). split.
  - intros (l & o & Hok & H). rewrite Hun in H. destruct (read_parameters l ps) as [d|] eqn:E; [|discriminate].
    exists l, d. auto.
  - intros (l & d & Hok & H). exists l. eexists. split; [exact Hok|]. rewrite Hun, H. reflexivity.
Qed.

(** INT8 never provides a length (the case [Unmodelled] of read_parameter never arises) *)
Fixpoint int8_guard (prev8 : bool) (ps : list param) : bool :=
  match ps with
  | [] => true
  | (_, t) :: ps => negb (prev8 && match t with BUFFER => true | _ => false end) &&
                    int8_guard (match t with INT8 => true | _ => false end) ps
  end.
Lemma int8_never_a_length s cs c ps : definition s = Ok cs -> In c cs ->
  (c_request c = Some ps \/ c_response c = Some ps) -> int8_guard false ps = true.
Proof.
  intros Hs Hc Hps.
  assert (E : forallb (fun '(s, c) =>
     match c_request c with Some ps => int8_guard false ps | None => true end &&
     match c_response c with Some ps => int8_guard false ps | None => true end) table = true)
    by (vm_compute; reflexivity).
  apply (table_sweep (fun s c =>
     match c_request c with Some ps => int8_guard false ps | None => true end &&
     match c_response c with Some ps => int8_guard false ps | None => true end)) with (s := s) (cs := cs) (c := c) in E; try assumption.
  apply andb_true_iff in E as [E1 E2]. destruct Hps as [H|H]; rewrite H in *; assumption.
Qed.

Lemma read_params_modelled ps : forall prev res l, bytes_ok l ->
  int8_guard (match prev with Some z => z <? 0 | None => false end) ps = true ->
  read_params ps prev res l <> Err Unmodelled.
Proof.
  induction ps as [|[n t] ps IH]; intros prev res l Hok Hg H; cbn [read_params] in H; [discriminate|].
  cbn [int8_guard] in Hg. apply andb_true_iff in Hg as [Hg1 Hg2].
  change (if buffer_or_list t then prev else None) with (opt_len t prev) in H.
  destruct (read_parameter n t (opt_len t prev) l) as [[v r]|e] eqn:E; cbn [bind] in H.
  - apply read_parameter_inv in E as (a & -> & Hv); [|exact Hok].
    apply bytes_app in Hok as [_ Hr]. rewrite int_value_of in H.
    revert H. apply IH; [exact Hr|].
    destruct ps as [|[n2 t2] ps]; [reflexivity|]. cbn [int8_guard] in *.
    apply andb_true_iff in Hg2 as [Hg2 Hg3]. rewrite Hg3, andb_true_r.
    destruct Hv as [p z Hz Hm|p z Hz|p z Hz|p z Hz|p x Hl Hok'|x Hok'|t' k p x Hs Hl Hok'|x k Hok' Hk|x k Hok' Hk|x k bs Hn Hk];
      cbn [int_of]; try reflexivity.
    + unfold byte_ok in Hz. replace (z <? 0) with false by lia. reflexivity.
    + replace (z <? 0) with false by lia. reflexivity.
    + replace (z <? 0) with false by lia. reflexivity.
    + cbn [andb] in Hg2. destruct (z <? 0); cbn [andb]; [exact Hg2|reflexivity].
  - injection H as ->.
    assert (Hrd : forall k, read k l <> Err Unmodelled) by (intros k C; apply read_err in C as [C _]; discriminate).
    assert (Hri : forall k z, read_int k l = Err z -> z = OverflowError).
    { intros k z C. unfold read_int in C. destruct (read k l) as [[? ?]|] eqn:F; [discriminate|].
      cbn [bind] in C. injection C as <-. apply read_err in F. apply F. }
    destruct t; cbn [read_parameter opt_len buffer_or_list] in E; try discriminate;
      try (destruct (read_int _ l) as [[? ?]|?] eqn:F; [cbn [bind] in E|apply Hri in F; subst; discriminate]; try discriminate);
      try (unfold read_ieee_addr in E; destruct (read _ l) as [[? ?]|?] eqn:F; [discriminate|cbn [bind] in E; injection E as ->; exact (Hrd _ F)]).
    + destruct (endswith n "addrmode"); [|discriminate].
      unfold address_mode_of in E. 
      repeat match type of E with
             | context [match ?y with _ => _ end] => destruct y; try discriminate
             end.
    + destruct prev as [k|]; [|discriminate]. destruct (k <? 0); [discriminate|].
      destruct (read (Z.to_nat k) l) as [[? ?]|] eqn:F; [discriminate|]. cbn [bind] in E. injection E as ->. exact (Hrd _ F).
    + destruct prev as [k|]; [|discriminate]. cbn [list_length bind] in E.
      destruct (read_ints 1 (Z.to_nat k) l) as [[? ?]|] eqn:F; [discriminate|]. cbn [bind] in E. injection E as ->.
      apply read_ints_err in F as [F _]. discriminate.
    + destruct prev as [k|]; [|discriminate]. cbn [list_length bind] in E.
      destruct (read_ints 2 (Z.to_nat k) l) as [[? ?]|] eqn:F; [discriminate|]. cbn [bind] in E. injection E as ->.
      apply read_ints_err in F as [F _]. discriminate.
    + destruct prev as [k|]; [|discriminate]. cbn [list_length bind] in E.
      destruct (read_neighbors (Z.to_nat k) l) as [[? ?]|] eqn:F; [discriminate|]. cbn [bind] in E. injection E as ->.
      apply read_neighbors_err in F as [F _]. discriminate.
Qed.
