(** * CodecProofs3: decoding with parameter lists in which names may be repeated *)
From Verif Require Import Base Types Uart Buffalo CmdTable Zpi SpecWire SpecCodec UartProofs UartProofs2 CodecProofs CodecProofs2.
From Coq Require Import ZifyBool ZifyNat.

Definition sets (d vs : payload) : payload := fold_left (fun d p => dict_set d (fst p) (snd p)) vs d.

Lemma any_ok prev ps vs bs : payload_wire prev ps vs bs -> forall res rest, read_params ps prev res (bs ++ rest) = Ok (sets res vs).
Proof.
  induction 1 as [prev|prev n t v a ps pl b Hv Hp IH]; intros res rest; cbn [read_params]; [reflexivity|].
  rewrite <- app_assoc. change (if buffer_or_list t then prev else None) with (opt_len t prev).
  rewrite (read_parameter_ok n t prev v a) by exact Hv. cbn [bind]. rewrite int_value_of. apply IH.
Qed.
Lemma any_inv ps : forall prev res l pl, bytes_ok l -> read_params ps prev res l = Ok pl ->
  exists bs rest vs, l = bs ++ rest /\ pl = sets res vs /\ payload_wire prev ps vs bs.
Proof.
  induction ps as [|[n t] ps IH]; intros prev res l pl Hok H; cbn [read_params] in H.
  - injection H as <-. exists [], l, []. repeat split. constructor.
  - change (if buffer_or_list t then prev else None) with (opt_len t prev) in H.
    destruct (read_parameter n t (opt_len t prev) l) as [[v r]|] eqn:E; [|discriminate]. cbn [bind] in H.
    apply read_parameter_inv in E as (a & -> & Hv); [|exact Hok].
    apply bytes_app in Hok as [_ Hr]. rewrite int_value_of in H.
    apply IH in H as (bs & rest & vs & -> & -> & Hw); [|exact Hr].
    exists (a ++ bs), rest, ((n, v) :: vs). split; [apply app_assoc|]. split; [reflexivity|]. constructor; assumption.
Qed.
Lemma sets_nodup vs : forall d, NoDup (map fst d ++ map fst vs) -> sets d vs = d ++ vs.
Proof.
  induction vs as [|[n v] vs IH]; intros d H; [cbn; symmetry; apply app_nil_r|].
  cbn [map fst] in H. unfold sets. cbn [fold_left fst snd]. fold (sets (dict_set d n v) vs).
  rewrite dict_set_fresh by (intro C; apply NoDup_remove_2 in H; apply H, in_app_iff; left; exact C).
  rewrite IH by (rewrite map_app, <- app_assoc; exact H). rewrite <- app_assoc. reflexivity.
Qed.
Lemma dict_of_nodup prev ps vs bs : NoDup (names ps) -> payload_wire prev ps vs bs -> dict_of vs = vs.
Proof. intros H W. apply (sets_nodup vs []). cbn [map app]. rewrite (payload_wire_names _ _ _ _ W). exact H. Qed.

Lemma get_set {A} (d : list (string * A)) n v m : dict_get (dict_set d n v) m = if String.eqb m n then Some v else dict_get d m.
Proof.
  induction d as [|[k w] d IH]; cbn [dict_set dict_get]; [reflexivity|].
  destruct (String.eqb_spec n k) as [->|E]; cbn [dict_get].
  - destruct (String.eqb m k); reflexivity.
  - rewrite IH. destruct (String.eqb_spec m k) as [F|F], (String.eqb_spec m n) as [G|G]; try reflexivity. congruence.
Qed.
(** values that one dict has do not contradict each other *)
Lemma get_sets d vs : holds d vs -> forall e n, dict_get (sets e vs) n = match dict_get vs n with Some v => Some v | None => dict_get e n end.
Proof.
  induction vs as [|[k v] vs IH]; intros Hh e n; [reflexivity|].
  unfold sets. cbn [fold_left fst snd]. fold (sets (dict_set e k v) vs).
  assert (Hv : holds d vs) by (intros a b I; apply Hh; right; exact I).
  rewrite (IH Hv), get_set. cbn [dict_get]. destruct (String.eqb_spec n k) as [->|E]; [|reflexivity].
  destruct (dict_get vs k) as [w|] eqn:G; [|reflexivity].
  assert (Iw : In (k, w) vs).
  { clear -G. induction vs as [|[a b] vs IH]; cbn [dict_get] in G; [discriminate|].
    destruct (String.eqb_spec k a) as [->|]; [injection G as ->; left; reflexivity|right; auto]. }
  pose proof (Hh k w (or_intror Iw)) as E1. pose proof (Hh k v (or_introl eq_refl)) as E2. congruence.
Qed.

Lemma decode_consumes_any ps l pl : bytes_ok l -> read_parameters l ps = Ok pl ->
  exists n vs, (n <= length l)%nat /\ payload_wire None ps vs (firstn n l) /\ pl = dict_of vs /\ (NoDup (map fst ps) -> pl = vs) /\
    (forall m, (m < n)%nat -> read_parameters (firstn m l) ps = Err OverflowError) /\
    (forall x, read_parameters (firstn n l ++ x) ps = Ok pl).
Proof.
  intros Hok H. destruct (any_inv ps None [] l pl Hok H) as (bs & rest & vs & -> & -> & Hw).
  exists (length bs), vs. rewrite firstn_prefix, app_length. split; [lia|]. split; [exact Hw|]. split; [reflexivity|]. repeat split.
  - intro Hn. exact (dict_of_nodup _ _ _ _ Hn Hw).
  - intros m Hm. rewrite firstn_prefix_le by lia. apply (decode_short ps vs bs); assumption.
  - intro x. apply any_ok; assumption.
Qed.
Lemma trailing_any ps l pl x : bytes_ok l -> read_parameters l ps = Ok pl -> read_parameters (l ++ x) ps = Ok pl.
Proof.
  intros Hok H. destruct (any_inv ps None [] l pl Hok H) as (bs & rest & vs & -> & -> & Hw).
  rewrite <- app_assoc. apply any_ok; assumption.
Qed.
Lemma encode_decode_any ps pl d : payload_fits None ps pl -> holds d pl ->
  exists bs pl', write_params ps d = Ok bs /\ bytes_ok bs /\ payload_wire None ps pl bs /\
    (forall extra, read_parameters (bs ++ extra) ps = Ok pl') /\
    (forall n, dict_get pl' n = dict_get pl n) /\ (NoDup (map fst ps) -> pl' = pl).
Proof.
  intros Hf Hh. destruct (write_params_ok ps None pl d Hf Hh) as (bs & E & Hw).
  exists bs, (dict_of pl). split; [exact E|]. split; [eapply payload_wire_bytes; exact Hw|]. split; [exact Hw|].
  split; [intro extra; apply any_ok; exact Hw|]. split; [|intro Hn; exact (dict_of_nodup _ _ _ _ Hn Hw)].
  intro n. change (dict_of pl) with (sets [] pl). rewrite (get_sets d pl Hh). destruct (dict_get pl n); reflexivity.
Qed.
