(** * Proofs about the parameter codec *)
From Verif Require Import Base Types Uart Buffalo CmdTable Zpi SpecCodec UartProofs.
From Coq Require Import ZifyBool ZifyNat.
Ltac Zify.zify_post_hook ::= Z.div_mod_to_equations.

(** ** integers *)
Lemma le2_ok z : 0 <= z < 65536 -> bytes_ok (le2 z).
Proof. intro H. unfold le2. repeat constructor; unfold byte_ok; lia. Qed.
Lemma le4_ok z : 0 <= z < 4294967296 -> bytes_ok (le4 z).
Proof. intro H. unfold le4. repeat constructor; unfold byte_ok; lia. Qed.

Lemma to_bytes1 z : byte_ok z -> to_bytes 1 z = Ok [z].
Proof.
  unfold byte_ok, to_bytes. intro H. change (256 ^ Z.of_nat 1) with 256.
  replace ((0 <=? z) && (z <? 256)) with true by lia.
  unfold le_bytes. do 2 f_equal. lia.
Qed.
Lemma to_bytes2 z : 0 <= z < 65536 -> to_bytes 2 z = Ok (le2 z).
Proof.
  unfold to_bytes, le2. intro H. change (256 ^ Z.of_nat 2) with 65536.
  replace ((0 <=? z) && (z <? 65536)) with true by lia.
  unfold le_bytes. do 2 f_equal. f_equal. lia.
Qed.
Lemma to_bytes4 z : 0 <= z < 4294967296 -> to_bytes 4 z = Ok (le4 z).
Proof.
  unfold to_bytes, le4. intro H. change (256 ^ Z.of_nat 4) with 4294967296.
  replace ((0 <=? z) && (z <? 4294967296)) with true by lia.
  unfold le_bytes. rewrite !Z.div_div by lia.
  change (256 * 256) with 65536. change (256 * 65536) with 16777216.
  change (65536 * 256) with 16777216.
  do 4 f_equal. f_equal. lia.
Qed.

Lemma to_bytes_inv n z bs : to_bytes n z = Ok bs -> 0 <= z < 256 ^ Z.of_nat n /\ bs = le_bytes n z.
Proof.
  unfold to_bytes. destruct ((0 <=? z) && (z <? 256 ^ Z.of_nat n)) eqn:E; [|discriminate].
  intro H; injection H as <-. apply andb_true_iff in E. split; [lia|reflexivity].
Qed.
Lemma to_bytes_err n z e : to_bytes n z = Err e -> e = OverflowError /\ ~ (0 <= z < 256 ^ Z.of_nat n).
Proof.
  unfold to_bytes. destruct ((0 <=? z) && (z <? 256 ^ Z.of_nat n)) eqn:E; [discriminate|].
  intro H; injection H as <-. apply andb_false_iff in E. split; [reflexivity|lia].
Qed.

Lemma le_bytes_length n z : length (le_bytes n z) = n.
Proof. revert z; induction n as [|n IH]; intro z; cbn [le_bytes length]; [reflexivity|]. rewrite IH. reflexivity. Qed.

Lemma le_bytes_ok n z : bytes_ok (le_bytes n z).
Proof.
  revert z; induction n as [|n IH]; intro z; constructor; [unfold byte_ok; apply Z.mod_pos_bound; lia|apply IH].
Qed.

Lemma le_value_bytes n z : 0 <= z < 256 ^ Z.of_nat n -> le_value (le_bytes n z) = z.
Proof.
  revert z; induction n as [|n IH]; intros z H; cbn [le_bytes le_value].
  - change (256 ^ Z.of_nat 0) with 1 in H. lia.
  - rewrite Nat2Z.inj_succ, Z.pow_succ_r in H by lia.
    rewrite IH; [rewrite Z.add_comm; symmetry; apply Z.div_mod; lia|].
    split; [apply Z.div_pos; lia|]. apply Z.div_lt_upper_bound; lia.
Qed.

Lemma from_bytes_le2 z : 0 <= z < 65536 -> from_bytes (le2 z) = z.
Proof. unfold le2, from_bytes. intro H. lia. Qed.
Lemma from_bytes_le4 z : 0 <= z < 4294967296 -> from_bytes (le4 z) = z.
Proof. unfold le4, from_bytes. intro H. lia. Qed.
Lemma from_bytes1 z : from_bytes [z] = z.
Proof. cbn [from_bytes]. lia. Qed.
Lemma le2_from_bytes a b : byte_ok a -> byte_ok b -> le2 (from_bytes [a; b]) = [a; b].
Proof. unfold byte_ok, le2, from_bytes. intros Ha Hb. f_equal; [lia|]. f_equal. lia. Qed.
Lemma le4_from_bytes a b c d : byte_ok a -> byte_ok b -> byte_ok c -> byte_ok d ->
  le4 (from_bytes [a; b; c; d]) = [a; b; c; d].
Proof.
  unfold byte_ok, le4, from_bytes. intros Ha Hb Hc Hd.
  f_equal; [lia|]. f_equal; [lia|]. f_equal; [lia|]. f_equal. lia.
Qed.
Lemma from_bytes_range2 a b : byte_ok a -> byte_ok b -> 0 <= from_bytes [a; b] < 65536.
Proof. unfold byte_ok, from_bytes. lia. Qed.
Lemma from_bytes_range4 a b c d : byte_ok a -> byte_ok b -> byte_ok c -> byte_ok d ->
  0 <= from_bytes [a; b; c; d] < 4294967296.
Proof. unfold byte_ok, from_bytes. lia. Qed.

(** ** reading exactly what is there *)
Lemma read_app n a r : length a = n -> read n (a ++ r) = Ok (a, r).
Proof.
  intros <-. unfold read. rewrite app_length.
  destruct (Nat.ltb_spec (length a + length r) (length a)); [lia|].
  rewrite firstn_app, firstn_all, Nat.sub_diag, skipn_app, skipn_all, Nat.sub_diag.
  cbn [firstn skipn app]. rewrite app_nil_r. reflexivity.
Qed.
Lemma read_short n l : (length l < n)%nat -> read n l = Err OverflowError.
Proof. intro H. unfold read. destruct (Nat.ltb_spec (length l) n); [reflexivity|lia]. Qed.
Lemma read_inv n l a r : read n l = Ok (a, r) -> l = a ++ r /\ length a = n.
Proof.
  unfold read. destruct (Nat.ltb_spec (length l) n) as [|H]; [discriminate|].
  intro E; injection E as <- <-. split; [symmetry; apply firstn_skipn|]. rewrite firstn_length. lia.
Qed.
Lemma read_err n l e : read n l = Err e -> e = OverflowError /\ (length l < n)%nat.
Proof.
  unfold read. destruct (Nat.ltb_spec (length l) n) as [H|]; [|discriminate].
  intro E; injection E as <-. auto.
Qed.

Lemma read_int_app n a r : length a = n -> read_int n (a ++ r) = Ok (from_bytes a, r).
Proof. intro H. unfold read_int. rewrite read_app by exact H. reflexivity. Qed.
Lemma read_int_short n l : (length l < n)%nat -> read_int n l = Err OverflowError.
Proof. intro H. unfold read_int. rewrite read_short by exact H. reflexivity. Qed.
Lemma read_int_inv n l z r : read_int n l = Ok (z, r) -> exists a, l = a ++ r /\ length a = n /\ z = from_bytes a.
Proof.
  unfold read_int. destruct (read n l) as [[a r']|] eqn:E; [|discriminate]. cbn [bind].
  intro H; injection H as <- <-. apply read_inv in E as [-> Hl]. eauto.
Qed.

Lemma bytes_app a b : bytes_ok (a ++ b) <-> bytes_ok a /\ bytes_ok b.
Proof. apply Forall_app. Qed.

(** ** neighbour entries *)
Lemma land_mod4 b : 0 <= b -> Z.land b 3 = b mod 4.
Proof. intro H. change 3 with (Z.ones 2). apply Z.land_ones. lia. Qed.
Lemma bits12 b : byte_ok b -> Z.shiftr (Z.land b 12) 2 = b / 4 mod 4.
Proof.
  intro Hb. apply Z.eqb_eq.
  apply (byte_sweep (fun b => Z.shiftr (Z.land b 12) 2 =? b / 4 mod 4)); [|exact Hb].
  vm_compute. reflexivity.
Qed.
Lemma bits112 b : byte_ok b -> Z.shiftr (Z.land b 112) 4 = b / 16 mod 8.
Proof.
  intro Hb. apply Z.eqb_eq.
  apply (byte_sweep (fun b => Z.shiftr (Z.land b 112) 4 =? b / 16 mod 8)); [|exact Hb].
  vm_compute. reflexivity.
Qed.

Lemma read_neighbor_ok n a r : neighbor_wire n a -> read_neighbor_lqi (a ++ r) = Ok (n, r).
Proof.
  intros [pan ext nwk bits pj depth lqi Hp He Hpo Heo Hn Hb Hpj Hd Hl].
  unfold read_neighbor_lqi, read_ieee_addr. rewrite <- !app_assoc.
  rewrite read_app by exact Hp. cbn [bind]. rewrite read_app by exact He. cbn [bind].
  rewrite read_int_app by reflexivity. cbn [bind].
  change ([bits; pj; depth; lqi] ++ r) with ([bits] ++ [pj] ++ [depth] ++ [lqi] ++ r).
  do 4 (rewrite read_int_app by reflexivity; cbn [bind]).
  rewrite !from_bytes1, from_bytes_le2 by exact Hn.
  unfold neighbor_of. rewrite !land_mod4 by (unfold byte_ok in *; lia).
  rewrite bits12, bits112 by assumption. reflexivity.
Qed.

Lemma neighbor_wire_length n a : neighbor_wire n a -> length a = 22%nat.
Proof. intros [pan ext nwk bits pj depth lqi Hp He _ _ _ _ _ _ _]. rewrite !app_length, Hp, He. reflexivity. Qed.

Ltac split_read H x a Hl :=
  match type of H with
  | (do _ <- read ?n ?l; _) = _ =>
      destruct (read n l) as [[x a]|] eqn:?E; [|discriminate H]; cbn [bind] in H
  end.

Lemma read_neighbor_inv l n r : bytes_ok l -> read_neighbor_lqi l = Ok (n, r) ->
  exists a, l = a ++ r /\ neighbor_wire n a.
Proof.
  intros Hok H. unfold read_neighbor_lqi, read_ieee_addr in H.
  destruct (read 8 l) as [[pan r1]|] eqn:E1; [|discriminate]. cbn [bind] in H.
  destruct (read 8 r1) as [[ext r2]|] eqn:E2; [|discriminate]. cbn [bind] in H.
  destruct (read_int 2 r2) as [[nwk r3]|] eqn:E3; [|discriminate]. cbn [bind] in H.
  destruct (read_int 1 r3) as [[v1 r4]|] eqn:E4; [|discriminate]. cbn [bind] in H.
  destruct (read_int 1 r4) as [[pj r5]|] eqn:E5; [|discriminate]. cbn [bind] in H.
  destruct (read_int 1 r5) as [[dep r6]|] eqn:E6; [|discriminate]. cbn [bind] in H.
  destruct (read_int 1 r6) as [[lq r7]|] eqn:E7; [|discriminate]. cbn [bind] in H.
  injection H as <- <-.
  apply read_inv in E1 as [-> L1]. apply read_inv in E2 as [-> L2].
  apply read_int_inv in E3 as (b3 & -> & L3 & ->).
  apply read_int_inv in E4 as (b4 & -> & L4 & ->).
  apply read_int_inv in E5 as (b5 & -> & L5 & ->).
  apply read_int_inv in E6 as (b6 & -> & L6 & ->).
  apply read_int_inv in E7 as (b7 & -> & L7 & ->).
  destruct b3 as [|x [|y [|]]]; try discriminate.
  destruct b4 as [|v [|]]; try discriminate.
  destruct b5 as [|p [|]]; try discriminate.
  destruct b6 as [|d [|]]; try discriminate.
  destruct b7 as [|q [|]]; try discriminate.
  rewrite !bytes_app in Hok. destruct Hok as (O1 & O2 & O3 & O4 & O5 & O6 & O7 & _).
  assert (Hx : byte_ok x /\ byte_ok y) by (inversion O3 as [|? ? ? K]; subst; inversion K; subst; auto).
  assert (Hv : byte_ok v) by (inversion O4; assumption).
  assert (Hp : byte_ok p) by (inversion O5; assumption).
  assert (Hd : byte_ok d) by (inversion O6; assumption).
  assert (Hq : byte_ok q) by (inversion O7; assumption).
  destruct Hx as [Hx Hy].
  exists (pan ++ ext ++ [x; y] ++ [v; p; d; q]). split; [rewrite <- !app_assoc; reflexivity|].
  rewrite !from_bytes1, land_mod4, land_mod4, bits12, bits112 by (unfold byte_ok in *; lia || assumption).
  rewrite <- (le2_from_bytes x y Hx Hy).
  assert (Hr := from_bytes_range2 x y Hx Hy).
  rewrite le2_from_bytes at 1 by assumption.
  apply nw_intro; assumption.
Qed.

Lemma read_neighbor_err l e : read_neighbor_lqi l = Err e -> e = OverflowError /\ (length l < 22)%nat.
Proof.
  intro H. unfold read_neighbor_lqi, read_ieee_addr, read_int in H.
  destruct (read 8 l) as [[pan r1]|] eqn:E1; cbn [bind] in H; [|injection H as <-; apply read_err in E1 as [-> ?]; split; [reflexivity|lia]].
  apply read_inv in E1 as [-> L1].
  destruct (read 8 r1) as [[ext r2]|] eqn:E2; cbn [bind] in H; [|injection H as <-; apply read_err in E2 as [-> ?]; rewrite app_length; split; [reflexivity|lia]].
  apply read_inv in E2 as [-> L2].
  destruct (read 2 r2) as [[nwk r3]|] eqn:E3; cbn [bind] in H; [|injection H as <-; apply read_err in E3 as [-> ?]; rewrite !app_length; split; [reflexivity|lia]].
  apply read_inv in E3 as [-> L3].
  destruct (read 1 r3) as [[v1 r4]|] eqn:E4; cbn [bind] in H; [|injection H as <-; apply read_err in E4 as [-> ?]; rewrite !app_length; split; [reflexivity|lia]].
  apply read_inv in E4 as [-> L4].
  destruct (read 1 r4) as [[pj r5]|] eqn:E5; cbn [bind] in H; [|injection H as <-; apply read_err in E5 as [-> ?]; rewrite !app_length; split; [reflexivity|lia]].
  apply read_inv in E5 as [-> L5].
  destruct (read 1 r5) as [[dep r6]|] eqn:E6; cbn [bind] in H; [|injection H as <-; apply read_err in E6 as [-> ?]; rewrite !app_length; split; [reflexivity|lia]].
  apply read_inv in E6 as [-> L6].
  destruct (read 1 r6) as [[lq r7]|] eqn:E7; cbn [bind] in H; [discriminate|injection H as <-; apply read_err in E7 as [-> ?]; rewrite !app_length; split; [reflexivity|lia]].
Qed.

Lemma read_neighbors_ok l bs r : neighbors_wire l bs -> read_neighbors (length l) (bs ++ r) = Ok (l, r).
Proof.
  intro H. revert r. induction H as [|n l a b Hn Hl IH]; intro r; [reflexivity|].
  cbn [length read_neighbors]. rewrite <- app_assoc, (read_neighbor_ok n a) by exact Hn.
  cbn [bind]. rewrite IH. reflexivity.
Qed.

Lemma read_neighbors_inv k : forall l ns r, bytes_ok l -> read_neighbors k l = Ok (ns, r) ->
  exists bs, l = bs ++ r /\ neighbors_wire ns bs /\ length ns = k.
Proof.
  induction k as [|k IH]; intros l ns r Hok H; cbn [read_neighbors] in H.
  - injection H as <- <-. exists []. repeat split. constructor.
  - destruct (read_neighbor_lqi l) as [[n r1]|] eqn:E1; [|discriminate]. cbn [bind] in H.
    destruct (read_neighbors k r1) as [[ns' r2]|] eqn:E2; [|discriminate]. cbn [bind] in H.
    injection H as <- <-.
    apply read_neighbor_inv in E1 as (a & -> & Ha); [|exact Hok].
    apply bytes_app in Hok as [_ Hok]. apply IH in E2 as (b & -> & Hb & <-); [|exact Hok].
    exists (a ++ b). split; [apply app_assoc|]. split; [constructor; assumption|reflexivity].
Qed.

Lemma neighbors_wire_length ns bs : neighbors_wire ns bs -> length bs = (22 * length ns)%nat.
Proof.
  induction 1 as [|n l a b Hn _ IH]; [reflexivity|].
  rewrite app_length, IH, (neighbor_wire_length n a Hn). cbn [length]. lia.
Qed.

Lemma read_neighbors_err k : forall l e, read_neighbors k l = Err e ->
  e = OverflowError /\ (length l < 22 * k)%nat.
Proof.
  induction k as [|k IH]; intros l e H; cbn [read_neighbors] in H; [discriminate|].
  destruct (read_neighbor_lqi l) as [[n r1]|] eqn:E1; cbn [bind] in H.
  - destruct (read_neighbors k r1) as [[ns r2]|] eqn:E2; cbn [bind] in H; [discriminate|].
    injection H as <-. apply IH in E2 as [-> Hl]. split; [reflexivity|].
    unfold read_neighbor_lqi, read_ieee_addr in E1.
    destruct (read 8 l) as [[x1 y1]|] eqn:F1; [|discriminate]. cbn [bind] in E1.
    destruct (read 8 y1) as [[x2 y2]|] eqn:F2; [|discriminate]. cbn [bind] in E1.
    destruct (read_int 2 y2) as [[x3 y3]|] eqn:F3; [|discriminate]. cbn [bind] in E1.
    destruct (read_int 1 y3) as [[x4 y4]|] eqn:F4; [|discriminate]. cbn [bind] in E1.
    destruct (read_int 1 y4) as [[x5 y5]|] eqn:F5; [|discriminate]. cbn [bind] in E1.
    destruct (read_int 1 y5) as [[x6 y6]|] eqn:F6; [|discriminate]. cbn [bind] in E1.
    destruct (read_int 1 y6) as [[x7 y7]|] eqn:F7; [|discriminate]. cbn [bind] in E1.
    injection E1 as _ <-.
    apply read_inv in F1 as [-> ?]. apply read_inv in F2 as [-> ?].
    apply read_int_inv in F3 as (b3 & -> & ? & _). apply read_int_inv in F4 as (b4 & -> & ? & _).
    apply read_int_inv in F5 as (b5 & -> & ? & _). apply read_int_inv in F6 as (b6 & -> & ? & _).
    apply read_int_inv in F7 as (b7 & -> & ? & _).
    rewrite !app_length. lia.
  - injection H as <-. apply read_neighbor_err in E1 as [-> ?]. split; [reflexivity|lia].
Qed.

(** ** lists of integers *)
Lemma read_ints1_ok l r : read_ints 1 (length l) (l ++ r) = Ok (l, r).
Proof.
  induction l as [|x l IH]; [reflexivity|]. cbn [length read_ints app].
  change (x :: l ++ r) with ([x] ++ l ++ r). rewrite read_int_app by reflexivity. cbn [bind].
  rewrite IH. cbn [bind]. rewrite from_bytes1. reflexivity.
Qed.
Lemma read_ints2_ok l r : Forall (fun z => 0 <= z < 65536) l ->
  read_ints 2 (length l) (concat (map le2 l) ++ r) = Ok (l, r).
Proof.
  induction 1 as [|x l Hx Hl IH]; [reflexivity|]. cbn [length read_ints map concat].
  rewrite <- app_assoc, read_int_app by reflexivity. cbn [bind].
  rewrite IH. cbn [bind]. rewrite from_bytes_le2 by exact Hx. reflexivity.
Qed.
Lemma read_ints1_inv k : forall l zs r, read_ints 1 k l = Ok (zs, r) -> l = zs ++ r /\ length zs = k.
Proof.
  induction k as [|k IH]; intros l zs r H; cbn [read_ints] in H; [injection H as <- <-; auto|].
  destruct (read_int 1 l) as [[z r1]|] eqn:E1; [|discriminate]. cbn [bind] in H.
  destruct (read_ints 1 k r1) as [[zs' r2]|] eqn:E2; [|discriminate]. cbn [bind] in H.
  injection H as <- <-. apply read_int_inv in E1 as (a & -> & La & ->). apply IH in E2 as [-> <-].
  destruct a as [|x [|]]; try discriminate. rewrite from_bytes1. auto.
Qed.
Lemma read_ints2_inv k : forall l zs r, bytes_ok l -> read_ints 2 k l = Ok (zs, r) ->
  l = concat (map le2 zs) ++ r /\ length zs = k /\ Forall (fun z => 0 <= z < 65536) zs.
Proof.
  induction k as [|k IH]; intros l zs r Hok H; cbn [read_ints] in H.
  - injection H as <- <-. repeat split. constructor.
  - destruct (read_int 2 l) as [[z r1]|] eqn:E1; [|discriminate]. cbn [bind] in H.
    destruct (read_ints 2 k r1) as [[zs' r2]|] eqn:E2; [|discriminate]. cbn [bind] in H.
    injection H as <- <-. apply read_int_inv in E1 as (a & -> & La & ->).
    destruct a as [|x [|y [|]]]; try discriminate.
    apply bytes_app in Hok as [Ho1 Ho2]. apply IH in E2 as (-> & <- & Hf); [|exact Ho2].
    inversion Ho1 as [|? ? Hx Ho3]; subst. inversion Ho3 as [|? ? Hy _]; subst.
    cbn [map concat]. rewrite le2_from_bytes by assumption.
    split; [rewrite <- app_assoc; reflexivity|]. split; [reflexivity|].
    constructor; [apply from_bytes_range2; assumption|exact Hf].
Qed.
Lemma read_ints_err w k : forall l e, read_ints w k l = Err e -> e = OverflowError /\ (length l < w * k)%nat.
Proof.
  induction k as [|k IH]; intros l e H; cbn [read_ints] in H; [discriminate|].
  destruct (read_int w l) as [[z r1]|] eqn:E1; cbn [bind] in H.
  - destruct (read_ints w k r1) as [[zs r2]|] eqn:E2; cbn [bind] in H; [discriminate|].
    injection H as <-. apply IH in E2 as [-> ?]. apply read_int_inv in E1 as (a & -> & La & _).
    rewrite app_length. split; [reflexivity|lia].
  - injection H as <-. unfold read_int in E1. destruct (read w l) as [[? ?]|] eqn:E; [discriminate|].
    cbn [bind] in E1. injection E1 as <-. apply read_err in E as [-> ?]. split; [reflexivity|lia].
Qed.

(** ** one parameter *)
Lemma address_mode_ok z : In z address_modes -> address_mode_of z = Ok z.
Proof. unfold address_modes. cbn [In]. intros [<-|[<-|[<-|[<-|[<-|[]]]]]]; reflexivity. Qed.
Lemma address_mode_inv z m : address_mode_of z = Ok m -> m = z /\ In z address_modes.
Proof.
  unfold address_mode_of, address_modes. intro H.
  repeat match type of H with
         | (match ?y with _ => _ end) = _ => destruct y; try discriminate
         end; injection H as <-; cbn; auto 10.
Qed.

Definition opt_len (t : ptype) (prev : option Z) := if buffer_or_list t then prev else None.

Lemma signed1 z : -128 <= z < 128 -> from_bytes_signed [z mod 256] = z.
Proof.
  intro H. unfold from_bytes_signed. rewrite from_bytes1. cbn [length].
  change (256 ^ Z.of_nat 1) with 256. change (256 / 2) with 128.
  destruct (Z.ltb_spec (z mod 256) 128); lia.
Qed.

Lemma read_parameter_ok name t prev v a r :
  value_wire name t prev v a -> read_parameter name t (opt_len t prev) (a ++ r) = Ok (v, r).
Proof.
  intro H. destruct H as [prev z Hz Hm|prev z Hz|prev z Hz|prev z Hz|prev l Hl Hok|l Hok|t n prev l Hs Hl Hok|l k Hok Hk|l k Hok Hk|l k bs Hn Hk].
  - cbn [read_parameter]. rewrite read_int_app by reflexivity. cbn [bind]. rewrite from_bytes1.
    destruct (endswith name "addrmode"); [|reflexivity].
    rewrite address_mode_ok by (apply Hm; reflexivity). reflexivity.
  - cbn [read_parameter]. rewrite read_int_app by reflexivity. cbn [bind].
    rewrite from_bytes_le2 by exact Hz. reflexivity.
  - cbn [read_parameter]. rewrite read_int_app by reflexivity. cbn [bind].
    rewrite from_bytes_le4 by exact Hz. reflexivity.
  - cbn [read_parameter]. rewrite read_app by reflexivity. cbn [bind].
    rewrite signed1 by exact Hz. reflexivity.
  - cbn [read_parameter]. unfold read_ieee_addr. rewrite read_app by exact Hl. reflexivity.
  - cbn [read_parameter opt_len buffer_or_list].
    destruct (Z.ltb_spec (Z.of_nat (length l)) 0); [lia|].
    rewrite Nat2Z.id, read_app by reflexivity. reflexivity.
  - destruct t; try discriminate; cbn [fixed_size] in Hs; injection Hs as <-;
      cbn [read_parameter]; rewrite read_app by exact Hl; reflexivity.
  - cbn [read_parameter opt_len buffer_or_list list_length bind].
    rewrite <- Hk, read_ints1_ok. reflexivity.
  - cbn [read_parameter opt_len buffer_or_list list_length bind].
    rewrite <- Hk, read_ints2_ok by exact Hok. reflexivity.
  - cbn [read_parameter opt_len buffer_or_list list_length bind].
    rewrite <- Hk, (read_neighbors_ok l bs) by exact Hn. reflexivity.
Qed.

Lemma read_parameter_inv name t prev v l r : bytes_ok l ->
  read_parameter name t (opt_len t prev) l = Ok (v, r) ->
  exists a, l = a ++ r /\ value_wire name t prev v a.
Proof.
  intros Hok H.
  assert (Hfix : forall n, fixed_size t = Some n ->
     (do (b, r) <- read n l; Ok (VBytes b, r)) = Ok (v, r) ->
     exists a, l = a ++ r /\ value_wire name t prev v a).
  { intros n Hn H0. destruct (read n l) as [[b r1]|] eqn:E; [|discriminate]. cbn [bind] in H0.
    injection H0 as <- <-. apply read_inv in E as [-> Hl]. apply bytes_app in Hok as [Hb _].
    exists b. split; [reflexivity|]. apply (vw_fixed _ _ n); assumption. }
  destruct t; cbn [read_parameter opt_len buffer_or_list] in H; try (eapply Hfix; [reflexivity|exact H]); try discriminate.
  - destruct (read_int 1 l) as [[z r1]|] eqn:E; [|discriminate]. cbn [bind] in H.
    apply read_int_inv in E as (b & -> & Lb & ->). destruct b as [|x [|]]; try discriminate.
    rewrite from_bytes1 in H. apply bytes_app in Hok as [Hb _]. inversion Hb as [|? ? Hx _]; subst.
    destruct (endswith name "addrmode") eqn:En.
    + destruct (address_mode_of x) as [m|] eqn:Em; [|discriminate]. cbn [bind] in H.
      apply address_mode_inv in Em as [-> Hin]. injection H as <- <-.
      exists [x]. split; [reflexivity|]. constructor; auto.
    + injection H as <- <-. exists [x]. split; [reflexivity|]. constructor; [exact Hx|congruence].
  - destruct (read_int 2 l) as [[z r1]|] eqn:E; [|discriminate]. cbn [bind] in H. injection H as <- <-.
    apply read_int_inv in E as (b & -> & Lb & ->). destruct b as [|x [|y [|]]]; try discriminate.
    apply bytes_app in Hok as [Hb _]. inversion Hb as [|? ? Hx Hb']; subst. inversion Hb' as [|? ? Hy _]; subst.
    exists [x; y]. split; [reflexivity|]. rewrite <- (le2_from_bytes x y) by assumption.
    rewrite (le2_from_bytes x y) at 1 by assumption.
    constructor. apply from_bytes_range2; assumption.
  - destruct (read_int 4 l) as [[z r1]|] eqn:E; [|discriminate]. cbn [bind] in H. injection H as <- <-.
    apply read_int_inv in E as (b & -> & Lb & ->). destruct b as [|x [|y [|x2 [|y2 [|]]]]]; try discriminate.
    apply bytes_app in Hok as [Hb _].
    inversion Hb as [|? ? Q1 K1]; subst. inversion K1 as [|? ? Q2 K2]; subst.
    inversion K2 as [|? ? Q3 K3]; subst. inversion K3 as [|? ? Q4 K4]; subst.
    exists [x; y; x2; y2]. split; [reflexivity|].
    rewrite <- (le4_from_bytes x y x2 y2) by assumption. rewrite (le4_from_bytes x y x2 y2) at 1 by assumption.
    constructor. apply from_bytes_range4; assumption.
  - unfold read_ieee_addr in H. destruct (read 8 l) as [[b r1]|] eqn:E; [|discriminate]. cbn [bind] in H.
    injection H as <- <-. apply read_inv in E as [-> Hl]. apply bytes_app in Hok as [Hb _].
    exists b. split; [reflexivity|]. constructor; assumption.
  - destruct prev as [n|]; [|discriminate]. destruct (Z.ltb_spec n 0); [discriminate|].
    destruct (read (Z.to_nat n) l) as [[b r1]|] eqn:E; [|discriminate]. cbn [bind] in H.
    injection H as <- <-. apply read_inv in E as [-> Hl]. apply bytes_app in Hok as [Hb _].
    exists b. split; [reflexivity|]. replace n with (Z.of_nat (length b)) by lia. constructor; assumption.
  - destruct prev as [n|]; [|discriminate]. cbn [list_length bind] in H.
    destruct (read_ints 1 (Z.to_nat n) l) as [[zs r1]|] eqn:E; [|discriminate]. cbn [bind] in H.
    injection H as <- <-. apply read_ints1_inv in E as [-> Hl]. apply bytes_app in Hok as [Hb _].
    exists zs. split; [reflexivity|]. constructor; assumption.
  - destruct prev as [n|]; [|discriminate]. cbn [list_length bind] in H.
    destruct (read_ints 2 (Z.to_nat n) l) as [[zs r1]|] eqn:E; [|discriminate]. cbn [bind] in H.
    injection H as <- <-. apply read_ints2_inv in E as (-> & Hl & Hf); [|exact Hok].
    eexists. split; [reflexivity|]. constructor; assumption.
  - destruct prev as [n|]; [|discriminate]. cbn [list_length bind] in H.
    destruct (read_neighbors (Z.to_nat n) l) as [[zs r1]|] eqn:E; [|discriminate]. cbn [bind] in H.
    injection H as <- <-. apply read_neighbors_inv in E as (bs & -> & Hw & Hl); [|exact Hok].
    exists bs. split; [reflexivity|]. constructor; assumption.
  - destruct (read 1 l) as [[b r1]|] eqn:E; [|discriminate]. cbn [bind] in H. injection H as <- <-.
    apply read_inv in E as [-> Hl]. destruct b as [|x [|]]; try discriminate.
    apply bytes_app in Hok as [Hb _]. inversion Hb as [|? ? Hx _]; subst.
    exists [x]. split; [reflexivity|].
    assert (Hs : -128 <= from_bytes_signed [x] < 128 /\ [x] = [from_bytes_signed [x] mod 256]).
    { unfold from_bytes_signed. rewrite from_bytes1. cbn [length].
      change (256 ^ Z.of_nat 1) with 256. change (256 / 2) with 128. unfold byte_ok in Hx.
      destruct (Z.ltb_spec x 128); (split; [lia|f_equal; lia]). }
    destruct Hs as [Hs1 Hs2]. rewrite Hs2 at 2. constructor. exact Hs1.
Qed.

(** a proper prefix of one parameter cannot be read *)
Lemma read_parameter_short name t prev v a m :
  value_wire name t prev v a -> (m < length a)%nat ->
  read_parameter name t (opt_len t prev) (firstn m a) = Err OverflowError.
Proof.
  intros H Hm. assert (Hl : length (firstn m a) = m) by (apply firstn_length_le; lia).
  destruct H as [prev z Hz _|prev z Hz|prev z Hz|prev z Hz|prev l Hl' Hok|l Hok|t n prev l Hs Hl' Hok|l k Hok Hk|l k Hok Hk|l k bs Hn Hk].
  - cbn [read_parameter]. rewrite read_int_short; [reflexivity|]. rewrite Hl. exact Hm.
  - cbn [read_parameter]. rewrite read_int_short; [reflexivity|]. rewrite Hl. exact Hm.
  - cbn [read_parameter]. rewrite read_int_short; [reflexivity|]. rewrite Hl. exact Hm.
  - cbn [read_parameter]. rewrite read_short; [reflexivity|]. rewrite Hl. exact Hm.
  - cbn [read_parameter]. unfold read_ieee_addr. rewrite read_short; [reflexivity|]. rewrite Hl. lia.
  - cbn [read_parameter opt_len buffer_or_list].
    destruct (Z.ltb_spec (Z.of_nat (length l)) 0); [lia|].
    rewrite Nat2Z.id, read_short; [reflexivity|]. rewrite Hl. exact Hm.
  - destruct t; try discriminate; cbn [fixed_size] in Hs; injection Hs as <-;
      cbn [read_parameter]; (rewrite read_short; [reflexivity|rewrite Hl; lia]).
  - cbn [read_parameter opt_len buffer_or_list list_length bind].
    destruct (read_ints 1 (Z.to_nat k) (firstn m l)) as [[zs r]|] eqn:E.
    + apply read_ints1_inv in E as [E E2]. assert (length (firstn m l) = length (zs ++ r)) by congruence.
      rewrite app_length in H. lia.
    + apply read_ints_err in E as [-> _]. reflexivity.
  - cbn [read_parameter opt_len buffer_or_list list_length bind].
    assert (Hcl : length (concat (map le2 l)) = (2 * length l)%nat).
    { clear. induction l as [|x l IH]; [reflexivity|]. cbn [map concat]. rewrite app_length, IH. cbn [length le2]. lia. }
    destruct (read_ints 2 (Z.to_nat k) (firstn m _)) as [[zs r]|] eqn:E.
    + apply read_ints2_inv in E as (E & E2 & _).
      * assert (Hc : length (concat (map le2 zs)) = (2 * length zs)%nat).
        { clear. induction zs as [|x l IH]; [reflexivity|]. cbn [map concat]. rewrite app_length, IH. cbn [length le2]. lia. }
        apply (f_equal (@length Z)) in E. rewrite app_length in E. lia.
      * assert (Hb : bytes_ok (concat (map le2 l))).
        { clear -Hok. induction Hok; [constructor|]. cbn [map concat]. apply bytes_app. split; [apply le2_ok; assumption|assumption]. }
        rewrite <- (firstn_skipn m (concat (map le2 l))) in Hb. apply bytes_app in Hb. apply Hb.
    + apply read_ints_err in E as [-> _]. reflexivity.
  - cbn [read_parameter opt_len buffer_or_list list_length bind].
    pose proof (neighbors_wire_length _ _ Hn) as Hnl.
    assert (Hb : bytes_ok bs).
    { clear -Hn. induction Hn as [|n l a b Hw _ IH]; [constructor|]. apply bytes_app. split; [|exact IH].
      destruct Hw as [pan ext nwk bits pj depth lqi Hp He Hpo Heo Hn Hb Hpj Hd Hl].
      rewrite !bytes_app. repeat split; try assumption; [apply le2_ok; assumption|].
      repeat constructor; apply Hb || apply Hpj || apply Hd || apply Hl. }
    destruct (read_neighbors (Z.to_nat k) (firstn m bs)) as [[zs r]|] eqn:E.
    + apply read_neighbors_inv in E as (b2 & E & Hw & Hlen).
      * apply neighbors_wire_length in Hw. apply (f_equal (@length Z)) in E. rewrite app_length in E. lia.
      * rewrite <- (firstn_skipn m bs) in Hb. apply bytes_app in Hb. apply Hb.
    + apply read_neighbors_err in E as [-> _]. reflexivity.
Qed.

(** ** parameter lists *)
Definition names (ps : list param) : list string := map fst ps.

Lemma dict_set_fresh {A} (d : list (string * A)) n v : ~ In n (map fst d) -> dict_set d n v = d ++ [(n, v)].
Proof.
  induction d as [|[k w] d IH]; intro H; [reflexivity|]. cbn [dict_set map fst In] in *.
  destruct (String.eqb_spec n k) as [->|_]; [tauto|]. rewrite IH by tauto. reflexivity.
Qed.

Lemma payload_wire_names prev ps pl bs : payload_wire prev ps pl bs -> map fst pl = names ps.
Proof. induction 1 as [|prev n t v a ps pl b _ _ IH]; [reflexivity|]. cbn. f_equal. exact IH. Qed.

Lemma int_value_of v : int_value v = int_of v.
Proof. destruct v; reflexivity. Qed.

Lemma read_params_ok prev ps pl bs : payload_wire prev ps pl bs -> forall res rest,
  NoDup (map fst res ++ names ps) -> read_params ps prev res (bs ++ rest) = Ok (res ++ pl).
Proof.
  induction 1 as [prev|prev n t v a ps pl b Hv Hp IH]; intros res rest Hnd.
  - cbn [read_params]. rewrite app_nil_r. reflexivity.
  - cbn [read_params]. rewrite <- app_assoc.
    change (if buffer_or_list t then prev else None) with (opt_len t prev).
    rewrite (read_parameter_ok n t prev v a) by exact Hv. cbn [bind].
    rewrite int_value_of. cbn [names map fst] in Hnd. fold (names ps) in Hnd.
    assert (Hnot : ~ In n (map fst res)).
    { intro C. apply NoDup_remove_2 in Hnd. apply Hnd. apply in_app_iff. left. exact C. }
    rewrite dict_set_fresh by exact Hnot. rewrite IH.
    + rewrite <- app_assoc. reflexivity.
    + rewrite map_app. cbn [map fst]. rewrite <- app_assoc. exact Hnd.
Qed.

Lemma read_params_inv ps : forall prev res l pl, bytes_ok l -> NoDup (map fst res ++ names ps) ->
  read_params ps prev res l = Ok pl ->
  exists bs rest pl', l = bs ++ rest /\ pl = res ++ pl' /\ payload_wire prev ps pl' bs.
Proof.
  induction ps as [|[n t] ps IH]; intros prev res l pl Hok Hnd H; cbn [read_params] in H.
  - injection H as <-. exists [], l, []. rewrite app_nil_r. repeat split. constructor.
  - change (if buffer_or_list t then prev else None) with (opt_len t prev) in H.
    destruct (read_parameter n t (opt_len t prev) l) as [[v r]|] eqn:E; [|discriminate]. cbn [bind] in H.
    apply read_parameter_inv in E as (a & -> & Hv); [|exact Hok].
    apply bytes_app in Hok as [_ Hr].
    cbn [names map fst] in Hnd. fold (names ps) in Hnd.
    assert (Hnot : ~ In n (map fst res)).
    { intro C. apply NoDup_remove_2 in Hnd. apply Hnd. apply in_app_iff. left. exact C. }
    rewrite dict_set_fresh in H by exact Hnot. rewrite int_value_of in H.
    apply IH in H as (bs & rest & pl' & -> & -> & Hw); [|exact Hr|].
    + exists (a ++ bs), rest, ((n, v) :: pl'). split; [apply app_assoc|].
      split; [rewrite <- app_assoc; reflexivity|]. constructor; assumption.
    + rewrite map_app. cbn [map fst]. rewrite <- app_assoc. exact Hnd.
Qed.

Lemma read_params_short prev ps pl bs : payload_wire prev ps pl bs -> forall res m,
  (m < length bs)%nat -> read_params ps prev res (firstn m bs) = Err OverflowError.
Proof.
  induction 1 as [prev|prev n t v a ps pl b Hv Hp IH]; intros res m Hm; [cbn in Hm; lia|].
  cbn [read_params].
  change (if buffer_or_list t then prev else None) with (opt_len t prev).
  destruct (Compare_dec.le_gt_dec (length a) m) as [Hle|Hgt].
  - rewrite firstn_app, firstn_all2 by lia.
    rewrite (read_parameter_ok n t prev v a) by exact Hv. cbn [bind]. rewrite int_value_of.
    apply IH. rewrite app_length in Hm. lia.
  - rewrite firstn_app. replace (m - length a)%nat with 0%nat by lia. cbn [firstn]. rewrite app_nil_r.
    rewrite (read_parameter_short n t prev v a) by assumption. reflexivity.
Qed.

Lemma decode_ok ps pl bs rest : NoDup (names ps) -> payload_wire None ps pl bs ->
  read_parameters (bs ++ rest) ps = Ok pl.
Proof. intros Hn H. unfold read_parameters. rewrite (read_params_ok _ _ _ _ H); [reflexivity|exact Hn]. Qed.

Lemma decode_inv ps pl l : NoDup (names ps) -> bytes_ok l -> read_parameters l ps = Ok pl ->
  exists bs rest, l = bs ++ rest /\ payload_wire None ps pl bs.
Proof.
  intros Hn Hok H. apply read_params_inv in H as (bs & rest & pl' & -> & -> & Hw); [|exact Hok|exact Hn].
  exists bs, rest. auto.
Qed.

Lemma decode_short ps pl bs m : payload_wire None ps pl bs -> (m < length bs)%nat ->
  read_parameters (firstn m bs) ps = Err OverflowError.
Proof. intros H Hm. apply (read_params_short _ _ _ _ H). exact Hm. Qed.

(** ** writing *)
Lemma write_each1 l : bytes_ok l -> write_each 1 l = Ok l.
Proof.
  induction 1 as [|x l Hx _ IH]; [reflexivity|]. cbn [write_each].
  rewrite to_bytes1 by exact Hx. cbn [bind]. rewrite IH. reflexivity.
Qed.
Lemma write_each2 l : Forall (fun z => 0 <= z < 65536) l -> write_each 2 l = Ok (concat (map le2 l)).
Proof.
  induction 1 as [|x l Hx _ IH]; [reflexivity|]. cbn [write_each].
  rewrite to_bytes2 by exact Hx. cbn [bind]. rewrite IH. reflexivity.
Qed.

Definition neighbor_bytes (n : neighbor) : list Z :=
  n_extPanId n ++ n_extAddr n ++ le2 (n_nwkAddr n) ++
  [n_deviceType n + 4 * n_rxOnWhenIdle n + 16 * n_relationship n; n_permitJoin n; n_depth n; n_lqi n].

Lemma lor_fields d r k : 0 <= d < 4 -> 0 <= r < 4 -> 0 <= k < 8 ->
  Z.lor (Z.lor d (r * 4)) (k * 16) = d + 4 * r + 16 * k.
Proof.
  intros Hd Hr Hk.
  assert (E : forallb (fun d => forallb (fun r => forallb (fun k =>
     Z.lor (Z.lor d (r * 4)) (k * 16) =? d + 4 * r + 16 * k) [0;1;2;3;4;5;6;7]) [0;1;2;3]) [0;1;2;3] = true)
    by (vm_compute; reflexivity).
  rewrite forallb_forall in E. specialize (E d ltac:(cbn [In]; lia)).
  rewrite forallb_forall in E. specialize (E r ltac:(cbn [In]; lia)).
  rewrite forallb_forall in E. specialize (E k ltac:(cbn [In]; lia)).
  apply Z.eqb_eq in E. exact E.
Qed.

Lemma write_neighbor_ok n : neighbor_fits n ->
  write_neighbor_lqi n = Ok (neighbor_bytes n) /\ neighbor_wire n (neighbor_bytes n).
Proof.
  intros (Hp & Hpo & He & Heo & Hn & Hd & Hr & Hk & Hj & Hdp & Hl).
  split.
  - unfold write_neighbor_lqi. rewrite !write_each1 by assumption. cbn [bind].
    rewrite to_bytes2 by assumption. cbn [bind]. rewrite lor_fields by assumption.
    rewrite (to_bytes1 (n_deviceType n + _ + _)) by (unfold byte_ok; lia). cbn [bind].
    rewrite (to_bytes1 (n_permitJoin n)) by (unfold byte_ok; lia). cbn [bind].
    rewrite (to_bytes1 (n_depth n)), (to_bytes1 (n_lqi n)) by assumption. reflexivity.
  - destruct n as [pan ext nwk dt rx rel pj dep lqi]. cbn [n_extPanId n_extAddr n_nwkAddr n_deviceType
      n_rxOnWhenIdle n_relationship n_permitJoin n_depth n_lqi] in *.
    unfold neighbor_bytes. cbn [n_extPanId n_extAddr n_nwkAddr n_deviceType
      n_rxOnWhenIdle n_relationship n_permitJoin n_depth n_lqi].
    replace (mk_neighbor pan ext nwk dt rx rel pj dep lqi)
      with (neighbor_of pan ext nwk (dt + 4 * rx + 16 * rel) pj dep lqi).
    + constructor; try assumption; unfold byte_ok; lia.
    + unfold neighbor_of. f_equal; lia.
Qed.

Lemma write_neighbors_ok l : Forall neighbor_fits l ->
  exists bs, write_neighbors l = Ok bs /\ neighbors_wire l bs.
Proof.
  induction 1 as [|n l Hn _ (bs & IH & Hw)]; [exists []; split; [reflexivity|constructor]|].
  destruct (write_neighbor_ok n Hn) as [E1 E2]. exists (neighbor_bytes n ++ bs).
  cbn [write_neighbors]. rewrite E1. cbn [bind]. rewrite IH. split; [reflexivity|]. constructor; assumption.
Qed.

Lemma write_parameter_ok name t prev v : value_fits name t prev v ->
  exists a, write_parameter t v = Ok a /\ value_wire name t prev v a.
Proof.
  intro H. destruct t, v; cbn [value_fits] in H; try tauto.
  - destruct H as [Hz Hm]. exists [z]. cbn [write_parameter write]. rewrite to_bytes1 by exact Hz.
    split; [reflexivity|]. constructor; assumption.
  - exists (le2 z). cbn [write_parameter write]. rewrite to_bytes2 by exact H. split; [reflexivity|]. constructor; assumption.
  - exists (le4 z). cbn [write_parameter write]. rewrite to_bytes4 by exact H. split; [reflexivity|]. constructor; assumption.
  - destruct H as [Hl Hok]. exists l. cbn [write_parameter]. rewrite write_each1 by exact Hok. split; [reflexivity|]. constructor; assumption.
  - destruct H as [Hok ->]. exists l. split; [reflexivity|]. constructor; assumption.
  - destruct H as [Hok ->]. exists l. cbn [write_parameter]. rewrite write_each1 by exact Hok. split; [reflexivity|].
    constructor; [assumption|lia].
  - destruct H as [Hok ->]. eexists. cbn [write_parameter]. rewrite write_each2 by exact Hok. split; [reflexivity|].
    constructor; [assumption|lia].
  - destruct H as [Hok ->]. destruct (write_neighbors_ok l Hok) as (bs & E & Hw). exists bs.
    split; [exact E|]. constructor; [assumption|lia].
Qed.

Lemma write_params_ok ps : forall prev pl d, payload_fits prev ps pl -> holds d pl ->
  exists bs, write_params ps d = Ok bs /\ payload_wire prev ps pl bs.
Proof.
  induction ps as [|[n t] ps IH]; intros prev pl d Hf Hh; destruct pl as [|[n' v] pl]; cbn [payload_fits] in Hf; try tauto.
  - exists []. split; [reflexivity|constructor].
  - destruct Hf as (-> & Hv & Hf).
    destruct (write_parameter_ok n t prev v Hv) as (a & Ea & Ha).
    destruct (IH _ _ d Hf) as (b & Eb & Hb).
    { intros m w Hin. apply Hh. right. exact Hin. }
    exists (a ++ b). cbn [write_params]. unfold dict_getE. rewrite (Hh n v) by (left; reflexivity).
    cbn [bind]. rewrite Ea. cbn [bind]. rewrite Eb. split; [reflexivity|]. constructor; assumption.
Qed.

Lemma value_wire_bytes name t prev v a : value_wire name t prev v a -> bytes_ok a.
Proof.
  intros [p z Hz _|p z Hz|p z Hz|p z Hz|p l Hl Hok|l Hok|t' n p l Hs Hl Hok|l k Hok Hk|l k Hok Hk|l k bs Hn Hk]; try assumption.
  - constructor; [assumption|constructor].
  - apply le2_ok, Hz.
  - apply le4_ok, Hz.
  - constructor; [unfold byte_ok; lia|constructor].
  - clear -Hok. induction Hok; [constructor|]. cbn [map concat]. apply bytes_app. split; [apply le2_ok; assumption|assumption].
  - clear -Hn. induction Hn as [|n l a b Hw _ IH]; [constructor|]. apply bytes_app. split; [|exact IH].
    destruct Hw as [pan ext nwk bits pj depth lqi Hp He Hpo Heo Hn Hb Hpj Hd Hl].
    rewrite !bytes_app. repeat split; try assumption; [apply le2_ok; assumption|].
    repeat constructor; apply Hb || apply Hpj || apply Hd || apply Hl.
Qed.

Lemma payload_wire_bytes prev ps pl bs : payload_wire prev ps pl bs -> bytes_ok bs.
Proof.
  induction 1 as [|prev n t v a ps pl b Hv _ IH]; [constructor|]. apply bytes_app.
  split; [eapply value_wire_bytes; exact Hv|exact IH].
Qed.

Lemma encode_decode ps pl d : NoDup (names ps) -> payload_fits None ps pl -> holds d pl ->
  exists bs, write_params ps d = Ok bs /\ bytes_ok bs /\ payload_wire None ps pl bs /\
    forall extra, read_parameters (bs ++ extra) ps = Ok pl.
Proof.
  intros Hn Hf Hh. destruct (write_params_ok ps None pl d Hf Hh) as (bs & E & Hw).
  exists bs. split; [exact E|]. split; [eapply payload_wire_bytes; exact Hw|]. split; [exact Hw|].
  intro extra. apply decode_ok; assumption.
Qed.
