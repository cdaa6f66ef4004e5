(** * When frames are delivered; falling back into step on a busy line *)
From Verif Require Import Base Types Uart SpecWire UartProofs UartProofs2.
From Coq Require Import ZifyBool ZifyNat.

Lemma run_then buf a b : parser_run buf (a ++ b) = (fst (parser_run (fst (parser_run buf a)) b), snd (parser_run buf a) ++ snd (parser_run (fst (parser_run buf a)) b)).
Proof. rewrite parser_run_app. destruct (parser_run buf a) as [b1 o1]. cbn [fst snd]. destruct (parser_run b1 b) as [b2 o2]. reflexivity. Qed.
Lemma wire_head f : wire_of f = 254 :: skipn 1 (wire_of f).
Proof. reflexivity. Qed.
Lemma wire_len f : length (wire_of f) = (5 + length (f_data f))%nat.
Proof. apply wire_length. Qed.
Lemma stream_cons f fs : stream (f :: fs) = wire_of f ++ stream fs.
Proof. reflexivity. Qed.

(** ** C101 *)
Lemma firstn_wire k f rest : (k <= length (wire_of f))%nat -> firstn k (wire_of f ++ rest) = firstn k (wire_of f).
Proof. intro H. rewrite firstn_app. replace (k - length (wire_of f))%nat with 0%nat by lia. cbn [firstn]. apply app_nil_r. Qed.
Lemma run_empty_prefix f k : sendable f -> f_data f = [] -> (k <= length (wire_of f))%nat -> snd (parser_run [] (firstn k (wire_of f))) = [].
Proof.
  intros H Hd Hk. pose proof (run_empty_frame f H Hd) as E. rewrite <- (firstn_skipn k (wire_of f)) in E at 1. rewrite run_then in E.
  apply (f_equal snd) in E. cbn [snd] in E. apply app_eq_nil in E. apply E.
Qed.
Lemma delivered_by k fs : Forall sendable fs -> (k <= length (stream fs))%nat -> snd (parser_run [] (firstn k (stream fs))) = map (fun f => Ok (received f)) (arrived k fs).
Proof.
  intro H. revert k. induction H as [|f fs Hf _ IH]; intros k Hle; [destruct k; reflexivity|]. rewrite stream_cons in *. rewrite app_length in Hle. cbn [arrived].
  destruct (Compare_dec.le_lt_dec k (length (wire_of f))) as [Hk|Hk].
  - rewrite firstn_wire by exact Hk. replace (Nat.ltb (length (wire_of f)) k) with false by (symmetry; apply Nat.ltb_ge; exact Hk). cbn [orb].
    destruct (f_data f) as [|x d] eqn:Hd.
    + rewrite andb_false_r. apply run_empty_prefix; assumption.
    + assert (Hn : f_data f <> []) by (rewrite Hd; discriminate). rewrite andb_true_r. destruct (Nat.eqb (length (wire_of f)) k) eqn:E.
      * apply Nat.eqb_eq in E. subst k. rewrite firstn_all, (run_frame f Hf Hn), Nat.sub_diag. cbn [snd]. specialize (IH 0%nat ltac:(lia)). cbn [firstn] in IH.
        cbn [map]. rewrite <- IH. reflexivity.
      * apply Nat.eqb_neq in E. rewrite run_frame_prefix; [reflexivity|exact Hf|exact Hn|lia].
  - replace (Nat.ltb (length (wire_of f)) k) with true by (symmetry; apply Nat.ltb_lt; exact Hk). cbn [orb map].
    rewrite firstn_app, firstn_all2 by lia. rewrite run_then. rewrite <- IH by lia.
    set (k' := (k - length (wire_of f))%nat). destruct (f_data f) as [|x d] eqn:Hd.
    + rewrite (run_empty_frame f Hf Hd). cbn [fst snd app].
      destruct fs as [|g fs]; [unfold stream in Hle; cbn [map concat length] in Hle; lia|]. rewrite stream_cons, (wire_head g).
      destruct k' as [|j] eqn:Ek; [lia|]. cbn [app firstn]. set (l := firstn j _).
      change (254 :: l) with ([254] ++ l). rewrite !run_then, (run_empty_frame_next f 254 Hf Hd), run_start by (unfold byte_ok; lia). reflexivity.
    + rewrite (run_frame f Hf) by (rewrite Hd; discriminate). reflexivity.
Qed.

(** ** C102 *)
Lemma in_step t fs : bytes_ok t -> ~ In 254 t -> Forall sendable fs -> snd (parser_run [] (t ++ stream fs)) = snd (stream_outcome fs).
Proof. intros Ht Hn Hf. rewrite run_then, (run_noise t Ht Hn). cbn [fst snd app]. rewrite (run_stream fs Hf). reflexivity. Qed.
Lemma drop_next x b l : byte_ok b -> x <> 254 -> parser_run [x] (b :: l) = parser_run [] l.
Proof.
  intros Hb Hx. rewrite parser_run_cons, (write_step_drop x [b] b [x] Hb eq_refl Hx). destruct (parser_run [] l). reflexivity.
Qed.
Lemma in_step_start f fs : snd (parser_run [254] (skipn 1 (wire_of f) ++ stream fs)) = snd (parser_run [] (stream (f :: fs))).
Proof.
  rewrite stream_cons, (wire_head f). change ((254 :: skipn 1 (wire_of f)) ++ stream fs) with ([254] ++ (skipn 1 (wire_of f) ++ stream fs)).
  rewrite (run_then [] [254]), run_start. reflexivity.
Qed.
(** what one more byte does to a buffer that begins with the start byte *)
Lemma one_more r b : good_buffer (254 :: r) -> byte_ok b ->
  (parser_write (254 :: r) b = ((254 :: r) ++ [b], Ok None) /\ good_buffer ((254 :: r) ++ [b]) /\ (pending ((254%Z :: r) ++ [b]) < pending (254%Z :: r))%nat) \/
  (exists o, parser_write (254 :: r) b = ([], o) /\ (1 <= pending (254%Z :: r))%nat) \/
  (exists o, parser_write (254 :: r) b = ([b], o) /\ (2 <= pending (254%Z :: r))%nat).
Proof.
  intros Hg Hb. pose proof (write_step_sof (r ++ [b]) b (254 :: r) Hb eq_refl) as E. destruct (incompleteb ((254 :: r) ++ [b])) eqn:Ei.
  - left. split; [exact E|]. split; [pose proof (good_write _ _ Hg Hb) as G; rewrite E in G; exact G|].
    apply incompleteb_ok in Ei. cbn [app] in *. unfold pending. rewrite Z.eqb_refl. destruct r as [|y r].
    + cbn [app length]. unfold declared. cbn [nth]. unfold byte_ok in Hb. lia.
    + cbn [app] in *. unfold incomplete, declared in *. cbn [nth length] in *. rewrite app_length in *. cbn [length] in *. lia.
  - right. destruct (complete_rest (254 :: r) b (r ++ [b]) Hg Hb eq_refl Ei) as [L [Er|(D & L6 & Er)]]; cbv zeta in *.
    + left. rewrite Er in E. eexists. split; [exact E|]. unfold incompleteb in Ei. rewrite orb_false_iff, Nat.leb_gt, Nat.ltb_ge in Ei. destruct Ei as [E1 E2].
      rewrite app_length in E1. cbn [length] in E1. unfold pending. rewrite Z.eqb_refl. destruct r as [|y r]; [lia|]. destruct Hg as [_ [G|[[x G]|(r' & G & I)]]]; try discriminate G.
      injection G as <-. unfold incomplete, declared in *. cbn [nth length] in *. destruct I; lia.
    + right. rewrite Er in E. eexists. split; [exact E|]. rewrite app_length in L6. cbn [length] in L6. unfold pending. rewrite Z.eqb_refl. destruct r as [|y r]; [cbn [length] in L6; lia|]. cbn [length] in *. lia.
Qed.
Definition out (o : result (option frame)) : list (result frame) := match o with Ok None => [] | Ok (Some f) => [Ok f] | Err e => [Err e] end.
Lemma out_length o : (length (out o) <= 1)%nat.
Proof. destruct o as [[f|]|e]; cbn; lia. Qed.
Lemma run_out buf b l buf' o : parser_write buf b = (buf', o) -> snd (parser_run buf (b :: l)) = out o ++ snd (parser_run buf' l).
Proof. intro E. rewrite parser_run_cons, E. destruct (parser_run buf' l) as [b2 os]. destruct o as [[f|]|e]; reflexivity. Qed.
Definition back (buf t : list Z) (fs : list frame) : Prop :=
  exists lost kept o, fs = lost ++ kept /\ (forall a f b, lost = a ++ f :: b -> (length t + length (stream a) <= pending buf)%nat) /\ (length o <= 1)%nat /\
    snd (parser_run buf (t ++ stream fs)) = o ++ snd (stream_outcome kept).
Lemma nil_lost (a : list frame) f b : [] = a ++ f :: b -> False.
Proof. destruct a; discriminate. Qed.
Lemma one_lost (x : frame) a f b : [x] = a ++ f :: b -> a = [].
Proof. destruct a as [|y a]; [reflexivity|]. destruct a; discriminate. Qed.
Lemma settle n : forall t fs buf, (length t + length (stream fs) <= n)%nat -> good_buffer buf -> bytes_ok t -> ~ In 254 t -> Forall sendable fs -> Forall clean fs ->
  back buf t fs.
Proof.
  induction n as [n IH] using lt_wf_ind. intros t fs buf Hn Hg Ht Hc Hs Hl.
  assert (E0 : forall buf, t = [] -> fs = [] -> back buf t fs).
  { intros b -> ->. exists [], [], []. split; [reflexivity|]. split; [intros a f bb K; exfalso; exact (nil_lost _ _ _ K)|]. split; [cbn; lia|reflexivity]. }
  assert (EN : back [] t fs).
  { exists [], fs, []. split; [reflexivity|]. split; [intros a f bb K; exfalso; exact (nil_lost _ _ _ K)|]. split; [cbn; lia|]. apply in_step; assumption. }
  assert (Hhead : forall f fs', fs = f :: fs' -> sendable f /\ clean f /\ bytes_ok (skipn 1 (wire_of f)) /\ Forall sendable fs' /\ Forall clean fs').
  { intros f fs' ->. inversion Hs; subst. inversion Hl; subst. pose proof (wire_ok f H1) as W. rewrite (wire_head f) in W. inversion W; subst. auto. }
  (* a single byte that is no start byte is waiting: the next one is dropped *)
  assert (E1 : forall x, x <> 254 -> forall t' fs', bytes_ok t' -> ~ In 254 t' -> Forall sendable fs' -> Forall clean fs' ->
     exists lost kept, fs' = lost ++ kept /\ (forall a f b, lost = a ++ f :: b -> t' = [] /\ a = []) /\ snd (parser_run [x] (t' ++ stream fs')) = snd (stream_outcome kept)).
  { intros x Hx t' fs' Ht' Hc' Hs' Hl'. destruct t' as [|b t'].
    - destruct fs' as [|f fs']; [exists [], []; split; [reflexivity|]; split; [intros a f bb K; exfalso; exact (nil_lost _ _ _ K)|reflexivity]|].
      inversion Hs'; subst. inversion Hl'; subst. exists [f], fs'. split; [reflexivity|]. split; [intros a g bb K; split; [reflexivity|exact (one_lost _ _ _ _ K)]|].
      cbn [app]. rewrite stream_cons, (wire_head f). cbn [app]. rewrite drop_next by (unfold byte_ok; lia || exact Hx). apply in_step; try assumption.
      pose proof (wire_ok f H1) as W. rewrite (wire_head f) in W. inversion W; subst; assumption.
    - exists [], fs'. split; [reflexivity|]. split; [intros a f bb K; exfalso; exact (nil_lost _ _ _ K)|]. inversion Ht'; subst. cbn [app]. rewrite drop_next by assumption.
      apply in_step; try assumption. intro K. apply Hc'. right. exact K. }
  destruct buf as [|x r]; [exact EN|]. destruct (Z.eq_dec x 254) as [->|Hx].
  2:{ assert (r = []). { destruct Hg as [_ [G|[[y G]|(r' & G & _)]]]; congruence. } subst r.
      destruct (E1 x Hx t fs Ht Hc Hs Hl) as (lost & kept & -> & Hb & E). exists lost, kept, []. split; [reflexivity|]. split; [|split; [cbn; lia|exact E]].
      intros a f b K. destruct (Hb a f b K) as [-> ->]. cbn. lia. }
  destruct t as [|b t].
  - destruct fs as [|f fs]; [apply E0; reflexivity|]. destruct (Hhead f fs eq_refl) as (Sf & Cf & Bf & Sfs & Cfs).
    rewrite stream_cons, (wire_head f) in Hn. cbn [app length] in Hn. rewrite app_length in Hn. unfold back. rewrite stream_cons, (wire_head f). cbn [app length].
    set (t' := skipn 1 (wire_of f)) in *. assert (B : byte_ok 254) by (unfold byte_ok; lia).
    destruct (one_more r 254 Hg B) as [(E & G & P)|[(o & E & P)|(o & E & P)]]; rewrite (run_out _ _ _ _ _ E); cbn [out].
    + destruct (IH (length t' + length (stream fs))%nat ltac:(lia) t' fs _ (Nat.le_refl _) G Bf Cf Sfs Cfs) as (lost & kept & o & -> & Hb & Ho & Eo).
      exists (f :: lost), kept, o. split; [reflexivity|]. split; [|split; [exact Ho|exact Eo]].
      intros a g bb K. destruct a as [|a0 a]; [cbn; lia|]. injection K as <- K. specialize (Hb a g bb K). rewrite stream_cons, (wire_head f). fold t'. cbn [app length]. rewrite app_length. lia.
    + exists [f], fs, (out o). split; [reflexivity|]. split; [intros a g bb K; rewrite (one_lost _ _ _ _ K); cbn; lia|]. split; [apply out_length|].
      f_equal. apply in_step; assumption.
    + exists [], (f :: fs), (out o). split; [reflexivity|]. split; [intros a g bb K; exfalso; exact (nil_lost _ _ _ K)|]. split; [apply out_length|].
      f_equal. unfold t'. rewrite in_step_start, run_stream by exact Hs. reflexivity.
  - inversion Ht as [|? ? Bb Bt]; subst. assert (Hc' : ~ In 254 t) by (intro K; apply Hc; right; exact K). assert (Hb : b <> 254) by (intro K; apply Hc; left; exact K).
    cbn [length] in Hn. unfold back. cbn [app length].
    destruct (one_more r b Hg Bb) as [(E & G & P)|[(o & E & P)|(o & E & P)]]; rewrite (run_out _ _ _ _ _ E); cbn [out].
    + destruct (IH (length t + length (stream fs))%nat ltac:(lia) t fs _ (Nat.le_refl _) G Bt Hc' Hs Hl) as (lost & kept & o & -> & Hbd & Ho & Eo).
      exists lost, kept, o. split; [reflexivity|]. split; [|split; [exact Ho|exact Eo]]. intros a g bb K. specialize (Hbd a g bb K). lia.
    + exists [], fs, (out o). split; [reflexivity|]. split; [intros a g bb K; exfalso; exact (nil_lost _ _ _ K)|]. split; [apply out_length|].
      f_equal. apply in_step; assumption.
    + destruct (E1 b Hb t fs Bt Hc' Hs Hl) as (lost & kept & -> & Hbd & Eo). exists lost, kept, (out o). split; [reflexivity|]. split; [|split; [apply out_length|f_equal; exact Eo]].
      intros a g bb K. destruct (Hbd a g bb K) as [-> ->]. unfold stream. cbn [map concat length]. lia.
Qed.
Lemma busy_recovery h fs : bytes_ok h -> Forall sendable fs -> Forall clean fs ->
  exists lost kept o, fs = lost ++ kept /\ (forall a f b, lost = a ++ f :: b -> (length (stream a) <= 259)%nat) /\ (length o <= 1)%nat /\
    snd (parser_run [] (h ++ stream fs)) = snd (parser_run [] h) ++ o ++ snd (stream_outcome kept).
Proof.
  intros Hh Hs Hl. set (buf := fst (parser_run [] h)). assert (Hg : good_buffer buf) by (apply good_run; [exact Hh|apply good_nil]).
  destruct (settle _ [] fs buf (Nat.le_refl _) Hg (Forall_nil _) (fun K => K) Hs Hl) as (lost & kept & o & -> & Hb & Ho & E).
  exists lost, kept, o. split; [reflexivity|]. split; [|split; [exact Ho|]].
  - intros a f b K. specialize (Hb a f b K). pose proof (pending_bound buf (proj1 Hg)). cbn [length] in Hb. lia.
  - rewrite run_then. cbn [snd]. fold buf. cbn [app] in E. rewrite E. reflexivity.
Qed.
