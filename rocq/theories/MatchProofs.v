(** * MatchProofs: a waiter is compared with a message as the specification says *)
From Verif Require Import Base Types Buffalo CmdTable Zpi Api SpecMachine SpecMatch ApiProofs DispatchProofs.

Lemma get_field {A} (d : list (string * A)) k x : dict_get d k = Some x <-> has_field d k x.
Proof.
  unfold has_field. induction d as [|[k' v] d IH]; cbn [dict_get].
  - split; [discriminate|]. intros (d1 & d2 & E & _). destruct d1; discriminate E.
  - destruct (String.eqb_spec k k') as [->|N].
    + split.
      * intros [= ->]. exists [], d. split; [reflexivity|intros []].
      * intros (d1 & d2 & E & Hn). destruct d1 as [|[k1 v1] d1]; cbn [app] in E; [congruence|]. injection E as <- _ _. destruct Hn. left. reflexivity.
    + rewrite IH. split; intros (d1 & d2 & E & Hn).
      * exists ((k', v) :: d1), d2. split; [cbn [app]; rewrite E; reflexivity|]. intros [E'|Hi]; [cbn in E'; congruence|exact (Hn Hi)].
      * destruct d1 as [|[k1 v1] d1]; cbn [app] in E; [congruence|]. injection E as <- <- E. exists d1, d2. split; [exact E|]. intro Hi. apply Hn. right. exact Hi.
Qed.
Lemma get_lacks {A} (d : list (string * A)) k : dict_get d k = None <-> lacks d k.
Proof.
  unfold lacks. induction d as [|[k' v] d IH]; cbn [dict_get map fst In]; [tauto|]. destruct (String.eqb_spec k k') as [->|N]; [split; [discriminate|intro H; destruct H; left; reflexivity]|].
  rewrite IH. intuition congruence.
Qed.
Lemma kinds m o : (negb (ct_eqb (m_type m) (z_type o)) || negb (sub_eqb (m_sub m) (z_sub o)) || negb (String.eqb (m_cmd m) (z_cmd o)))%bool = false <-> same_kind m o.
Proof.
  unfold same_kind. destruct (ct_eqb_spec (m_type m) (z_type o)), (sub_eqb_spec (m_sub m) (z_sub o)), (String.eqb_spec (m_cmd m) (z_cmd o)); cbn [negb orb]; split; intuition congruence.
Qed.
Lemma match_payload_cases e d :
  (match_payload e d = Ok true <-> Forall (fun fv => exists x, has_field d (fst fv) x /\ same_value (snd fv) x) e) /\
  (match_payload e d = Ok false <-> exists e1 k v e2 x, e = e1 ++ (k, v) :: e2 /\ Forall (fun fv => exists x, has_field d (fst fv) x /\ same_value (snd fv) x) e1 /\ has_field d k x /\ ~ same_value v x) /\
  (forall err, match_payload e d = Err err <-> err = KeyError /\ exists e1 k v e2, e = e1 ++ (k, v) :: e2 /\ Forall (fun fv => exists x, has_field d (fst fv) x /\ same_value (snd fv) x) e1 /\ lacks d k).
Proof.
  induction e as [|[k v] e (IT & IF & IE)]; cbn [match_payload].
  - split; [split; [constructor|reflexivity]|]. split; [|intro err]; (split; [discriminate|]).
    + intros (e1 & k & v & e2 & x & E & _). destruct e1; discriminate E.
    + intros (_ & e1 & k & v & e2 & E & _). destruct e1; discriminate E.
  - unfold dict_getE. destruct (dict_get d k) as [y|] eqn:G; cbn [bind].
    + destruct (value_eqb v y) eqn:Ev.
      * pose proof G as Gf. apply get_field in Gf. apply value_same in Ev.
        assert (P : exists x, has_field d k x /\ same_value v x) by (exists y; split; assumption).
        split; [|split; [|intro err]].
        -- rewrite IT. split; [intro F; constructor; assumption|intro F; inversion F; assumption].
        -- rewrite IF. split.
           ++ intros (e1 & k1 & v1 & e2 & x & -> & F & R). exists ((k, v) :: e1), k1, v1, e2, x. split; [reflexivity|]. split; [constructor; assumption|exact R].
           ++ intros (e1 & k1 & v1 & e2 & x & E & F & Hx & Nx). destruct e1 as [|[k0 v0] e1]; cbn [app] in E; injection E as -> -> E.
              ** apply get_field in Hx. rewrite G in Hx. injection Hx as <-. contradiction.
              ** exists e1, k1, v1, e2, x. inversion F; subst. repeat split; assumption.
        -- rewrite IE. split.
           ++ intros (-> & e1 & k1 & v1 & e2 & -> & F & R). split; [reflexivity|]. exists ((k, v) :: e1), k1, v1, e2. split; [reflexivity|]. split; [constructor; assumption|exact R].
           ++ intros (-> & e1 & k1 & v1 & e2 & E & F & Hl). split; [reflexivity|]. destruct e1 as [|[k0 v0] e1]; cbn [app] in E; injection E as -> -> E.
              ** apply get_lacks in Hl. congruence.
              ** exists e1, k1, v1, e2. inversion F; subst. repeat split; assumption.
      * assert (N : ~ same_value v y) by (intro K; apply value_same in K; congruence).
        assert (P : ~ exists x, has_field d k x /\ same_value v x) by (intros (x & Hx & Sx); apply get_field in Hx; rewrite G in Hx; injection Hx as <-; contradiction).
        apply get_field in G. split; [|split; [|intro err]].
        -- split; [discriminate|]. intro F. inversion F; subst. contradiction.
        -- split; [intros _; exists [], k, v, e, y; repeat split; [constructor|assumption|assumption]|reflexivity].
        -- split; [discriminate|]. intros (_ & e1 & k1 & v1 & e2 & E & F & Hl). destruct e1 as [|[k0 v0] e1]; cbn [app] in E; injection E as -> -> E.
           ++ apply get_lacks in Hl. apply get_field in G. congruence.
           ++ inversion F; subst. contradiction.
    + assert (P : ~ exists x, has_field d k x /\ same_value v x) by (intros (x & Hx & _); apply get_field in Hx; congruence).
      pose proof G as Gl. apply get_lacks in Gl. split; [|split; [|intro err]].
      * split; [discriminate|]. intro F. inversion F; subst. contradiction.
      * split; [discriminate|]. intros (e1 & k1 & v1 & e2 & x & E & F & Hx & _). destruct e1 as [|[k0 v0] e1]; cbn [app] in E; injection E as -> -> E.
        -- apply get_field in Hx. congruence.
        -- inversion F; subst. contradiction.
      * split; [intros [= <-]; split; [reflexivity|]; exists [], k, v, e; repeat split; [constructor|exact Gl]|intros (-> & _); reflexivity].
Qed.
Theorem match_cases m o :
  (waiter_match m o = Ok true <-> same_kind m o /\ carried (m_payload m) o) /\
  (waiter_match m o = Ok false <-> ~ same_kind m o \/ same_kind m o /\
     exists e1 k v e2 x, m_payload m = e1 ++ (k, v) :: e2 /\ carried e1 o /\ has_field (z_payload o) k x /\ ~ same_value v x) /\
  (forall e, waiter_match m o = Err e <-> e = KeyError /\ same_kind m o /\ exists e1 k v e2, m_payload m = e1 ++ (k, v) :: e2 /\ carried e1 o /\ lacks (z_payload o) k).
Proof.
  unfold waiter_match. pose proof (kinds m o) as K. destruct (negb _ || negb _ || negb _)%bool.
  - assert (N : ~ same_kind m o) by (intro H; apply K in H; discriminate H). split; [|split; [|intro e]]; split; try discriminate; tauto.
  - assert (S : same_kind m o) by (apply K; reflexivity). destruct (match_payload_cases (m_payload m) (z_payload o)) as (A & B & C). unfold carried.
    split; [rewrite A; tauto|]. split; [rewrite B; tauto|]. intro e. rewrite C. tauto.
Qed.

(** ** names *)
Lemma substring_all : forall s, substring 0 (String.length s) s = s.
Proof. induction s as [|c s IH]; cbn [String.length substring]; [reflexivity|f_equal; exact IH]. Qed.
Lemma substring_tail : forall p t, substring (String.length p) (String.length t) (p ++ t) = t.
Proof. induction p as [|c p IH]; intro t; cbn [String.length append substring]; [apply substring_all|apply IH]. Qed.
Lemma length_append : forall p t : string, String.length (p ++ t) = (String.length p + String.length t)%nat.
Proof. induction p as [|c p IH]; intro t; cbn [String.length append]; [reflexivity|rewrite IH; reflexivity]. Qed.
Lemma split_at : forall n s, (n <= String.length s)%nat -> s = (substring 0 n s ++ substring n (String.length s - n) s)%string.
Proof.
  induction n as [|n IH]; intros s H.
  - replace (substring 0 0 s) with ""%string by (destruct s; reflexivity). rewrite Nat.sub_0_r, substring_all. reflexivity.
  - destruct s as [|c s]; cbn [String.length] in H; [lia|]. cbn [String.length substring append Nat.sub]. f_equal. apply IH. lia.
Qed.
Lemma ends_iff s t : endswith s t = true <-> exists p, s = (p ++ t)%string.
Proof.
  unfold endswith. split.
  - destruct (Nat.leb _ _) eqn:L; [|discriminate]. apply Nat.leb_le in L. intro E. apply String.eqb_eq in E.
    exists (substring 0 (String.length s - String.length t) s).
    pose proof (split_at (String.length s - String.length t) s ltac:(lia)) as K.
    replace (String.length s - (String.length s - String.length t))%nat with (String.length t) in K by lia. rewrite E in K. exact K.
  - intros (p & ->). rewrite length_append. replace (Nat.leb _ _) with true by (symmetry; apply Nat.leb_le; lia).
    replace (String.length p + String.length t - String.length t)%nat with (String.length p) by lia. rewrite substring_tail. apply String.eqb_refl.
Qed.
Lemma starts_iff s t : startswith s t = true <-> exists p, s = (t ++ p)%string.
Proof.
  unfold startswith. revert s. induction t as [|c t IH]; intro s; [split; [intros _; exists s; reflexivity|intros _; destruct s; reflexivity]|].
  destruct s as [|d s]; cbn [prefix]; [split; [discriminate|intros (p & E); discriminate E]|]. destruct (Ascii.ascii_dec c d) as [->|N].
  - rewrite IH. split; intros (p & E); exists p; [rewrite E; reflexivity|injection E as E; exact E].
  - split; [discriminate|]. intros (p & E). injection E as E _. congruence.
Qed.
Lemma replaced_fun s t : replaced s t -> t = replace_req s.
Proof.
  induction 1 as [|s t H IH|c s t N H IH]; [reflexivity| |].
  - subst t. reflexivity.
  - subst t. destruct s as [|c1 [|c2 r]]; try reflexivity. cbn [replace_req].
    destruct (_ && _ && _)%bool eqn:E; [|reflexivity]. apply andb_prop in E as [E E3]. apply andb_prop in E as [E1 E2].
    apply Ascii.eqb_eq in E1, E2, E3. subst. destruct (N r). reflexivity.
Qed.
Lemma replaced_total : forall n s, (String.length s <= n)%nat -> replaced s (replace_req s).
Proof.
  induction n as [|n IH]; intros s L.
  - destruct s; [constructor|cbn in L; lia].
  - destruct s as [|c s]; [constructor|]. cbn [String.length] in L.
    assert (M : (forall r, String c s <> ("Req" ++ r)%string) -> replaced (String c s) (replace_req (String c s))).
    { intro N. replace (replace_req (String c s)) with (String c (replace_req s)); [apply rp_miss; [exact N|apply IH; lia]|].
      apply (replaced_fun (String c s)). apply rp_miss; [exact N|apply IH; lia]. }
    destruct s as [|c1 [|c2 r]]; try (apply M; intros r' E; discriminate E).
    destruct (Ascii.eqb c "R" && Ascii.eqb c1 "e" && Ascii.eqb c2 "q")%bool eqn:E.
    + apply andb_prop in E as [E E3]. apply andb_prop in E as [E1 E2]. apply Ascii.eqb_eq in E1, E2, E3. subst.
      apply (rp_hit r). apply IH. cbn [String.length] in L. lia.
    + apply M. intros r' E'. injection E' as -> -> -> _. discriminate E.
Qed.
Lemma replaced_iff s t : replaced s t <-> t = replace_req s.
Proof. split; [apply replaced_fun|]. intros ->. apply (replaced_total (String.length s)). lia. Qed.
Lemma find_named rsp cs : (exists c, find (fun c => String.eqb rsp (c_name c)) cs = Some c) <-> In rsp (map c_name cs).
Proof.
  induction cs as [|c cs IH]; cbn [find map In]; [split; [intros (? & E); discriminate E|intros []]|].
  destruct (String.eqb_spec rsp (c_name c)) as [->|N]; [split; [intros _; left; reflexivity|intros _; eexists; reflexivity]|].
  rewrite IH. split; [intro H; right; exact H|intros [E|H]; [congruence|exact H]].
Qed.
Theorem reply_waiter_iff o q r : create_response_waiter o q = r <-> reply_waiter o q r.
Proof.
  assert (St : forall t, startswith (z_cmd o) t = false <-> forall p, z_cmd o <> (t ++ p)%string).
  { intro t. pose proof (starts_iff (z_cmd o) t) as K. destruct (startswith (z_cmd o) t).
    - split; [discriminate|]. intro N. destruct K as [K _]. destruct (K eq_refl) as (p & E). destruct (N p E).
    - split; [|reflexivity]. intros _ p E. destruct K as [_ K]. assert (false = true) by (apply K; exists p; exact E). discriminate. }
  assert (En : forall t, endswith (z_cmd o) t = false <-> forall p, z_cmd o <> (p ++ t)%string).
  { intro t. pose proof (ends_iff (z_cmd o) t) as K. destruct (endswith (z_cmd o) t).
    - split; [discriminate|]. intro N. destruct K as [K _]. destruct (K eq_refl) as (p & E). destruct (N p E).
    - split; [|reflexivity]. intros _ p E. destruct K as [_ K]. assert (false = true) by (apply K; exists p; exact E). discriminate. }
  split.
  - intros <-. unfold create_response_waiter. destruct (ct_eqb_spec (z_type o) SREQ) as [Ht|Ht]; cbn [andb]; [|apply rw_async, Ht].
    destruct (startswith (z_cmd o) "dataRequest") eqn:Es; cbn [andb].
    + apply starts_iff in Es as (p & Es). unfold dict_getE. destruct (dict_get (z_payload o) "transid") as [t|] eqn:G; cbn [bind].
      * apply (rw_data o q p); [exact Ht|exact Es|apply get_field, G].
      * apply (rw_data_lacks o q p); [exact Ht|exact Es|apply get_lacks, G].
    + pose proof (proj1 (St _) Es) as Ns. clear Es. rename Ns into Es. destruct (endswith (z_cmd o) "Req") eqn:Ee; cbn [andb]; [|apply rw_other; [exact Ht|exact Es|exact (proj1 (En _) Ee)]].
      apply ends_iff in Ee as (p & Ee). destruct (definition (z_sub o)) as [cs|e] eqn:Ed; cbn [bind]; [|apply (rw_no_commands o q p); assumption].
      assert (R : replaced (z_cmd o) (replace_req (z_cmd o))) by (apply replaced_iff; reflexivity).
      pose proof (find_named (replace_req (z_cmd o)) cs) as F. destruct (find _ cs) as [c|].
      * assert (I1 : In (replace_req (z_cmd o)) (map c_name cs)) by (apply F; eexists; reflexivity).
        unfold dict_getE. destruct (dict_get (z_payload o) "dstaddr") as [a|] eqn:G; cbn [bind].
        -- apply (rw_reply o q p cs); try assumption. apply get_field, G.
        -- apply (rw_reply_lacks o q p cs (replace_req (z_cmd o))); try assumption. apply get_lacks, G.
      * apply (rw_no_reply o q p cs (replace_req (z_cmd o))); try assumption. intro K. apply F in K as (c & K). discriminate K.
  - intros [Ht|p t Ht Es G|p Ht Es G|Ht Ns Ne|p e Ht Ns Ee Ed|p cs rsp Ht Ns Ee Ed R Ni|p cs rsp a Ht Ns Ee Ed R Hi G|p cs rsp Ht Ns Ee Ed R Hi G];
      unfold create_response_waiter; (destruct (ct_eqb_spec (z_type o) SREQ) as [Ht'|Ht']; [|congruence]) || (destruct (ct_eqb_spec (z_type o) SREQ) as [Ht'|Ht']; [congruence|]); cbn [andb];
      try reflexivity;
      try (assert (startswith (z_cmd o) "dataRequest" = true) as -> by (apply starts_iff; exists p; exact Es); cbn [andb];
           unfold dict_getE; first [apply get_field in G|apply get_lacks in G]; rewrite G; reflexivity);
      rewrite (proj2 (St _) Ns); cbn [andb]; try (rewrite (proj2 (En _) Ne); reflexivity);
      assert (endswith (z_cmd o) "Req" = true) as -> by (apply ends_iff; exists p; exact Ee); cbn [andb]; rewrite Ed; cbn [bind]; try reflexivity;
      apply replaced_iff in R; subst rsp.
    + pose proof (find_named (replace_req (z_cmd o)) cs) as F. destruct (find _ cs) as [c|]; [|reflexivity]. destruct Ni. apply F. eexists. reflexivity.
    + apply find_named in Hi as (c & ->). unfold dict_getE. apply get_field in G. rewrite G. reflexivity.
    + apply find_named in Hi as (c & ->). unfold dict_getE. apply get_lacks in G. rewrite G. reflexivity.
Qed.
