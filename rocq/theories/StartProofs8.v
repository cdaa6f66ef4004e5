(** * StartProofs8: endpoints reported by the stick itself, network options *)
From Coq Require Import ZifyBool ZifyNat.
From Verif Require Import Base Types Buffalo Zpi Api SpecCodec SpecMachine Nv StartZnp SpecStart
  StartProofs StartProofs2 StartProofs3 StartProofs4 StartProofs5 StartProofs6 StartProofs7.

Lemma nodup_required : NoDup required_endpoints.
Proof. unfold required_endpoints. repeat constructor; cbn [In]; lia. Qed.
Lemma existsb_in e l : existsb (Z.eqb e) l = true <-> In e l.
Proof.
  rewrite existsb_exists. split; [intros (x & H & E); apply Z.eqb_eq in E; congruence|intro H; exists e; split; [exact H|apply Z.eqb_refl]].
Qed.
Lemma count_filter (p : Z -> bool) l e : NoDup l -> In e l -> count_occ Z.eq_dec (filter p l) e = if p e then 1%nat else 0%nat.
Proof.
  intros N H. destruct (p e) eqn:E.
  - apply NoDup_count_occ'; [apply NoDup_filter, N|apply filter_In; auto].
  - apply count_occ_not_In. intro K. apply filter_In in K. destruct K. congruence.
Qed.

Lemma awaited_possible {A} (p : prog A) tr f m r : runs p tr f -> In (AAwait m r) tr -> indication_possible m r.
Proof.
  intro H. induction H; intro K; cbn [In] in K; try contradiction.
  - destruct K as [K|[]]. discriminate K.
  - destruct K as [K|K]; [discriminate K|auto].
  - destruct K as [K|K]; [discriminate K|auto].
  - destruct K as [K|K]; [injection K as <- <-; assumption|auto].
  - destruct K as [K|K]; [discriminate K|auto].
Qed.
Lemma response_shape rsp : waiter_match ep_response rsp = Ok true -> z_sub rsp = ZDO /\ z_cmd rsp = "activeEpRsp".
Proof.
  unfold waiter_match, ep_response. cbn [m_type m_sub m_cmd m_payload match_payload].
  destruct (z_type rsp); try discriminate. destruct (z_sub rsp); try discriminate. cbn [ct_eqb sub_eqb negb orb].
  destruct (String.eqb "activeEpRsp" (z_cmd rsp)) eqn:Ec; [|discriminate]. intros _. split; [reflexivity|]. symmetry. apply String.eqb_eq, Ec.
Qed.

(** relative to the endpoint list that the run awaited, which is the only one *)
Lemma registered_exactly v o g b tr r : runs (start_znp (version_of v) o g b) tr (Returned r) ->
  exists m rsp, In (AAwait m (Ok rsp)) tr /\ z_sub rsp = ZDO /\ z_cmd rsp = "activeEpRsp" /\
    (forall m' r', In (AAwait m' (Ok r')) tr -> z_cmd r' = "activeEpRsp" -> r' = rsp) /\
    (forall e, In e required_endpoints -> times_registered tr e = if existsb (Z.eqb e) (list_of (z_payload rsp) "activeeplist") then 0%nat else 1%nat) /\
    (forall e, In e (registered_by tr) -> In e required_endpoints /\ ~ In e (list_of (z_payload rsp) "activeeplist")) /\
    (forall a, In a tr -> registers a <> [] -> acknowledged a).
Proof.
  intro H. destruct (endpoints_registered _ _ _ _ _ _ H) as (rsp & Hin & Hm & Hreg & Hack). exists ep_response, rsp. split; [exact Hin|].
  destruct (response_shape _ Hm) as [Hs Hc]. split; [exact Hs|]. split; [exact Hc|]. split; [|split].
  - intros m' r' K Ec. pose proof (awaited_possible _ _ _ _ _ H K) as P. cbn [indication_possible] in P.
    destruct (start_parts _ _ _ _ _ _ H) as (t0 & tb & te & tg & tc & -> & H0 & Hb & He & Hg & Ht).
    apply register_ret in He as (rsp2 & l & Hm2 & -> & El).
    assert (Q : forall m x, In (AAwait m (Ok x)) (t0 ++ tb ++ ([AListen ep_response Timeouts_default;
       ASpawn ZDO "activeEpReq" [("dstaddr", VInt 0); ("nwkaddrofinterest", VInt 0)]; AAwait ep_response (Ok rsp2)] ++ map register_of l) ++ tg ++ tc) ->
       m = is_coordinator \/ x = rsp2).
    { intros m x I. repeat (apply in_app_or in I as [I|I]).
      - left. rewrite Forall_forall in H0. exact (H0 _ I).
      - apply boot_ret in Hb as (m0 & st & _ & [[_ ->]|(_ & m2 & y & _ & ->)]); cbn [In] in I;
          repeat (destruct I as [I|I]; [try discriminate I; try (injection I as <- <-; auto)|]); contradiction.
      - cbn [In] in I. repeat (destruct I as [I|I]; [try discriminate I; try (injection I as <- <-; auto)|]); contradiction.
      - apply in_map_iff in I as (em & I & _). discriminate I.
      - apply group_ret in Hg as (m0 & st & _ & _ & [[_ (m2 & ->)]|[_ ->]]); cbn [In] in I;
          repeat (destruct I as [I|I]; [discriminate I|]); contradiction.
      - destruct Ht as [->|(m0 & ->)]; cbn [In] in I; repeat (destruct I as [I|I]; [discriminate I|]); contradiction. }
    assert (NC : forall x, waiter_match is_coordinator x = Ok true -> z_cmd x = "activeEpRsp" -> False).
    { intros x Hx Ex. apply says_coordinator_of in Hx as (_ & _ & Hx & _). rewrite Ex in Hx. discriminate Hx. }
    destruct (Q _ _ K) as [->| ->]; [exfalso; eapply NC; eassumption|].
    destruct (Q _ _ Hin) as [E| ->]; [discriminate E|reflexivity].
  - intros e He. unfold times_registered. rewrite Hreg. rewrite count_filter by (first [exact nodup_required|exact He]).
    destruct (existsb _ _); reflexivity.
  - split; [|exact Hack]. intros e He. rewrite Hreg in He. apply filter_In in He. destruct He as [He Hn]. split; [exact He|].
    intro K. apply existsb_in in K. rewrite K in Hn. discriminate.
Qed.
(** if the awaited list is the stick's own *)
Lemma own_registered v o g b tr r : runs (start_znp (version_of v) o g b) tr (Returned r) ->
  (forall m rsp, In (AAwait m (Ok rsp)) tr -> z_cmd rsp = "activeEpRsp" -> own_list rsp) ->
  (forall e, In e required_endpoints ->
     reported_active tr e /\ times_registered tr e = 0%nat \/ ~ reported_active tr e /\ times_registered tr e = 1%nat) /\
  (forall e, In e (registered_by tr) -> In e required_endpoints /\ ~ reported_active tr e) /\
  (forall a, In a tr -> registers a <> [] -> acknowledged a).
Proof.
  intros H Own. destruct (registered_exactly _ _ _ _ _ _ H) as (m & rsp & Hin & Hs & Hc & U & Ht & Hr & Ha).
  assert (R : forall e, reported_active tr e <-> In e (list_of (z_payload rsp) "activeeplist")).
  { intro e. split.
    - intros (m' & r' & K & _ & Ec & _ & He). rewrite <- (U _ _ K Ec). exact He.
    - intro He. exists m, rsp. split; [exact Hin|]. split; [exact Hs|]. split; [exact Hc|]. split; [eapply Own; eassumption|exact He]. }
  split; [|split; [|exact Ha]].
  - intros e He. specialize (Ht e He). destruct (existsb _ _) eqn:E; [left|right]; (split; [|exact Ht]); rewrite R; rewrite <- existsb_in, E; congruence.
  - intros e He. rewrite R. exact (Hr e He).
Qed.

(** ** Network options *)
Lemma options_taken c : 
  let o := network_options c in
  taken (fun k => k = []) (cf_key c) [1; 3; 5; 7; 9; 11; 13; 15; 0; 2; 4; 6; 8; 10; 12; 13] (o_key o) /\
  taken (fun p => p = 0) (cf_pan c) 6754 (o_pan o) /\
  taken (fun e => e = []) (cf_ext c) (repeat 221 8) (o_ext o) /\
  taken (fun m => m = 0) (cf_channels c) 2048 (o_channels o) /\
  o_distribute o = false.
Proof.
  unfold network_options. cbn [o_key o_pan o_ext o_channels o_distribute]. destruct c as [k p e m]. cbn [cf_key cf_pan cf_ext cf_channels].
  assert (L : forall x d, taken (fun l : list Z => l = []) x d (or_list x d)).
  { intros [[|z l]|] d; cbn [taken or_list]; try reflexivity; (split; [|congruence || discriminate]); congruence. }
  assert (I : forall x d, taken (fun z => z = 0) x d (or_int x d)).
  { intros [z|] d; cbn [taken or_int]; [|reflexivity]. destruct (Z.eqb_spec z 0); split; congruence. }
  split; [apply L|]. split; [apply I|]. split; [apply L|]. split; [apply I|reflexivity].
Qed.
Lemma options_valid c : valid_config c -> wf_options (network_options c) /\ o_channels (network_options c) <> 0.
Proof.
  intros (Hk & Hp & He & Hm). destruct (options_taken c) as (K & P & E & M & _). unfold wf_options.
  assert (B : forall l, forallb (fun b => (0 <=? b) && (b <? 256)) l = true -> Forall (fun b => 0 <= b < 256) l).
  { intros l H. apply Forall_forall. intros x Hx. rewrite forallb_forall in H. specialize (H x Hx). lia. }
  assert (Hk' : length (o_key (network_options c)) = 16%nat /\ Forall (fun b => 0 <= b < 256) (o_key (network_options c))).
  { destruct (cf_key c) as [k|] eqn:Ek; cbn [taken] in K.
    - destruct (Hk k eq_refl) as [Lk Bk]. destruct K as [K _]. rewrite K by (intros ->; discriminate Lk). auto.
    - rewrite K. split; [reflexivity|apply B; reflexivity]. }
  assert (He' : length (o_ext (network_options c)) = 8%nat /\ Forall (fun b => 0 <= b < 256) (o_ext (network_options c))).
  { destruct (cf_ext c) as [k|] eqn:Ek; cbn [taken] in E.
    - destruct (He k eq_refl) as [Lk Bk]. destruct E as [E _]. rewrite E by (intros ->; discriminate Lk). auto.
    - rewrite E. split; [reflexivity|apply B; reflexivity]. }
  assert (Hp' : 0 <= o_pan (network_options c) < 65536).
  { destruct (cf_pan c) as [p|] eqn:Ep; cbn [taken] in P; [|lia]. specialize (Hp p eq_refl). destruct P as [P1 P2].
    destruct (Z.eq_dec p 0); [rewrite P2 by assumption; lia|rewrite P1 by assumption; lia]. }
  assert (Hm' : 0 < o_channels (network_options c) < 4294967296).
  { destruct (cf_channels c) as [p|] eqn:Ep; cbn [taken] in M; [|lia]. specialize (Hm p eq_refl). destruct M as [P1 P2].
    destruct (Z.eq_dec p 0); [rewrite P2 by assumption; lia|rewrite P1 by assumption; lia]. }
  split; [|lia]. repeat split; try apply Hk'; try apply He'; lia.
Qed.
