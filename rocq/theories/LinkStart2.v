(** * LinkStart2: the courses of LinkStart, on the request machine *)
From Coq Require Import ZifyBool ZifyNat.
From Verif Require Import Base Types Uart Buffalo CmdTable Zpi Api App Machine SpecWire SpecCodec SpecMachine Nv StartZnp SpecStart
  Host SpecHost AppStart SpecAppStart StartProofs StartProofs2 StartProofs4 StartProofs6 StartProofs8 StartSend AppStartProofs SpecReal RealProofs RealProofs2 SpecLinkStart LinkStart.

Lemma fine_come eps from P tr : Forall (fine eps from P) tr -> Forall can_come tr.
Proof. apply Forall_impl. intros a K. apply K. Qed.
Lemma any : forall a : act, (forall v b, ~ writes a (marker v) b) -> (fun _ : act => True) a.
Proof. intros. exact I. Qed.
Lemma nine : byte_ok 9.
Proof. split; [discriminate|reflexivity]. Qed.
Lemma nobody : bytes_ok [] /\ (length (@nil Z) <= 240)%nat.
Proof. split; [constructor|cbn; lia]. Qed.
Lemma nowhere : address_ok [0; 0; 0; 0; 0; 0; 0; 0] 0.
Proof. split; [reflexivity|]. split; [repeat constructor; discriminate|lia]. Qed.

Lemma link_startup cap auto c devs s st v ieee nwk : 0 <= cap -> reachable cap s -> at_rest s -> valid_config c ->
  tellable st -> (auto = true -> ~ locked_out v (network_options c) st) -> address_ok ieee nwk ->
  exists es rd st', let h := hrun es (hosted (app_startup auto c devs) s) in ending h = Returned rd /\ Forall can_come (acts h) /\ stick st (acts h) st' /\
    rd_product rd = version_of v /\ rd_ieee rd = ieee /\ rd_nwk rd = nwk /\
    (auto = true -> accepted v (network_options c) st').
Proof.
  intros Hc Hr Hs V T C A.
  destruct (app_done ieee [] nwk 9 0 0 A nine nobody ltac:(lia) ltac:(auto) (fun _ => True) any v auto c devs st (fun _ => I) V T C)
    as (tr & r & st' & R & S & F & rd & -> & K1 & K2 & K3).
  pose proof (fine_come _ _ _ _ F) as F'.
  destruct (proj2 (proj2 (exactly cap (app_startup auto c devs) s Hc Hr Hs (neat_app auto c devs) (app_sendable auto c devs V) tr F') (Returned rd) ltac:(discriminate)) R) as (es & E1 & E2).
  exists es, rd, st'. cbn zeta. rewrite E1. repeat (split; [assumption|]). intros ->.
  destruct (forms_network c devs tr rd st st' V R S) as (v' & r & E & _ & K).
  assert (v' = v) as -> by (rewrite K1 in E; destruct v, v'; try discriminate E; reflexivity).
  destruct K as [(K & _ & -> & _)|(_ & _ & K & _)]; [exact K|]. destruct K as [K4 K5]. split; [exact K4|]. auto.
Qed.
Lemma link_start cap s v o g st from eps : 0 <= cap -> reachable cap s -> at_rest s -> wf_options o -> 0 <= g < 65536 ->
  tellable st -> ~ locked_out v o st -> 0 <= from < 65536 -> bytes_ok eps -> (length eps <= 240)%nat ->
  exists es r st', let h := hrun es (hosted (start_znp (version_of v) o g false) s) in ending h = Returned r /\ Forall can_come (acts h) /\ stick st (acts h) st' /\
    runs (start_znp (version_of v) o g false) (acts h) (Returned r) /\
    (forall m rsp, In (AAwait m (Ok rsp)) (acts h) -> z_cmd rsp = "activeEpRsp" -> dict_get (z_payload rsp) "nwkaddr" = Some (VInt from) /\ dict_get (z_payload rsp) "activeeplist" = Some (VList eps)).
Proof.
  intros Hc Hr Hs W Hg T C Hf He Hl.
  destruct (start_done [0; 0; 0; 0; 0; 0; 0; 0] eps 0 9 from 0 nowhere nine (conj He Hl) Hf ltac:(auto) (fun _ => True) any v o g st (fun _ => I) W Hg T C)
    as (tr & r & st' & R & S & F & K). destruct r as [r|e]; [|destruct K].
  pose proof (fine_come _ _ _ _ F) as F'.
  destruct (proj2 (proj2 (exactly cap _ s Hc Hr Hs (neat_start _ o g false) (start_sendable v o g false W Hg) tr F') (Returned r) ltac:(discriminate)) R) as (es & E1 & E2).
  exists es, r, st'. cbn zeta. rewrite E1. repeat (split; [assumption|]). intros m rsp I. rewrite Forall_forall in F. apply (F _ I).
Qed.
Lemma link_resumes cap s v o g st : 0 <= cap -> reachable cap s -> at_rest s -> wf_options o -> 0 <= g < 65536 ->
  tellable st -> ~ locked_out v o st -> accepted v o st ->
  exists es, let h := hrun es (hosted (start_znp (version_of v) o g false) s) in
    ending h = Returned Resumed /\ Forall can_come (acts h) /\ stick st (acts h) st /\ Forall harmless (acts h).
Proof.
  intros Hc Hr Hs W Hg T C A.
  destruct (link_start cap s v o g st 0 [] Hc Hr Hs W Hg T C ltac:(lia) (Forall_nil _) ltac:(cbn; lia)) as (es & r & st' & E & F & S & R & _).
  destruct (accepted_left_alone _ _ _ _ _ _ _ _ W A R S) as (H & -> & Er). exists es. cbn zeta. rewrite (Er r eq_refl) in E. auto.
Qed.
Lemma link_other_pan cap s o g st : 0 <= cap -> reachable cap s -> at_rest s -> wf_options o -> 0 <= g < 65536 ->
  tellable st -> ~ locked_out Stack12 o st -> common_matches Stack12 o st ->
  exists es, let h := hrun es (hosted (start_znp (version_of Stack12) o g false) s) in
    ending h = Returned Resumed /\ Forall can_come (acts h) /\ stick st (acts h) st /\ Forall harmless (acts h).
Proof. intros. apply (link_resumes cap); auto. split; auto. Qed.
Lemma link_foreign_list cap s v o g st from eps : 0 <= cap -> reachable cap s -> at_rest s -> wf_options o -> 0 <= g < 65536 ->
  tellable st -> ~ locked_out v o st -> 0 <= from < 65536 -> bytes_ok eps -> (length eps <= 240)%nat ->
  exists es r, let h := hrun es (hosted (start_znp (version_of v) o g false) s) in ending h = Returned r /\ Forall can_come (acts h) /\
    (exists m rsp, In (AAwait m (Ok rsp)) (acts h) /\ z_cmd rsp = "activeEpRsp" /\ dict_get (z_payload rsp) "nwkaddr" = Some (VInt from)) /\
    forall e, In e required_endpoints -> times_registered (acts h) e = if existsb (Z.eqb e) eps then 0%nat else 1%nat.
Proof.
  intros Hc Hr Hs W Hg T C Hf He Hl. destruct (link_start cap s v o g st from eps Hc Hr Hs W Hg T C Hf He Hl) as (es & r & st' & E & F & S & R & L).
  exists es, r. cbn zeta in *. split; [exact E|]. split; [exact F|]. destruct (registered_exactly v o g false _ r R) as (m & rsp & I & _ & Ec & _ & K & _).
  destruct (L m rsp I Ec) as [L1 L2]. split; [eauto|]. intros e H. rewrite (K e H). unfold list_of. rewrite L2. reflexivity.
Qed.
Lemma link_interrupted cap s v o g st : 0 <= cap -> reachable cap s -> at_rest s -> wf_options o -> 0 <= g < 65536 ->
  tellable st -> ~ locked_out v o st -> marked v st -> ~ accepted v o st ->
  exists es st1, let h := hrun es (hosted (start_znp (version_of v) o g false) s) in
    Forall can_come (acts h) /\ stick st (acts h) st1 /\ (exists a, In a (acts h) /\ ~ harmless a) /\ (forall a b, In a (acts h) -> ~ writes a (marker v) b) /\
    forall cap2 s2, 0 <= cap2 -> reachable cap2 s2 -> at_rest s2 -> exists es2, let h2 := hrun es2 (hosted (start_znp (version_of v) o g false) s2) in
      ending h2 = Returned Resumed /\ Forall can_come (acts h2) /\ stick st1 (acts h2) st1 /\ Forall harmless (acts h2).
Proof.
  intros Hc Hr Hs W Hg T C M N.
  destruct (stopped_start [] 0 0 nobody ltac:(lia) ltac:(auto) (fun a => forall v b, ~ writes a (marker v) b) (fun a H => H)
    v o g st W M T C N) as (tr & st1 & R & S & F & A1 & T1 & C1).
  pose proof (fine_come _ _ _ _ F) as F'.
  destruct (proj2 (proj1 (exactly cap _ s Hc Hr Hs (neat_start _ o g false) (start_sendable v o g false W Hg) tr F')) (ex_intro _ _ R)) as (es & E).
  exists es, st1. cbn zeta. rewrite E. split; [exact F'|]. split; [exact S|]. split; [|split].
  - destruct (Forall_Exists_dec harmless) with (l := tr) as [H|H].
    + intro a. unfold harmless. destruct a as [sub cmd d x r|m t|m r|sub cmd d]; auto; destruct (storage_of sub cmd d); auto.
    + exfalso. apply N. rewrite (harmless_stick _ _ _ H S) in A1. exact A1.
    + apply Exists_exists in H. exact H.
  - intros a b I. rewrite Forall_forall in F. apply (F _ I).
  - intros cap2 s2 H1 H2 H3. apply (link_resumes cap2); assumption.
Qed.
