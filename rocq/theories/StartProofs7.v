(** * StartProofs7: endpoints, group and coordinator state after a completed start *)
From Coq Require Import ZifyBool ZifyNat.
From Verif Require Import Base Types Buffalo Zpi Api SpecCodec SpecMachine Nv StartZnp SpecStart StartProofs StartProofs2 StartProofs3 StartProofs4 StartProofs5 StartProofs6.

Lemma request_ret sub cmd d x tr m : runs (request sub cmd d x) tr (Returned m) ->
  tr = [ARequest sub cmd d x (Some (Ok m))] /\ answer_possible x (Ok m).
Proof.
  unfold request. intro H. inversion H; subst. clear H.
  match goal with R : runs _ _ _ |- _ => apply runs_of_result in R as [-> [K|K]] end; [discriminate K|].
  destruct r; [|discriminate]. injection K as <-. split; [reflexivity|assumption].
Qed.
Lemma field_ret r n tr v : runs (field r n) tr (Returned v) -> tr = [] /\ dict_get (z_payload r) n = Some v.
Proof.
  intro H. apply runs_field in H as [-> [H|H]]; [discriminate H|]. split; [reflexivity|].
  destruct (dict_get (z_payload r) n); [injection H as <-; reflexivity|discriminate H].
Qed.
Lemma ret_ret {A} (a b : A) tr : runs (DRet a) tr (Returned b) -> tr = [] /\ b = a.
Proof. intro H. apply runs_ret_inv in H as [-> [H|H]]; [discriminate H|]. injection H as ->. auto. Qed.
Lemma listen_ret m t tr w : runs (listen m t) tr (Returned w) -> tr = [AListen m t] /\ w = (m, t).
Proof. unfold listen. intro H. inversion H; subst. clear H. match goal with R : runs _ _ _ |- _ => apply ret_ret in R as [-> ->] end. auto. Qed.
Lemma await_ret m t tr r : runs (await (m, t)) tr (Returned r) -> tr = [AAwait m (Ok r)] /\ waiter_match m r = Ok true.
Proof.
  unfold await. intro H. inversion H; subst. clear H.
  match goal with R : runs _ _ _ |- _ => apply runs_of_result in R as [-> [K|K]] end; [discriminate K|].
  destruct r0; [|discriminate]. injection K as <-. split; [reflexivity|assumption].
Qed.
Lemma spawn_ret sub cmd d tr u : runs (spawn sub cmd d) tr (Returned u) -> tr = [ASpawn sub cmd d].
Proof. unfold spawn. intro H. inversion H; subst. clear H. match goal with R : runs _ _ _ |- _ => apply ret_ret in R as [-> _] end. auto. Qed.

Ltac unseq H := 
  let t1 := fresh "t" in let t2 := fresh "t" in let a := fresh "a" in let H1 := fresh "R" in
  apply runs_seq_ret in H as (t1 & t2 & a & -> & H1 & H);
  first [ apply request_ret in H1 as [-> ?] | apply field_ret in H1 as [-> ?] | apply ret_ret in H1 as [-> ->] | apply listen_ret in H1 as [-> ->]
        | apply await_ret in H1 as [-> ?] | apply spawn_ret in H1 as -> | idtac ].

(** ** Shapes of the parts *)
Definition ask_info (m : zpi) : act := ARequest UTIL "getDeviceInfo" [] [0] (Some (Ok m)).
Definition start_app (m : zpi) : act := ARequest ZDO "startupFromApp" [("startdelay", VInt 100)] [0; 1] (Some (Ok m)).
Lemma boot_ret tr u : runs boot tr (Returned u) ->
  exists m st, dict_get (z_payload m) "devicestate" = Some st /\
    (value_eqb st (VInt 9) = true /\ tr = [ask_info m] \/
     value_eqb st (VInt 9) = false /\ exists m2 r, waiter_match is_coordinator r = Ok true /\
       tr = [ask_info m; AListen is_coordinator 60000; start_app m2; AAwait is_coordinator (Ok r)]).
Proof.
  intro H. unfold boot in H. unseq H. unseq H. exists a, a0. split; [assumption|]. destruct (value_eqb a0 (VInt 9)).
  - apply ret_ret in H as [-> _]. left. auto.
  - unseq H. unseq H. unseq H. apply ret_ret in H as [-> _]. right. split; [reflexivity|]. exists a1, a2. split; [assumption|reflexivity].
Qed.
Definition register_of (em : endpoint * zpi) : act := ARequest AF "register" (ep_vars (fst em)) [0] (Some (Ok (snd em))).
Lemma is_in_list x d n v : dict_get d n = Some v -> is_in x v = existsb (Z.eqb x) (list_of d n).
Proof. intro H. unfold list_of. rewrite H. destruct v; reflexivity. Qed.
Lemma loop_ret active es tr u : runs (register_loop active es) tr (Returned u) ->
  exists l, tr = map register_of l /\ map fst l = filter (fun e => negb (existsb (Z.eqb (ep_id e)) (list_of (z_payload active) "activeeplist"))) es.
Proof.
  revert tr. induction es as [|e es IH]; intros tr H; cbn [register_loop] in H.
  - apply ret_ret in H as [-> _]. exists []. split; reflexivity.
  - unseq H. cbn [app]. unseq H. destruct (IH _ H) as (l & -> & E). cbn [filter]. rewrite <- (is_in_list _ _ _ _ H0).
    destruct (is_in (ep_id e) a); cbn [negb].
    + apply ret_ret in R as [-> _]. exists l. split; [reflexivity|exact E].
    + unseq R. apply ret_ret in R as [-> _]. exists ((e, a1) :: l). split; [reflexivity|]. cbn [map fst]. rewrite E. reflexivity.
Qed.
Definition ep_response : matcher := mk_matcher AREQ ZDO "activeEpRsp" [].
Lemma register_ret tr u : runs register_endpoints tr (Returned u) ->
  exists rsp l, waiter_match ep_response rsp = Ok true /\
    tr = [AListen ep_response Timeouts_default; ASpawn ZDO "activeEpReq" [("dstaddr", VInt 0); ("nwkaddrofinterest", VInt 0)];
          AAwait ep_response (Ok rsp)] ++ map register_of l /\
    map fst l = filter (fun e => negb (existsb (Z.eqb (ep_id e)) (list_of (z_payload rsp) "activeeplist"))) endpoints.
Proof.
  intro H. unfold register_endpoints in H. unseq H. unseq H. unseq H. destruct (loop_ret _ _ _ _ H) as (l & -> & E).
  exists a0, l. split; [assumption|]. split; [reflexivity|exact E].
Qed.
Definition find_group (g : Z) (m : zpi) : act := ARequest ZDO "extFindGroup" [("endpoint", VInt 242); ("groupid", VInt g)] [0; 1] (Some (Ok m)).
Definition group_entry (g : Z) : payload := [("endpoint", VInt 242); ("groupid", VInt g); ("namelen", VInt 0); ("groupname", VBytes [])].
Definition add_group (g : Z) (m : zpi) : act := ARequest ZDO "extAddGroup" (group_entry g) [0] (Some (Ok m)).
Lemma group_ret g tr u : runs (add_to_group 242 g) tr (Returned u) ->
  exists m st, dict_get (z_payload m) "status" = Some st /\ answer_possible [0; 1] (Ok m) /\
    (value_eqb st (VInt 1) = true /\ (exists m2, tr = [find_group g m; add_group g m2]) \/
     value_eqb st (VInt 1) = false /\ tr = [find_group g m]).
Proof.
  intro H. unfold add_to_group in H. unseq H. unseq H. exists a, a0. split; [assumption|]. split; [assumption|].
  destruct (value_eqb a0 (VInt 1)).
  - unseq H. apply ret_ret in H as [-> _]. left. split; [reflexivity|]. exists a1. reflexivity.
  - apply ret_ret in H as [-> _]. right. auto.
Qed.

(** acts of the configuration part *)
Definition config_act (a : act) : Prop :=
  match a with
  | ARequest (SYS | SAPI | APP_CNF) _ _ _ _ => True
  | AListen m _ | AAwait m _ => m = is_coordinator
  | _ => False
  end.
Lemma plan_only {A} (p : prog A) l (P : act -> Prop) : plan p l -> (forall q a, In q l -> begun q a -> P a) -> only P p.
Proof.
  intros Hp H tr f Hr. apply Hp in Hr. apply Forall_forall. intros a Ha. apply in_split in Ha as (l1 & l2 & ->).
  apply follows_split in Hr as (q1 & q & q2 & g & -> & _ & Hb & _). eapply H; [|exact Hb]. apply in_or_app. right. left. reflexivity.
Qed.
Lemma validate_config item sub cmd x : (sub = SYS \/ sub = SAPI) -> only config_act (validate_item item sub cmd x).
Proof. intros [->| ->]; unfold validate_item; onl; exact I. Qed.
Lemma configuration_acts v o b : only config_act (let! c := has_configured (version_of v) in configure (version_of v) o b c).
Proof.
  apply only_seq; [|intro c].
  - unfold has_configured. apply only_attempt.
    + apply only_seq; [apply validate_config; auto|intro; apply only_ret].
    + intros e q E. destruct e; try discriminate E; injection E as <-; apply only_ret.
  - unfold configure. destruct (b && negb c); [apply only_raise|]. apply only_seq; [|intros []].
    + unfold needs_init. apply only_attempt.
      * do 3 (apply only_seq; [apply validate_config; auto|intros _]).
        apply only_seq; [destruct (version_of v =? zStack3x0); apply validate_config; auto|intros _].
        apply only_seq; [|intros _; apply only_ret]. unfold validate_pan. apply only_attempt.
        -- apply only_seq; [|intro]; apply validate_config; auto.
        -- intros e q E. destruct (is_assertion e); [|discriminate E].
           match type of E with Some ?x = Some ?y => assert (Eq : y = x) by congruence; subst y end.
           destruct (stack3 (version_of v)); [|apply only_ret]. onl; exact I.
      * intros e q E. destruct (is_assertion e); [injection E as <-; apply only_ret|discriminate E].
    + apply only_seq; [|intro; apply only_ret]. eapply plan_only; [apply initialise_plan|].
      intros q a Hq Hb. unfold init_ops in Hq.
      assert (K : match q with OpRequest (SYS | SAPI | APP_CNF) _ _ _ => True | OpListen m _ | OpAwait m => m = is_coordinator | _ => False end).
      { rewrite stack3_version in Hq. destruct v; cbn [app In] in Hq; repeat (destruct Hq as [<-|Hq]; [first [exact I|reflexivity]|]); contradiction. }
      destruct q, a; cbn [begun] in Hb; try contradiction.
      * destruct Hb as (-> & _). exact K.
      * destruct Hb as (-> & _). exact K.
      * cbn [config_act]. rewrite Hb. exact K.
    + apply only_ret.
Qed.

Lemma seq_assoc3 {A B C} (p : prog A) (g : A -> prog B) (h : B -> prog C) tr f :
  runs (let! a := p in let! b := g a in h b) tr f -> runs (seq (seq p g) h) tr f.
Proof.
  revert tr f. induction p as [a|e|sub cmd d x k IH|m t k IH|w k IH|sub cmd d k IH]; intros tr f H; cbn [seq] in *; try exact H.
  all: inversion H; subst; constructor; auto.
Qed.
Lemma seq_assoc3_inv {A B C} (p : prog A) (g : A -> prog B) (h : B -> prog C) tr f :
  runs (seq (seq p g) h) tr f -> runs (let! a := p in let! b := g a in h b) tr f.
Proof.
  revert tr f. induction p as [a|e|sub cmd d x k IH|m t k IH|w k IH|sub cmd d k IH]; intros tr f H; cbn [seq] in *; try exact H.
  all: inversion H; subst; constructor; auto.
Qed.

(** a completed start, part by part *)
Lemma start_parts v o g b tr r : runs (start_znp (version_of v) o g b) tr (Returned r) ->
  exists t0 tb te tg tc, tr = t0 ++ tb ++ te ++ tg ++ tc /\ Forall config_act t0 /\ runs boot tb (Returned tt) /\
    runs register_endpoints te (Returned tt) /\ runs (add_to_group 242 g) tg (Returned tt) /\
    (tc = [] \/ exists m, tc = [ARequest SYS "osalNvWrite" (item_channels (o_channels o)) [0] (Some (Ok m))]).
Proof.
  rewrite start_eq. intro H. apply seq_assoc3 in H. apply runs_seq_ret in H as (t0 & t1 & r0 & -> & H0 & H).
  apply configuration_acts in H0. unfold rest in H.
  apply runs_seq_ret in H as (tb & t2 & [] & -> & Hb & H). apply runs_seq_ret in H as (te & t3 & [] & -> & He & H).
  apply runs_seq_ret in H as (tg & t4 & [] & -> & Hg & H). apply runs_seq_ret in H as (tc & t5 & [] & -> & Hc & H).
  apply ret_ret in H as [-> _]. exists t0, tb, te, tg, tc. rewrite app_nil_r.
  split; [reflexivity|]. split; [exact H0|]. split; [exact Hb|]. split; [exact He|]. split; [exact Hg|].
  destruct r0; [apply ret_ret in Hc as [-> _]; left; reflexivity| |apply ret_ret in Hc as [-> _]; left; reflexivity].
  unfold nv_write in Hc. unseq Hc. apply ret_ret in Hc as [-> _]. right. exists a. reflexivity.
Qed.

(** requests of other subsystems than those of the configuration *)
Lemma requests_app sub cmd t1 t2 : requests_of sub cmd (t1 ++ t2) = requests_of sub cmd t1 ++ requests_of sub cmd t2.
Proof. apply flat_map_app. Qed.
Lemma requests_config sub cmd t : Forall config_act t -> sub = ZDO \/ sub = UTIL \/ sub = AF -> requests_of sub cmd t = [].
Proof.
  intros H Hs. induction H as [|a t Ha H IH]; [reflexivity|]. unfold requests_of in *. cbn [flat_map]. rewrite IH, app_nil_r.
  destruct a as [s ? ? ? ?| | |]; try reflexivity. destruct s; cbn [config_act] in Ha; try contradiction;
    destruct Hs as [->|[->| ->]]; reflexivity.
Qed.
Lemma requests_registers sub cmd l : sub <> AF -> requests_of sub cmd (map register_of l) = [].
Proof. intro H. induction l as [|x l IH]; [reflexivity|]. cbn [map]. unfold requests_of in *. cbn [flat_map register_of]. rewrite IH. destruct sub; try reflexivity; contradiction. Qed.

Lemma registered_app t1 t2 : registered_by (t1 ++ t2) = registered_by t1 ++ registered_by t2.
Proof. apply flat_map_app. Qed.
Lemma registered_config t : Forall config_act t -> registered_by t = [].
Proof.
  intro H. induction H as [|a t Ha H IH]; [reflexivity|]. unfold registered_by in *. cbn [flat_map]. rewrite IH, app_nil_r.
  destruct a as [s ? ? ? ?| | |]; try reflexivity. destruct s; cbn [config_act] in Ha; try contradiction; reflexivity.
Qed.
Lemma registered_registers l : registered_by (map register_of l) = map ep_id (map fst l).
Proof. induction l as [|x l IH]; [reflexivity|]. cbn [map]. unfold registered_by in *. cbn [flat_map]. rewrite IH. reflexivity. Qed.
Lemma filter_map_id (P : Z -> bool) es : map ep_id (filter (fun e => P (ep_id e)) es) = filter P (map ep_id es).
Proof. induction es as [|e es IH]; [reflexivity|]. cbn [filter map]. destruct (P (ep_id e)); cbn [map]; rewrite IH; reflexivity. Qed.

Lemma endpoints_registered v o g b tr r : runs (start_znp (version_of v) o g b) tr (Returned r) ->
  exists rsp, In (AAwait ep_response (Ok rsp)) tr /\ waiter_match ep_response rsp = Ok true /\
    registered_by tr = filter (fun e => negb (existsb (Z.eqb e) (list_of (z_payload rsp) "activeeplist"))) required_endpoints /\
    (forall a, In a tr -> registers a <> [] -> acknowledged a).
Proof.
  intro H. apply start_parts in H as (t0 & tb & te & tg & tc & -> & H0 & Hb & He & Hg & Hc).
  apply register_ret in He as (rsp & l & Hm & -> & El). exists rsp.
  split; [do 2 (apply in_or_app; right); apply in_or_app; left; apply in_or_app; left; cbn [In]; tauto|]. split; [exact Hm|].
  assert (Nb : registered_by tb = []).
  { apply boot_ret in Hb as (m & st & _ & [[_ ->]|(_ & m2 & x & _ & ->)]); reflexivity. }
  assert (Ng : registered_by tg = []).
  { apply group_ret in Hg as (m & st & _ & _ & [[_ (m2 & ->)]|[_ ->]]); reflexivity. }
  assert (Nc : registered_by tc = []) by (destruct Hc as [->|(m & ->)]; reflexivity).
  split.
  - rewrite !registered_app, registered_config, Nb, Ng, Nc, registered_registers, El by exact H0. cbn [app]. rewrite app_nil_r.
    rewrite (filter_map_id (fun x => negb (existsb (Z.eqb x) _))). reflexivity.
  - intros a Ha Hne.
    assert (N : forall t, registered_by t = [] -> In a t -> False).
    { intros t Et Hin. apply Hne. unfold registered_by in Et. apply in_split in Hin as (x & y & ->). rewrite flat_map_app in Et.
      apply app_eq_nil in Et as [_ Et]. cbn [flat_map] in Et. apply app_eq_nil in Et as [Et _]. exact Et. }
    repeat (apply in_app_or in Ha as [Ha|Ha]).
    + exfalso. eapply N; [apply registered_config, H0|exact Ha].
    + exfalso. eapply N; [exact Nb|exact Ha].
    + exfalso. cbn [In] in Ha. destruct Ha as [<-|[<-|[<-|[]]]]; apply Hne; reflexivity.
    + apply in_map_iff in Ha as (em & <- & _). exact I.
    + exfalso. eapply N; [exact Ng|exact Ha].
    + exfalso. eapply N; [exact Nc|exact Ha].
Qed.

Definition counts_ok (a : act) : Prop :=
  match a with ARequest AF cmd d _ _ | ASpawn AF cmd d => cmd = "register" /\ true_counts d | _ => True end.
Lemma counts_true v o g b : only counts_ok (start_znp (version_of v) o g b).
Proof.
  rewrite start_eq. intros tr f H. apply seq_assoc3 in H. revert tr f H.
  change (only counts_ok (seq (let! c := has_configured (version_of v) in configure (version_of v) o b c) (fun r => rest o g r))).
  apply only_seq.
  - eapply only_weaken; [|apply configuration_acts]. intros a Ha. destruct a as [s ? ? ? ?| | |]; try exact I; [|contradiction].
    destruct s; cbn [config_act counts_ok] in *; try exact I; contradiction.
  - intro r. unfold rest. apply only_seq; [unfold boot; onl; exact I|intros _].
    apply only_seq; [|intros _; apply only_seq; [unfold add_to_group; onl; exact I|intros _; destruct r; onl; exact I]].
    unfold register_endpoints. apply only_seq; [apply only_listen; exact I|intro w]. apply only_seq; [apply only_spawn; exact I|intros _].
    apply only_seq; [apply only_await; intro; exact I|intro active]. apply register_loop_only. intros e x He. split; [reflexivity|].
    unfold endpoints in He. cbn [In] in He. repeat (destruct He as [<-|He]; [split; reflexivity|]). contradiction.
Qed.

Lemma group_joined v o g b tr r : runs (start_znp (version_of v) o g b) tr (Returned r) ->
  requests_of ZDO "extFindGroup" tr = [[("endpoint", VInt 242); ("groupid", VInt g)]] /\
  exists m c, answered ZDO "extFindGroup" [("endpoint", VInt 242); ("groupid", VInt g)] tr m /\ dict_get (z_payload m) "status" = Some c /\
    requests_of ZDO "extAddGroup" tr = (if value_eqb c (VInt 1) then [group_entry g] else []) /\
    (value_eqb c (VInt 1) = true -> exists m2, answered ZDO "extAddGroup" (group_entry g) tr m2).
Proof.
  intro H. apply start_parts in H as (t0 & tb & te & tg & tc & -> & H0 & Hb & He & Hg & Hc).
  assert (Nb : forall cmd, cmd = "extFindGroup" \/ cmd = "extAddGroup" -> requests_of ZDO cmd tb = []).
  { intros cmd [->| ->]; apply boot_ret in Hb as (m & st & _ & [[_ ->]|(_ & m2 & x & _ & ->)]); reflexivity. }
  assert (Ne : forall cmd, requests_of ZDO cmd te = []).
  { intro cmd. apply register_ret in He as (rsp & l & _ & -> & _). rewrite requests_app, requests_registers by discriminate. reflexivity. }
  assert (Nc : forall cmd, requests_of ZDO cmd tc = []) by (intro cmd; destruct Hc as [->|(m & ->)]; reflexivity).
  rewrite !requests_app, !Ne, !Nc, !(requests_config ZDO _ t0 H0), !Nb by auto. cbn [app]. rewrite !app_nil_r.
  apply group_ret in Hg as (m & st & Est & Hp & [[Ev (m2 & ->)]|[Ev ->]]).
  - split; [reflexivity|]. exists m, st. split; [exists [0; 1]; do 3 (apply in_or_app; right); left; reflexivity|]. split; [exact Est|].
    rewrite Ev. split; [reflexivity|]. intros _. exists m2, [0]. do 3 (apply in_or_app; right). right; left; reflexivity.
  - split; [reflexivity|]. exists m, st. split; [exists [0; 1]; do 3 (apply in_or_app; right); left; reflexivity|]. split; [exact Est|].
    rewrite Ev. split; [reflexivity|discriminate].
Qed.

Lemma says_coordinator_of r : waiter_match is_coordinator r = Ok true -> says_coordinator r.
Proof.
  unfold waiter_match, is_coordinator. cbn [m_type m_sub m_cmd m_payload match_payload].
  destruct (z_type r) eqn:Et; try discriminate. destruct (z_sub r) eqn:Es; try discriminate. cbn [ct_eqb sub_eqb negb orb].
  destruct (String.eqb "stateChangeInd" (z_cmd r)) eqn:Ec; [|discriminate]. cbn [negb]. unfold dict_getE.
  destruct (dict_get (z_payload r) "state") as [v|] eqn:Ev; [|discriminate]. cbn [bind].
  destruct v as [z|?|?|?|?]; cbn [value_eqb]; try discriminate. destruct (9 =? z) eqn:Ez; [|discriminate]. intros _.
  split; [exact Et|]. split; [exact Es|]. split; [symmetry; apply String.eqb_eq; exact Ec|]. rewrite Ev. do 2 f_equal. lia.
Qed.
Lemma coordinator_started v o g b tr r : runs (start_znp (version_of v) o g b) tr (Returned r) ->
  requests_of UTIL "getDeviceInfo" tr = [[]] /\
  exists m st, answered UTIL "getDeviceInfo" [] tr m /\ dict_get (z_payload m) "devicestate" = Some st /\
    requests_of ZDO "startupFromApp" tr = (if value_eqb st (VInt 9) then [] else [[("startdelay", VInt 100)]]) /\
    (value_eqb st (VInt 9) = false -> exists pre x m2 mid w ind post,
       tr = pre ++ ARequest ZDO "startupFromApp" [("startdelay", VInt 100)] x (Some (Ok m2)) :: mid ++ AAwait w (Ok ind) :: post /\
       says_coordinator ind).
Proof.
  intro H. apply start_parts in H as (t0 & tb & te & tg & tc & -> & H0 & Hb & He & Hg & Hc).
  assert (Ne : forall sub cmd, sub = ZDO \/ sub = UTIL -> requests_of sub cmd te = []).
  { intros sub cmd Hs. apply register_ret in He as (rsp & l & _ & -> & _). rewrite requests_app, requests_registers by (destruct Hs as [->| ->]; discriminate).
    destruct Hs as [->| ->]; reflexivity. }
  assert (Ng : requests_of ZDO "startupFromApp" tg = [] /\ requests_of UTIL "getDeviceInfo" tg = []).
  { apply group_ret in Hg as (m & st & _ & _ & [[_ (m2 & ->)]|[_ ->]]); split; reflexivity. }
  destruct Ng as [Ng1 Ng2].
  assert (Nc : forall sub cmd, sub = ZDO \/ sub = UTIL -> requests_of sub cmd tc = []).
  { intros sub cmd Hs. destruct Hc as [->|(m & ->)]; destruct Hs as [->| ->]; reflexivity. }
  rewrite !requests_app, !Ne, !Nc, !(requests_config _ _ t0 H0), Ng1, Ng2 by auto. cbn [app]. rewrite !app_nil_r.
  apply boot_ret in Hb as (m & st & Est & [[Ev ->]|(Ev & m2 & ind & Hind & ->)]).
  - split; [reflexivity|]. exists m, st. split; [exists [0]; apply in_or_app; right; left; reflexivity|]. split; [exact Est|].
    rewrite Ev. split; [reflexivity|discriminate].
  - split; [reflexivity|]. exists m, st. split; [exists [0]; apply in_or_app; right; left; reflexivity|]. split; [exact Est|].
    rewrite Ev. split; [reflexivity|]. intros _.
    exists (t0 ++ [ask_info m; AListen is_coordinator 60000]), [0; 1], m2, [], is_coordinator, ind, (te ++ tg ++ tc).
    split; [rewrite <- app_assoc; reflexivity|]. apply says_coordinator_of, Hind.
Qed.

(** ** Forming the network on Z-Stack 3 *)
Definition commission (mode : Z) (m : zpi) : act := ARequest APP_CNF "bdbStartCommissioning" [("mode", VInt mode)] [0] (Some (Ok m)).
Lemma done_request sub cmd d x a : done (OpRequest sub cmd d x) a -> exists m, a = ARequest sub cmd d x (Some (Ok m)).
Proof. destruct a as [? ? ? ? [[m|?]|]| | |]; cbn [done]; try contradiction. intros (-> & -> & -> & ->). exists m. reflexivity. Qed.
Lemma done_await m a : done (OpAwait m) a -> exists r, a = AAwait m (Ok r) /\ waiter_match m r = Ok true.
Proof. destruct a as [? ? ? ? ?|?|? [r|?]|]; cbn [done]; try contradiction. intros [-> H]. exists r. auto. Qed.
Lemma done_listen m t a : done (OpListen m t) a -> a = AListen m t.
Proof. destruct a; cbn [done]; try contradiction. intros [-> ->]. reflexivity. Qed.

Definition not_commissioning (q : op) : bool :=
  match q with OpRequest sub cmd _ _ => negb (sub_eqb sub APP_CNF && String.eqb cmd "bdbStartCommissioning") | _ => true end.
Lemma no_commissioning l t : forallb not_commissioning l = true -> Forall2 done l t -> requests_of APP_CNF "bdbStartCommissioning" t = [].
Proof.
  intros H Hd. induction Hd as [|q a l t Ha Hd IH]; [reflexivity|]. cbn [forallb] in H. apply andb_prop in H as [Hq H].
  unfold requests_of in *. cbn [flat_map]. rewrite (IH H), app_nil_r.
  destruct q, a; cbn [done] in Ha; try contradiction; try reflexivity. destruct r as [[?|?]|]; try contradiction. destruct Ha as (-> & -> & _).
  cbn [not_commissioning] in Hq. apply negb_true_iff in Hq. rewrite Hq. reflexivity.
Qed.
Lemma init_commissions v o t2 : follows (init_ops (version_of v) o) t2 (Returned tt) ->
  match v with
  | Stack12 => requests_of APP_CNF "bdbStartCommissioning" t2 = []
  | _ => requests_of APP_CNF "bdbStartCommissioning" t2 = [[("mode", VInt 4)]; [("mode", VInt 2)]] /\
         exists pre m ind post, t2 = pre ++ commission 4 m :: AAwait is_coordinator (Ok ind) :: post /\ says_coordinator ind
  end.
Proof.
  intro H. apply follows_complete in H.
  assert (K : v <> Stack12 -> exists l1 l2, init_ops (version_of v) o =
    l1 ++ [OpRequest APP_CNF "bdbStartCommissioning" [("mode", VInt 4)] [0]; OpAwait is_coordinator;
           OpRequest APP_CNF "bdbStartCommissioning" [("mode", VInt 2)] [0]] ++ l2 /\ forallb not_commissioning (l1 ++ l2) = true).
  { intro N. exists (firstn 13 (init_ops (version_of v) o)), (skipn 16 (init_ops (version_of v) o)).
    destruct v; [contradiction| |]; split; reflexivity. }
  destruct v.
  1: { eapply no_commissioning; [|exact H]. reflexivity. }
  all: destruct (K ltac:(discriminate)) as (l1 & l2 & E & Hn); rewrite E in H; clear K E;
    apply Forall2_app_inv_l in H as (p1 & p & H1 & H & ->); cbn [app] in H;
    inversion H as [|? a1 ? ? D1 Ha]; subst; inversion Ha as [|? a2 ? ? D2 Hb]; subst; inversion Hb as [|? a3 ? lC D3 Hc]; subst;
    apply done_request in D1 as (m1 & ->); apply done_await in D2 as (ind & -> & Hm); apply done_request in D3 as (m3 & ->);
    rewrite forallb_app in Hn; apply andb_prop in Hn as [N1 N2]; split;
    [rewrite requests_app, (no_commissioning _ _ N1 H1); unfold requests_of at 1; cbn [flat_map app];
     fold (requests_of APP_CNF "bdbStartCommissioning" lC); rewrite (no_commissioning _ _ N2 Hc); reflexivity
    |exists p1, m1, ind, (ARequest APP_CNF "bdbStartCommissioning" [("mode", VInt 2)] [0] (Some (Ok m3)) :: lC);
     split; [reflexivity|apply says_coordinator_of, Hm]].
Qed.
Lemma harmless_no_commission_reading v o t1 c n : reading v o t1 c n -> requests_of APP_CNF "bdbStartCommissioning" t1 = [].
Proof.
  intros (ta & tb & -> & H1 & H2). rewrite requests_app.
  set (P := fun a => match a with ARequest s _ _ _ _ => s = SYS \/ s = SAPI | _ => False end).
  assert (Hv : forall item sub cmd x, sub = SYS \/ sub = SAPI -> only P (validate_item item sub cmd x)).
  { intros item sub cmd x Hs. unfold validate_item. onl. exact Hs. }
  assert (N : forall t, Forall P t -> requests_of APP_CNF "bdbStartCommissioning" t = []).
  { intros t Ht. induction Ht as [|a t Ha Ht IH]; [reflexivity|]. unfold requests_of in *. cbn [flat_map]. rewrite IH, app_nil_r.
    destruct a; try contradiction. destruct Ha as [->| ->]; reflexivity. }
  rewrite (N ta), (N tb); [reflexivity| |].
  - revert tb H2. assert (K : only P (needs_init (version_of v) o)); [|intros tb H2; eapply K, H2].
    unfold needs_init. apply only_attempt.
    + do 3 (apply only_seq; [apply Hv; auto|intros _]).
      apply only_seq; [destruct (version_of v =? zStack3x0); apply Hv; auto|intros _].
      apply only_seq; [|intros _; apply only_ret]. unfold validate_pan. apply only_attempt.
      * apply only_seq; [|intro]; apply Hv; auto.
      * intros e q E. destruct (is_assertion e); [|discriminate E].
        match type of E with Some ?x = Some ?y => assert (Eq : y = x) by congruence; subst y end.
        destruct (stack3 (version_of v)); [|apply only_ret]. onl; left; reflexivity.
    + intros e q E. destruct (is_assertion e); [injection E as <-; apply only_ret|discriminate E].
  - revert ta H1. assert (K : only P (has_configured (version_of v))); [|intros ta H1; eapply K, H1].
    unfold has_configured. apply only_attempt.
    + apply only_seq; [apply Hv; auto|intro; apply only_ret].
    + intros e q E. destruct e; try discriminate E; injection E as <-; apply only_ret.
Qed.
Lemma rest_no_commission o g r t f : runs (rest o g r) t f -> requests_of APP_CNF "bdbStartCommissioning" t = [].
Proof.
  intro H. set (P := fun a => match a with ARequest APP_CNF _ _ _ _ => False | _ => True end).
  assert (K : Forall P t).
  { revert t f H. change (only P (rest o g r)). unfold rest. apply only_seq; [unfold boot; onl; exact I|intros _].
    apply only_seq; [|intros _; apply only_seq; [unfold add_to_group; onl; exact I|intros _; destruct r; onl; exact I]].
    unfold register_endpoints. apply only_seq; [apply only_listen; exact I|intro w]. apply only_seq; [apply only_spawn; exact I|intros _].
    apply only_seq; [apply only_await; intro; exact I|intro active]. apply register_loop_only. intros e x He. exact I. }
  clear H. induction K as [|a t Ha K IH]; [reflexivity|]. unfold requests_of in *. cbn [flat_map]. rewrite IH, app_nil_r.
  destruct a as [s ? ? ? ?| | |]; try reflexivity. destruct s; cbn in Ha; try contradiction; reflexivity.
Qed.
Lemma network_formed v o g b tr r : runs (start_znp (version_of v) o g b) tr (Returned r) ->
  if match v, r with Stack12, _ | _, Resumed => true | _, _ => false end
  then requests_of APP_CNF "bdbStartCommissioning" tr = []
  else requests_of APP_CNF "bdbStartCommissioning" tr = [[("mode", VInt 4)]; [("mode", VInt 2)]] /\
       exists pre x m w ind post,
         tr = pre ++ ARequest APP_CNF "bdbStartCommissioning" [("mode", VInt 4)] x (Some (Ok m)) :: AAwait w (Ok ind) :: post /\ says_coordinator ind.
Proof.
  intro H. apply start_course in H as (t1 & t2 & t3 & -> & HC). inversion HC; subst.
  - exfalso. eapply H0. reflexivity.
  - apply rest_result in H1 as E. subst r. cbn [app]. replace (match v with Stack12 => true | _ => true end) with true by (destruct v; reflexivity).
    rewrite requests_app, (harmless_no_commission_reading _ _ _ _ _ H0), (rest_no_commission _ _ _ _ _ H1). reflexivity.
  - exfalso. eapply H2. reflexivity.
  - apply rest_result in H3 as E. pose proof (init_commissions v o t2 H1) as K.
    rewrite !requests_app, (harmless_no_commission_reading _ _ _ _ _ H0), (rest_no_commission _ _ _ _ _ H3), app_nil_r. cbn [app].
    destruct v; [exact K| |]; (assert (Er : r = Reset) by (rewrite E; destruct c; reflexivity)); rewrite Er;
      destruct K as [K1 (pre & m & ind & post & -> & K2)]; (split; [exact K1|]);
      exists (t1 ++ pre), [0], m, is_coordinator, ind, (post ++ t3); (split; [rewrite <- !app_assoc; reflexivity|exact K2]).
Qed.
