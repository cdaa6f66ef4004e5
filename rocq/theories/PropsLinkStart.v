(** * PropsLinkStart: start-ups that succeed, and that fail to do their work, on the link (C156, C157) *)
From Verif Require Import Base Types Uart Buffalo Zpi Api App Machine SpecWire SpecMachine Nv StartZnp SpecStart Host SpecHost
  AppStart SpecAppStart StartExec PropsStart PropsAppStart AppStartProofs SpecReal HostProofs SpecLinkStart LinkStart2 LockedProofs.

(** ** C156.  From every reachable state of the link in which the port is open and nothing is going on, for every valid
    configuration and whatever is stored in the stick (as long as the stick can tell it and is not locked out, see C157): there are events - bytes received, time passing, turns of the coroutines - under which start-up succeeds
    with the product and addresses that the stick reports, all answers being frames the stick can send that tell what is
    stored; and if it formed the network, what is stored is what it requires. *)
Theorem C156_startup_can_succeed : forall cap auto c devs s st v ieee nwk, 0 <= cap -> reachable cap s -> at_rest s -> valid_config c ->
  tellable st -> (auto = true -> ~ locked_out v (network_options c) st) -> address_ok ieee nwk ->
  exists es rd st', let h := hrun es (hosted (app_startup auto c devs) s) in ending h = Returned rd /\ Forall can_come (acts h) /\ stick st (acts h) st' /\
    rd_product rd = version_of v /\ rd_ieee rd = ieee /\ rd_nwk rd = nwk /\
    (auto = true -> accepted v (network_options c) st').
Proof. exact link_startup. Qed.
Print Assumptions C156_startup_can_succeed.
(** The refutations of C50, C51 and C54 happen on the link, and not only in one case.
    C51: whatever network is stored in a marked Z-Stack 1.2 stick whose other settings are the requested ones. *)
Theorem C156_other_network_accepted : forall cap s o g st, 0 <= cap -> reachable cap s -> at_rest s -> wf_options o -> 0 <= g < 65536 ->
  tellable st -> ~ locked_out Stack12 o st -> common_matches Stack12 o st ->
  exists es, let h := hrun es (hosted (start_znp (version_of Stack12) o g false) s) in
    ending h = Returned Resumed /\ Forall can_come (acts h) /\ stick st (acts h) st /\ Forall harmless (acts h).
Proof. exact link_other_pan. Qed.
Print Assumptions C156_other_network_accepted.
(** C50: every initialisation of a stick that is already marked can be interrupted so that the next start resumes, although
    the mark, which is written last, was not written again. *)
Theorem C156_interrupted_accepted : forall cap s v o g st, 0 <= cap -> reachable cap s -> at_rest s -> wf_options o -> 0 <= g < 65536 ->
  tellable st -> ~ locked_out v o st -> marked v st -> ~ accepted v o st ->
  exists es st1, let h := hrun es (hosted (start_znp (version_of v) o g false) s) in
    Forall can_come (acts h) /\ stick st (acts h) st1 /\ (exists a, In a (acts h) /\ ~ harmless a) /\ (forall a b, In a (acts h) -> ~ writes a (marker v) b) /\
    forall cap2 s2, 0 <= cap2 -> reachable cap2 s2 -> at_rest s2 -> exists es2, let h2 := hrun es2 (hosted (start_znp (version_of v) o g false) s2) in
      ending h2 = Returned Resumed /\ Forall can_come (acts h2) /\ stick st1 (acts h2) st1 /\ Forall harmless (acts h2).
Proof. exact link_interrupted. Qed.
Print Assumptions C156_interrupted_accepted.
(** C54: the list of endpoints of any device, of any address, is taken for the stick's. *)
Theorem C156_foreign_list_accepted : forall cap s v o g st from eps, 0 <= cap -> reachable cap s -> at_rest s -> wf_options o -> 0 <= g < 65536 ->
  tellable st -> ~ locked_out v o st -> 0 <= from < 65536 -> bytes_ok eps -> (length eps <= 240)%nat ->
  exists es r, let h := hrun es (hosted (start_znp (version_of v) o g false) s) in ending h = Returned r /\ Forall can_come (acts h) /\
    (exists m rsp, In (AAwait m (Ok rsp)) (acts h) /\ z_cmd rsp = "activeEpRsp" /\ dict_get (z_payload rsp) "nwkaddr" = Some (VInt from)) /\
    forall e, In e required_endpoints -> times_registered (acts h) e = if existsb (Z.eqb e) eps then 0%nat else 1%nat.
Proof. exact link_foreign_list. Qed.
Print Assumptions C156_foreign_list_accepted.

(** a stick of each kind: nothing stored; another network in a Z-Stack 1.2 stick; another channel in a Z-Stack 3 stick *)
Lemma tellable_put st i b : tellable st -> bytes_ok b -> (length b <= 240)%nat -> tellable (put st i b).
Proof. intros T H L j b'. unfold put. destruct (j =? i); [intros [= <-]; auto|apply T]. Qed.
Ltac tell := repeat (apply tellable_put; [|repeat constructor; discriminate|cbn; lia]); discriminate.
Example C156_inhabited : at_rest (init 2 None [] true) /\ reachable 2 (init 2 None [] true) /\ address_ok [1; 2; 3; 4; 5; 6; 7; 8] 0 /\
  valid_config lit_net /\ wf_options lit_options /\ wf_options lit_channel15 /\
  (tellable lit_empty /\ ~ locked_out Stack30x (network_options lit_net) lit_empty) /\
  (let st := put (lit_config Stack12 lit_options) 131 [52; 18] in
   tellable st /\ ~ locked_out Stack12 lit_options st /\ common_matches Stack12 lit_options st /\ ~ network_matches lit_options st) /\
  (let st := lit_config Stack30x lit_options in tellable st /\ ~ locked_out Stack30x lit_channel15 st /\ marked Stack30x st /\ ~ accepted Stack30x lit_channel15 st).
Proof.
  split; [repeat split|]. split; [exists None, [], true, []; reflexivity|]. split; [split; [reflexivity|split; [repeat constructor; discriminate|lia]]|].
  split; [exact lit_net_valid|]. split; [exact lit_options_wf|]. split; [repeat split; try reflexivity; repeat constructor; discriminate|].
  split; [split; [discriminate|intros [K _]; discriminate K]|].
  split; cbn zeta; (split; [tell|split; [intros [_ K]; vm_compute in K; repeat (destruct K as [K|[_ K]]; [discriminate K|]); exact K|]]).
  - split; [vm_compute; repeat split|]. intros [K _]. vm_compute in K. discriminate K.
  - split; [vm_compute; reflexivity|]. intros [(_ & K & _) _]. vm_compute in K. discriminate K.
Qed.

(** ** C157.  Start-up with forming can succeed exactly if the stick is not locked out, i.e. not: the mark is set and the
    first compared item that is not stored as requested is missing. *)
Theorem C157_succeeds_iff_not_locked_out : forall cap c devs s st v, 0 <= cap -> reachable cap s -> at_rest s -> valid_config c -> tellable st ->
  ((exists es rd st', let h := hrun es (hosted (app_startup true c devs) s) in
      ending h = Returned rd /\ Forall can_come (acts h) /\ stick st (acts h) st' /\ rd_product rd = version_of v) <->
   ~ locked_out v (network_options c) st).
Proof.
  intros cap c devs s st v Hc Hr Hs V T. split.
  - intros (es & rd & st' & E & _ & S & P) L.
    pose proof (host_runs cap _ _ (host_inv cap (app_startup true c devs) s es Hc Hr)) as R. rewrite E in R. destruct (limit_by_product _ _ _ _ _ R) as [Q _].
    destruct (locked_app _ _ _ _ _ _ _ V L R S (fun p H => eq_trans (proj1 (Q p) H) P)) as [N _]. exact (N rd eq_refl).
  - intro N. destruct (link_startup cap true c devs s st v [0; 0; 0; 0; 0; 0; 0; 0] 0 Hc Hr Hs V T (fun _ => N) LinkStart2.nowhere) as (es & rd & st' & A & B & C & D & _).
    exists es, rd, st'. auto.
Qed.
Print Assumptions C157_succeeds_iff_not_locked_out.
(** Locked out for ever: from whatever state of the link and whatever happens on it, a start returns nothing and leaves the
    stick as it is, so that the next one finds the same. *)
Theorem C157_locked_out_for_ever : forall cap v o group backup s0 es s s', 0 <= cap -> reachable cap s0 -> wf_options o -> locked_out v o s ->
  let h := hrun es (hosted (start_znp (version_of v) o group backup) s0) in
  stick s (acts h) s' -> (forall r, ending h <> Returned r) /\ s' = s.
Proof. intros cap v o g b s0 es s s'. exact (locked_link cap v o g b s0 es s s'). Qed.
Print Assumptions C157_locked_out_for_ever.
Theorem C157_startup_locked_out_for_ever : forall cap v c devs s0 es s s', 0 <= cap -> reachable cap s0 -> valid_config c -> locked_out v (network_options c) s ->
  let h := hrun es (hosted (app_startup true c devs) s0) in
  stick s (acts h) s' -> (forall p, reports (acts h) p -> p = version_of v) -> (forall r, ending h <> Returned r) /\ s' = s.
Proof. intros cap v c devs s0 es s s'. exact (locked_app_link cap v c devs s0 es s s'). Qed.
Print Assumptions C157_startup_locked_out_for_ever.
(** the program alone, with every request it makes *)
Theorem C157_locked_out_changes_nothing : forall v o group backup s tr f s', wf_options o -> locked_out v o s ->
  runs (start_znp (version_of v) o group backup) tr f -> stick s tr s' -> (forall r, f <> Returned r) /\ Forall harmless tr /\ s' = s.
Proof. exact locked_start. Qed.
Print Assumptions C157_locked_out_changes_nothing.
(** the key is missing but everything before it is as requested; the same stick is not locked out for another channel *)
Definition lit_lost : store := fun i => if i =? 98 then None else lit_config Stack30x lit_options i.
Example C157_inhabited : tellable lit_lost /\ locked_out Stack30x lit_options lit_lost /\ ~ locked_out Stack30x lit_channel15 lit_lost /\
  locked_out Stack12 (network_options lit_net) (put lit_empty 3840 set_mark) /\ ~ locked_out Stack12 (network_options lit_net) lit_empty.
Proof.
  split; [|split; [|split; [|split]]].
  - assert (T : tellable (lit_config Stack30x lit_options)) by tell. intros i b. unfold lit_lost. destruct (i =? 98); [discriminate|apply T].
  - split; [reflexivity|]. right. split; [reflexivity|]. right. split; [reflexivity|]. left. reflexivity.
  - intros [_ K]. vm_compute in K. destruct K as [K|[K _]]; discriminate K.
  - split; [reflexivity|]. vm_compute. auto.
  - intros [K _]. discriminate K.
Qed.
(** and it is a start of that stick that fails: with the stick's error, after it has read the mark twice, the channels and the flag *)
Example C157_witness :
  snd (fst (serve (lit_stick 0 0 []) (PropsStart.lit_start Stack30x lit_options) lit_lost)) = Err (CommandError 2) /\
  length (fst (fst (serve (lit_stick 0 0 []) (PropsStart.lit_start Stack30x lit_options) lit_lost))) = 5%nat.
Proof. vm_compute. auto. Qed.
