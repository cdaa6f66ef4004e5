(** * PropsStart: starting the stick (C47-C57, C72, C74) *)
From Verif Require Import Base Types Buffalo Zpi Api SpecCodec SpecMachine Nv StartZnp SpecStart StartExec
  StartProofs StartProofs4 StartProofs5 StartProofs6 StartProofs7 StartProofs8.

(** ** Literals for the examples *)
Definition lit_options : options := mk_options false [1; 3; 5; 7; 9; 11; 13; 15; 0; 2; 4; 6; 8; 10; 12; 13] 6754 [1; 2; 3; 4; 5; 6; 7; 8] 2048.
Definition lit_other : options := mk_options false [1; 3; 5; 7; 9; 11; 13; 15; 0; 2; 4; 6; 8; 10; 12; 13] 4660 [1; 2; 3; 4; 5; 6; 7; 8] 4096.
Definition lit_empty : store := fun _ => None.
Definition lit_config (v : firmware) (o : options) : store :=
  put (put (put (put (put (put lit_empty (marker v) set_mark) 132 (le4 (o_channels o))) 99 (flag (o_distribute o))) 98 (o_key o)) 131 (le2 (o_pan o))) 45 (o_ext o).
Definition lit_ind (cmd : string) (d : payload) : zpi := mk_zpi AREQ ZDO cmd 0 d [] None.
(** a stick in state [state] whose endpoint list request is answered with a list of device [nwk] *)
Definition lit_stick (state nwk : Z) (eps : list Z) : device :=
  mk_device
    (fun sub cmd _ => if String.eqb cmd "getDeviceInfo" then [("status", VInt 0); ("devicestate", VInt state)]
                      else if sub_eqb sub ZDO && String.eqb cmd "extFindGroup" then [("status", VInt 1)] else [("status", VInt 0)])
    (fun m => if String.eqb (m_cmd m) "stateChangeInd" then Some (lit_ind "stateChangeInd" [("state", VInt 9)])
              else Some (lit_ind "activeEpRsp" [("srcaddr", VInt nwk); ("status", VInt 0); ("nwkaddr", VInt nwk);
                                                ("activeepcount", VInt (Z.of_nat (length eps))); ("activeeplist", VList eps)])).
Definition lit_start (v : firmware) (o : options) : prog start_result := start_znp (version_of v) o 2948 false.
Lemma lit_options_wf : wf_options lit_options.
Proof. repeat split; try reflexivity; try (repeat constructor; discriminate). Qed.
Lemma lit_other_wf : wf_options lit_other.
Proof. repeat split; try reflexivity; try (repeat constructor; discriminate). Qed.
Definition trace_of {A} (x : list act * fin A * store) : list act := fst (fst x).
Definition fin_of {A} (x : list act * fin A * store) : fin A := snd (fst x).
Definition store_of {A} (x : list act * fin A * store) : store := snd x.
Lemma exec_runs {A} dv n (p : prog A) s f : fin_of (exec dv n p s) = f ->
  runs p (trace_of (exec dv n p s)) f /\ stick s (trace_of (exec dv n p s)) (store_of (exec dv n p s)).
Proof. intros <-. unfold fin_of, trace_of, store_of. destruct (exec dv n p s) as [[tr f] s'] eqn:E. apply (exec_sound dv p n s tr f s' E). Qed.
Definition commands (tr : list act) : list string :=
  flat_map (fun a => match a with ARequest _ c _ _ _ => [c] | _ => [] end) tr.

(** ** C47 *)
Theorem C47_configured_left_alone : forall v o group backup s tr f s', wf_options o -> config_matches v o s ->
  runs (start_znp (version_of v) o group backup) tr f -> stick s tr s' ->
  Forall harmless tr /\ s' = s /\ forall r, f = Returned r -> r = Resumed.
Proof. intros v o g b s tr f s' W M. apply accepted_left_alone; [exact W|apply config_accepted, M]. Qed.
Print Assumptions C47_configured_left_alone.
Example C47_inhabited :
  config_matches Stack30x lit_options (lit_config Stack30x lit_options) /\
  fin_of (exec (lit_stick 9 0 [1; 2]) 100 (lit_start Stack30x lit_options) (lit_config Stack30x lit_options)) = Returned Resumed.
Proof. split; [vm_compute; repeat split|vm_compute; reflexivity]. Qed.

(** ** C48 *)
Theorem C48_marker_last : forall v o group backup pre a post f bs, wf_options o ->
  runs (start_znp (version_of v) o group backup) (pre ++ a :: post) f -> writes a (marker v) bs ->
  bs = set_mark /\
  (forall i bs, In (i, bs) (settings v o) -> exists w, In w pre /\ acknowledged w /\ writes w i bs) /\
  (forall w i bs, In w pre -> writes w i bs -> acknowledged w /\ In (i, bs) (settings v o)) /\
  (forall w, In w post -> harmless w \/ writes w 132 (le4 (o_channels o))).
Proof. exact mark_last. Qed.
Print Assumptions C48_marker_last.
Example C48_inhabited :
  let x := exec (lit_stick 0 0 []) 20 (lit_start Stack3x0 lit_options) lit_empty in
  fin_of x = Interrupted /\
  exists pre a, trace_of x = pre ++ a :: [] /\ writes a 96 [85] /\ length (filter (String.eqb "osalNvWrite") (commands pre)) = 8%nat.
Proof.
  split; [vm_compute; reflexivity|].
  exists (firstn 19 (trace_of (exec (lit_stick 0 0 []) 20 (lit_start Stack3x0 lit_options) lit_empty))).
  eexists. vm_compute. repeat split.
Qed.

(** creating the item does not set the mark *)
Theorem C48_created_unset : forall v o group backup tr f sub cmd d x r i bs, wf_options o ->
  runs (start_znp (version_of v) o group backup) tr f -> In (ARequest sub cmd d x r) tr -> storage_of sub cmd d = Creates i bs ->
  i = marker v /\ bs <> set_mark.
Proof.
  intros v o g b tr f sub cmd d x r i bs W R Hi E. pose proof (start_well_formed v o g b W tr f R) as F. rewrite Forall_forall in F.
  specialize (F _ Hi). cbn [act_well_formed] in F. unfold item_well_formed in F. rewrite E in F.
  destruct F as (F1 & F2 & _); [|auto]. unfold storage_of in E. destruct sub; try discriminate E; cbn [storage_command existsb].
  - destruct (String.eqb cmd "osalNvRead"); [destruct (int_of d "id"); discriminate E|].
    destruct (String.eqb cmd "osalNvWrite"); [destruct (int_of d "id"), (bytes_of d "value"); discriminate E|].
    destruct (String.eqb cmd "osalNvItemInit"); [reflexivity|]. destruct (String.eqb cmd "resetReq"); discriminate E.
  - destruct (String.eqb cmd "readConfiguration"); [destruct (int_of d "configid"); discriminate E|].
    destruct (String.eqb cmd "writeConfiguration"); [destruct (int_of d "configid"), (bytes_of d "value"); discriminate E|discriminate E].
Qed.
Print Assumptions C48_created_unset.
Example C48_created_inhabited :
  let x := exec (lit_stick 0 0 []) 20 (lit_start Stack3x0 lit_options) lit_empty in
  existsb (fun a => match a with ARequest sub cmd d _ _ => match storage_of sub cmd d with Creates 96 _ => true | _ => false end | _ => false end) (trace_of x) = true.
Proof. vm_compute. reflexivity. Qed.

(** ** C49 *)
Theorem C49_interrupted_first_redone : forall v o1 o2 g1 g2 b1 b2 s0 tr1 f1 s1 tr2 r s2,
  wf_options o1 -> wf_options o2 -> ~ marked v s0 ->
  runs (start_znp (version_of v) o1 g1 b1) tr1 f1 -> stick s0 tr1 s1 -> (forall a bs, In a tr1 -> ~ writes a (marker v) bs) ->
  runs (start_znp (version_of v) o2 g2 b2) tr2 (Returned r) -> stick s1 tr2 s2 ->
  r <> Resumed /\ initialised v o2 tr2 /\ config_matches v o2 s2.
Proof.
  intros v o1 o2 g1 g2 b1 b2 s0 tr1 f1 s1 tr2 r s2 W1 W2 M R1 S1 N R2 S2.
  eapply differs_initialised; [exact W2| |exact R2|exact S2]. intros [[K _] _]. revert K.
  eapply mark_not_set; [exact S1|eapply (start_well_formed v o1 g1 b1); eassumption|exact N|exact M].
Qed.
Print Assumptions C49_interrupted_first_redone.
(** the run ends just before the marker is written, and when the stick does not acknowledge the network key *)
Example C49_inhabited :
  let x := exec (lit_stick 0 0 []) 19 (lit_start Stack3x0 lit_options) lit_empty in
  ~ marked Stack3x0 lit_empty /\ fin_of x = Interrupted /\
  existsb (fun a => match a with ARequest sub cmd d _ _ => match storage_of sub cmd d with Writes 96 _ => true | _ => false end | _ => false end) (trace_of x) = false /\
  fin_of (exec (lit_stick 0 0 []) 100 (lit_start Stack3x0 lit_options) (store_of x)) = Returned Reset.
Proof. split; [discriminate|]. vm_compute. repeat split. Qed.

(** ** C50: a marked stick whose settings other than the channel list are the requested ones, interrupted after
    the channel list was written *)
Definition lit_channel15 : options := mk_options false (o_key lit_options) 6754 [1; 2; 3; 4; 5; 6; 7; 8] 32768.
Theorem C50_interrupted_reinit_redone_refuted :
  ~ (forall v o group backup s0 tr1 s1 tr2 r s2, wf_options o -> marked v s0 ->
     runs (start_znp (version_of v) o group backup) tr1 Interrupted -> (exists a, In a tr1 /\ ~ harmless a) -> stick s0 tr1 s1 ->
     runs (start_znp (version_of v) o group backup) tr2 (Returned r) -> stick s1 tr2 s2 ->
     r <> Resumed /\ initialised v o tr2).
Proof.
  intro H.
  set (x := exec (lit_stick 9 0 []) 10 (lit_start Stack30x lit_channel15) (lit_config Stack30x lit_options)).
  set (y := exec (lit_stick 9 0 []) 100 (lit_start Stack30x lit_channel15) (store_of x)).
  assert (E1 : fin_of x = Interrupted) by (vm_compute; reflexivity).
  assert (E2 : fin_of y = Returned Resumed) by (vm_compute; reflexivity).
  apply exec_runs in E1 as [R1 S1]. apply exec_runs in E2 as [R2 S2].
  assert (W : wf_options lit_channel15) by (repeat split; try reflexivity; try (repeat constructor; discriminate)).
  assert (M : marked Stack30x (lit_config Stack30x lit_options)) by (vm_compute; reflexivity).
  assert (D : exists a, In a (trace_of x) /\ ~ harmless a); [|destruct (H _ _ _ _ _ _ _ _ _ _ W M R1 D S1 R2 S2) as [K _]; apply K; reflexivity].
  exists (ARequest SYS "resetReq" [("type", VInt 1)] [0] (Some (Ok (reply SYS "resetInd" [])))). split; [|intro K; exact K].
  vm_compute. tauto.
Qed.
Print Assumptions C50_interrupted_reinit_redone_refuted.
Theorem C50_redone_unless_accepted_partial : forall v o1 o2 g1 g2 b1 b2 s0 tr1 f1 s1 tr2 r s2, wf_options o2 ->
  runs (start_znp (version_of v) o1 g1 b1) tr1 f1 -> stick s0 tr1 s1 -> ~ accepted v o2 s1 ->
  runs (start_znp (version_of v) o2 g2 b2) tr2 (Returned r) -> stick s1 tr2 s2 ->
  r <> Resumed /\ initialised v o2 tr2 /\ config_matches v o2 s2.
Proof. intros v o1 o2 g1 g2 b1 b2 s0 tr1 f1 s1 tr2 r s2 W _ _ N R S. eapply differs_initialised; eassumption. Qed.
Print Assumptions C50_redone_unless_accepted_partial.
(** interrupted before the channel list is written *)
Example C50_inhabited :
  let x := exec (lit_stick 9 0 []) 9 (lit_start Stack30x lit_channel15) (lit_config Stack30x lit_options) in
  fin_of x = Interrupted /\ existsb (String.eqb "resetReq") (commands (trace_of x)) = true /\ ~ accepted Stack30x lit_channel15 (store_of x) /\
  fin_of (exec (lit_stick 0 0 []) 100 (lit_start Stack30x lit_channel15) (store_of x)) = Returned Reset.
Proof.
  split; [vm_compute; reflexivity|]. split; [vm_compute; reflexivity|]. split; [|vm_compute; reflexivity].
  intros [(_ & K & _) _]. vm_compute in K. discriminate K.
Qed.

(** ** C51: PAN id and extended PAN id of a marked Z-Stack 1.2 stick are never enforced *)
Theorem C51_converges_refuted :
  ~ (forall v o group backup s tr r s', wf_options o -> runs (start_znp (version_of v) o group backup) tr (Returned r) -> stick s tr s' ->
     s' 131 = Some (le2 (o_pan o)) /\ s' 45 = Some (o_ext o)).
Proof.
  intro H. set (s := put (lit_config Stack12 lit_options) 131 [52; 18]).
  set (x := exec (lit_stick 9 0 []) 100 (lit_start Stack12 lit_options) s).
  assert (E : fin_of x = Returned Resumed) by (vm_compute; reflexivity). apply exec_runs in E as [R S].
  destruct (H _ _ _ _ _ _ _ _ lit_options_wf R S) as [K _]. vm_compute in K. discriminate K.
Qed.
Print Assumptions C51_converges_refuted.
(** the same on Z-Stack 3 when the stored PAN id is FFFF *)
Theorem C51_converges_stack3_refuted :
  ~ (forall v o group backup s tr r s', is_stack3 v -> wf_options o -> runs (start_znp (version_of v) o group backup) tr (Returned r) -> stick s tr s' ->
     s' 131 = Some (le2 (o_pan o)) /\ s' 45 = Some (o_ext o)).
Proof.
  intro H. set (s := put (lit_config Stack30x lit_options) 131 [255; 255]).
  set (x := exec (lit_stick 9 0 []) 100 (lit_start Stack30x lit_options) s).
  assert (E : fin_of x = Returned Resumed) by (vm_compute; reflexivity). apply exec_runs in E as [R S].
  destruct (H Stack30x _ _ _ _ _ _ _ ltac:(discriminate) lit_options_wf R S) as [K _]. vm_compute in K. discriminate K.
Qed.
Print Assumptions C51_converges_stack3_refuted.
Theorem C51_converges_partial : forall v o group backup s tr r s', wf_options o ->
  runs (start_znp (version_of v) o group backup) tr (Returned r) -> stick s tr s' ->
  (* settings that are always the requested ones *)
  (marked v s' /\ s' 98 = Some (o_key o) /\ s' 132 = Some (le4 (o_channels o)) /\ s' 99 = Some (flag (o_distribute o))) /\
  (* PAN id and extended PAN id are after an initialisation, and are on Z-Stack 3 unless the stored PAN id is FFFF *)
  (r <> Resumed -> s' 131 = Some (le2 (o_pan o)) /\ s' 45 = Some (o_ext o)) /\
  (is_stack3 v -> s' 131 = Some [255; 255] \/ s' 131 = Some (le2 (o_pan o)) /\ s' 45 = Some (o_ext o)) /\
  (* the next start resumes without writing *)
  (forall tr2 f2 s2, runs (start_znp (version_of v) o group backup) tr2 f2 -> stick s' tr2 s2 ->
     Forall harmless tr2 /\ s2 = s' /\ forall r2, f2 = Returned r2 -> r2 = Resumed).
Proof.
  intros v o g b s tr r s' W R S. pose proof (accepted_afterwards _ _ _ _ _ _ _ _ W R S) as A.
  split; [|split; [|split]].
  - destruct A as [(Hm & Hc & Hd & Hk) _]. auto.
  - intro Hr. destruct (accepted_dec v o s) as [Y|N].
    + exfalso. apply Hr. eapply accepted_left_alone; try eassumption. reflexivity.
    + destruct (differs_initialised _ _ _ _ _ _ _ _ W N R S) as (_ & _ & _ & Hn). exact Hn.
  - intro Hv. destruct A as [_ [E|[E|E]]]; [contradiction|right; exact E|left; exact E].
  - intros tr2 f2 s2 R2 S2. eapply accepted_left_alone; eassumption.
Qed.
Print Assumptions C51_converges_partial.
Example C51_inhabited :
  let x := exec (lit_stick 0 0 []) 100 (lit_start Stack12 lit_options) (lit_config Stack12 lit_other) in
  fin_of x = Returned Reset /\ store_of x 131 = Some [98; 26] /\
  fin_of (exec (lit_stick 0 0 []) 100 (lit_start Stack12 lit_options) (store_of x)) = Returned Resumed.
Proof. vm_compute. repeat split. Qed.

(** ** C52 *)
Theorem C52_items_well_formed : forall v o group backup tr f, wf_options o ->
  runs (start_znp (version_of v) o group backup) tr f -> Forall (act_well_formed v o) tr.
Proof. intros v o g b tr f W R. exact (start_well_formed v o g b W tr f R). Qed.
Print Assumptions C52_items_well_formed.
Example C52_inhabited :
  let x := exec (lit_stick 0 0 []) 100 (lit_start Stack12 lit_options) lit_empty in
  fin_of x = Returned Restored /\
  length (filter (fun a => match a with ARequest sub cmd _ _ _ => storage_command sub cmd | _ => false end) (trace_of x)) = 14%nat.
Proof. vm_compute. repeat split. Qed.

(** ** C53 *)
Theorem C53_result_truthful : forall v o group backup tr r, wf_options o ->
  runs (start_znp (version_of v) o group backup) tr (Returned r) ->
  match r with
  | Resumed => Forall harmless tr
  | Reset => initialised v o tr
  | Restored => initialised v o tr /\ v = Stack12 /\
      exists d x a tl, tr = ARequest SYS "osalNvRead" d x (Some a) :: tl /\ int_of d "id" = Some (marker v) /\
        ((exists c, a = Err (CommandError c)) \/ exists m v, a = Ok m /\ dict_get (z_payload m) "value" = Some v /\ v <> VBytes set_mark)
  end.
Proof. exact result_truthful. Qed.
Print Assumptions C53_result_truthful.
Example C53_inhabited :
  fin_of (exec (lit_stick 0 0 []) 100 (lit_start Stack12 lit_options) lit_empty) = Returned Restored /\
  fin_of (exec (lit_stick 0 0 []) 100 (lit_start Stack12 lit_options) (lit_config Stack12 lit_other)) = Returned Reset /\
  fin_of (exec (lit_stick 0 0 []) 100 (lit_start Stack30x lit_options) lit_empty) = Returned Reset /\
  fin_of (exec (lit_stick 0 0 []) 100 (lit_start Stack30x lit_options) (lit_config Stack30x lit_options)) = Returned Resumed.
Proof. vm_compute. repeat split. Qed.

(** ** C54: the list of another device is taken for the stick's own *)
Theorem C54_endpoints_registered_refuted :
  ~ (forall v o group backup tr r e, wf_options o -> runs (start_znp (version_of v) o group backup) tr (Returned r) ->
     In e required_endpoints -> reported_active tr e \/ times_registered tr e = 1%nat).
Proof.
  intro H. set (x := exec (lit_stick 9 4660 [1; 242]) 100 (lit_start Stack30x lit_options) (lit_config Stack30x lit_options)).
  assert (E : fin_of x = Returned Resumed) by (vm_compute; reflexivity). apply exec_runs in E as [R _].
  destruct (H _ _ _ _ _ _ 1 lit_options_wf R ltac:(vm_compute; tauto)) as [(m & rsp & K & _ & _ & Own & _)|K]; [|vm_compute in K; discriminate K].
  assert (L : forall a, In a (trace_of x) -> match a with AAwait _ (Ok r) => int_of (z_payload r) "nwkaddr" = Some 4660 | _ => True end).
  { apply Forall_forall. vm_compute. repeat constructor. }
  apply L in K. unfold own_list in Own. congruence.
Qed.
Print Assumptions C54_endpoints_registered_refuted.
Theorem C54_endpoints_registered_partial : forall v o group backup tr r,
  runs (start_znp (version_of v) o group backup) tr (Returned r) ->
  (forall m rsp, In (AAwait m (Ok rsp)) tr -> z_cmd rsp = "activeEpRsp" -> own_list rsp) ->
  (forall e, In e required_endpoints ->
     reported_active tr e /\ times_registered tr e = 0%nat \/ ~ reported_active tr e /\ times_registered tr e = 1%nat) /\
  (forall e, In e (registered_by tr) -> In e required_endpoints /\ ~ reported_active tr e) /\
  (forall a, In a tr -> registers a <> [] -> acknowledged a).
Proof. exact own_registered. Qed.
Print Assumptions C54_endpoints_registered_partial.
Theorem C54_counts_true_partial : forall v o group backup tr f sub cmd d x r,
  runs (start_znp (version_of v) o group backup) tr f -> In (ARequest sub cmd d x r) tr -> sub = AF -> cmd = "register" /\ true_counts d.
Proof. intros v o g b tr f sub cmd d x r R K ->. pose proof (counts_true v o g b tr f R) as F. rewrite Forall_forall in F. exact (F _ K). Qed.
Print Assumptions C54_counts_true_partial.
Example C54_inhabited :
  let x := exec (lit_stick 9 0 [1; 242; 7]) 100 (lit_start Stack30x lit_options) (lit_config Stack30x lit_options) in
  fin_of x = Returned Resumed /\ registered_by (trace_of x) = [2; 3; 4; 5; 6; 8; 11; 110; 12; 13; 47].
Proof. vm_compute. repeat split. Qed.

(** ** C55 *)
Lemma int_same v n : value_eqb v (VInt n) = true -> v = VInt n.
Proof. destruct v as [z|l|[|x l]|[|x l]|[|x l]]; cbn [value_eqb]; try discriminate. intro H. f_equal. apply Z.eqb_eq, H. Qed.
Theorem C55_group_joined : forall v o group backup tr r, runs (start_znp (version_of v) o group backup) tr (Returned r) ->
  requests_of ZDO "extFindGroup" tr = [[("endpoint", VInt 242); ("groupid", VInt group)]] /\
  exists m c, answered ZDO "extFindGroup" [("endpoint", VInt 242); ("groupid", VInt group)] tr m /\ dict_get (z_payload m) "status" = Some c /\
    (c = VInt 1 /\ requests_of ZDO "extAddGroup" tr = [[("endpoint", VInt 242); ("groupid", VInt group); ("namelen", VInt 0); ("groupname", VBytes [])]] /\
       (exists m2, answered ZDO "extAddGroup" [("endpoint", VInt 242); ("groupid", VInt group); ("namelen", VInt 0); ("groupname", VBytes [])] tr m2) \/
     c <> VInt 1 /\ requests_of ZDO "extAddGroup" tr = []).
Proof.
  intros v o group backup tr r R. destruct (group_joined v o group backup tr r R) as (H & m & c & A & E & Hr & Ha). split; [exact H|]. exists m, c. split; [exact A|].
  split; [exact E|]. destruct (value_eqb c (VInt 1)) eqn:Ec.
  - left. split; [apply int_same, Ec|]. split; [exact Hr|apply Ha; reflexivity].
  - right. split; [intros ->; discriminate Ec|exact Hr].
Qed.
Print Assumptions C55_group_joined.
Example C55_inhabited :
  let x := exec (lit_stick 9 0 [1; 242; 7]) 100 (lit_start Stack30x lit_options) (lit_config Stack30x lit_options) in
  fin_of x = Returned Resumed /\ length (requests_of ZDO "extAddGroup" (trace_of x)) = 1%nat.
Proof. vm_compute. repeat split. Qed.

(** ** C56 *)
Theorem C56_coordinator_started : forall v o group backup tr r, runs (start_znp (version_of v) o group backup) tr (Returned r) ->
  requests_of UTIL "getDeviceInfo" tr = [[]] /\
  exists m st, answered UTIL "getDeviceInfo" [] tr m /\ dict_get (z_payload m) "devicestate" = Some st /\
    (st = VInt 9 /\ requests_of ZDO "startupFromApp" tr = [] \/
     st <> VInt 9 /\ requests_of ZDO "startupFromApp" tr = [[("startdelay", VInt 100)]] /\ exists pre x m2 mid w ind post,
       tr = pre ++ ARequest ZDO "startupFromApp" [("startdelay", VInt 100)] x (Some (Ok m2)) :: mid ++ AAwait w (Ok ind) :: post /\
       says_coordinator ind).
Proof.
  intros v o group backup tr r R. destruct (coordinator_started v o group backup tr r R) as (H & m & c & A & E & Hr & Ha). split; [exact H|]. exists m, c. split; [exact A|].
  split; [exact E|]. destruct (value_eqb c (VInt 9)) eqn:Ec.
  - left. split; [apply int_same, Ec|exact Hr].
  - right. split; [intros ->; discriminate Ec|]. split; [exact Hr|apply Ha; reflexivity].
Qed.
Print Assumptions C56_coordinator_started.
(** an initialisation of a Z-Stack 3 stick forms the network, and waits for the coordinator state *)
Theorem C56_network_formed : forall v o group backup tr r, runs (start_znp (version_of v) o group backup) tr (Returned r) ->
  if match v, r with Stack12, _ | _, Resumed => true | _, _ => false end
  then requests_of APP_CNF "bdbStartCommissioning" tr = []
  else requests_of APP_CNF "bdbStartCommissioning" tr = [[("mode", VInt 4)]; [("mode", VInt 2)]] /\
       exists pre x m w ind post,
         tr = pre ++ ARequest APP_CNF "bdbStartCommissioning" [("mode", VInt 4)] x (Some (Ok m)) :: AAwait w (Ok ind) :: post /\ says_coordinator ind.
Proof. exact network_formed. Qed.
Print Assumptions C56_network_formed.
Example C56_inhabited :
  let x := exec (lit_stick 0 0 []) 100 (lit_start Stack30x lit_options) lit_empty in
  fin_of x = Returned Reset /\ length (requests_of ZDO "startupFromApp" (trace_of x)) = 1%nat /\
  length (requests_of APP_CNF "bdbStartCommissioning" (trace_of x)) = 2%nat.
Proof. vm_compute. repeat split. Qed.

(** ** C57 *)
Theorem C57_defaults : forall c, let o := network_options c in
  taken (fun k => k = []) (cf_key c) [1; 3; 5; 7; 9; 11; 13; 15; 0; 2; 4; 6; 8; 10; 12; 13] (o_key o) /\
  taken (fun p => p = 0) (cf_pan c) 6754 (o_pan o) /\
  taken (fun e => e = []) (cf_ext c) (repeat 221 8) (o_ext o) /\
  taken (fun m => m = 0) (cf_channels c) 2048 (o_channels o) /\
  o_distribute o = false.
Proof. exact options_taken. Qed.
Print Assumptions C57_defaults.
Theorem C57_options_valid : forall c, valid_config c -> wf_options (network_options c) /\ o_channels (network_options c) <> 0.
Proof. exact options_valid. Qed.
Print Assumptions C57_options_valid.
Example C57_inhabited :
  let c := mk_config None (Some 4660) (Some [1; 2; 3; 4; 5; 6; 7; 8]) (Some 0) in
  valid_config c /\ network_options c = mk_options false [1; 3; 5; 7; 9; 11; 13; 15; 0; 2; 4; 6; 8; 10; 12; 13] 4660 [1; 2; 3; 4; 5; 6; 7; 8] 2048.
Proof.
  split; [|vm_compute; reflexivity]. repeat split; try discriminate; cbn [cf_key cf_pan cf_ext cf_channels] in *;
    match goal with E : Some _ = Some _ |- _ => injection E as <- end; try reflexivity; try (repeat constructor; discriminate); discriminate.
Qed.

(** ** C72 *)
Theorem C72_initialises_exactly_if_not_accepted : forall v o group backup s tr r s', wf_options o ->
  runs (start_znp (version_of v) o group backup) tr (Returned r) -> stick s tr s' ->
  accepted v o s /\ Forall harmless tr /\ s' = s /\ r = Resumed \/
  ~ accepted v o s /\ initialised v o tr /\ config_matches v o s' /\ r <> Resumed.
Proof.
  intros v o g b s tr r s' W R S. destruct (accepted_dec v o s) as [Y|N]; [left|right].
  - destruct (accepted_left_alone _ _ _ _ _ _ _ _ W Y R S) as (A & B & C). auto.
  - destruct (differs_initialised _ _ _ _ _ _ _ _ W N R S) as (A & B & C). auto.
Qed.
Print Assumptions C72_initialises_exactly_if_not_accepted.
Example C72_inhabited :
  accepted Stack12 lit_options (put (lit_config Stack12 lit_options) 131 [52; 18]) /\
  fin_of (exec (lit_stick 9 0 []) 100 (lit_start Stack12 lit_options) (put (lit_config Stack12 lit_options) 131 [52; 18])) = Returned Resumed /\
  ~ accepted Stack30x lit_options (put (lit_config Stack30x lit_options) 131 [52; 18]) /\
  fin_of (exec (lit_stick 9 0 []) 100 (lit_start Stack30x lit_options) (put (lit_config Stack30x lit_options) 131 [52; 18])) = Returned Reset.
Proof.
  split; [vm_compute; repeat split; auto|]. split; [vm_compute; reflexivity|]. split; [|vm_compute; reflexivity].
  intros [_ [K|[[K _]|K]]]; vm_compute in K; discriminate K.
Qed.

(** ** C74 *)
Theorem C74_registered_against_the_list : forall v o group backup tr r, runs (start_znp (version_of v) o group backup) tr (Returned r) ->
  exists m rsp, In (AAwait m (Ok rsp)) tr /\ z_sub rsp = ZDO /\ z_cmd rsp = "activeEpRsp" /\
    (forall m' r', In (AAwait m' (Ok r')) tr -> z_cmd r' = "activeEpRsp" -> r' = rsp) /\
    (forall e, In e required_endpoints -> times_registered tr e = if existsb (Z.eqb e) (list_of (z_payload rsp) "activeeplist") then 0%nat else 1%nat) /\
    (forall e, In e (registered_by tr) -> In e required_endpoints /\ ~ In e (list_of (z_payload rsp) "activeeplist")) /\
    (forall a, In a tr -> registers a <> [] -> acknowledged a).
Proof. exact registered_exactly. Qed.
Print Assumptions C74_registered_against_the_list.
Example C74_inhabited :
  let x := exec (lit_stick 9 4660 [1; 11]) 100 (lit_start Stack30x lit_options) (lit_config Stack30x lit_options) in
  fin_of x = Returned Resumed /\ registered_by (trace_of x) = [2; 3; 4; 5; 6; 8; 110; 12; 13; 47; 242].
Proof. vm_compute. repeat split. Qed.
