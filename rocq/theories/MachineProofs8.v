(** * MachineProofs8: a request's first step registers a waiter that carries its sequence number *)
From Coq Require Import ZifyBool ZifyNat.
From Verif Require Import Base Types Uart Buffalo CmdTable Zpi Api App Machine SpecCodec SpecApi SpecMachine CodecProofs CodecProofs2 RequestProofs ApiProofs AppProofs
  MachineBase MachineInv MachineInv2 MachineInv3 MachineInv4 MachineInv5 DispatchProofs MachineProofs MachineProofs2 MachineProofs3.

(** ** sending registers at most waiters for the synchronous response or for the reset indication *)
Definition sync (w : waiter) : Prop := m_type (w_matcher w) = SRSP \/ m_sub (w_matcher w) = SYS.
Definition adds (s s' : st) : Prop := exists l, s_waiters s' = s_waiters s ++ l /\ Forall sync l.
Lemma adds_eq s s' : s_waiters s' = s_waiters s -> adds s s'.
Proof. intro E. exists []. rewrite app_nil_r. split; [exact E|constructor]. Qed.
Lemma adds_from s s1 s' : s_waiters s1 = s_waiters s -> adds s1 s' -> adds s s'.
Proof. intros E (l & H & F). exists l. rewrite H, E. auto. Qed.
Lemma adds_send_and_wait t j f m to s : m_type m = SRSP \/ m_sub m = SYS -> adds s (send_and_wait t j f m to s).
Proof.
  intro H. unfold send_and_wait. pose proof (waiters_uart_send t f (wait_for m to None s)) as E.
  exists [mk_waiter (s_next s) m to None]. split; [|constructor; [exact H|constructor]].
  destruct (uart_send t f (wait_for m to None s)) as [s1 [r|e]]; cbn [fst] in E.
  - rewrite waiters_goto, E. reflexivity.
  - rewrite waiters_raw_raise, E. reflexivity.
Qed.
Lemma adds_request_raw t j o s : adds s (request_raw t j o s).
Proof.
  unfold request_raw. destruct (to_unpi_frame o) as [f|e]; [|apply adds_eq, waiters_raw_raise].
  destruct (z_type o); try (apply adds_eq, waiters_raw_raise); [apply adds_send_and_wait; left; reflexivity|].
  destruct (is_reset_command o); [apply adds_send_and_wait; right; reflexivity|]. pose proof (waiters_uart_send t f s) as E.
  destruct (uart_send t f s) as [s1 [r|e]]; cbn [fst] in E; apply adds_eq;
    [rewrite waiters_raw_return|rewrite waiters_raw_raise]; exact E.
Qed.
Lemma adds_granted t k s : adds s (granted t k s).
Proof.
  unfold granted. destruct (t_obj k).
  - eapply adds_from; [|apply adds_request_raw]. unfold note. fld. apply waiters_goto.
  - apply adds_eq. unfold note. fld. apply waiters_goto.
Qed.
Lemma adds_acquire_lock t k s : adds s (acquire_lock t k s).
Proof.
  unfold acquire_lock. destruct (s_lock s); [|destruct (s_queue s); [apply adds_granted|]];
    apply adds_eq; unfold note; fld; apply waiters_goto.
Qed.
Lemma adds_acquire_sem t k s : adds s (acquire_sem t k s).
Proof.
  unfold acquire_sem. destruct (uses_sem (t_job k)); [destruct (0 <? s_sem s); [|apply adds_eq; reflexivity]|];
    (eapply adds_from; [|apply adds_acquire_lock]); unfold note; fld; apply waiters_goto.
Qed.

Lemma asks_not_sync rsp nwk w : sync w -> asks_for rsp nwk w = false.
Proof.
  intros [H|H]; unfold asks_for; rewrite H; [reflexivity|].
  change (sub_eqb SYS ZDO) with false. rewrite andb_false_r. reflexivity.
Qed.
Lemma asks_none rsp nwk l : Forall sync l -> filter (asks_for rsp nwk) l = [].
Proof. induction 1 as [|w l H F IH]; [reflexivity|]. cbn [filter]. rewrite (asks_not_sync _ _ _ H). exact IH. Qed.

(** the waiter that is created for an addressed ZDO request *)
Lemma zdo_created nwk profile cluster rsp src_ep dst_ep sequence data radius mode o s :
  profile <> 260 -> In (cluster, rsp) addressed_requests -> 0 <= nwk < 65536 -> bytes_ok data ->
  from_cluster nwk profile cluster src_ep dst_ep sequence data radius mode = Ok o ->
  create_response_waiter o s = Ok (Some (mk_matcher AREQ ZDO rsp [("srcaddr", VInt nwk)], s)).
Proof.
  intros Hp Hin Hn Hd H. destruct (addressed_row _ _ Hin) as (c & ps & Hc & <- & Ht & He & Hr & Hs & [d Hf] & Hps).
  destruct (zdo_dst nwk profile c ps _ _ _ _ _ _ o Hp Hc Hps Hn Hd H) as (Hdst & Hty & Hsub & Hcmd).
  unfold create_response_waiter. rewrite Hty, Ht, Hcmd, Hs, He, Hr, Hsub. cbn [ct_eqb andb].
  change (ct_val SREQ =? ct_val SREQ) with true. cbn [andb definition bind]. rewrite Hf.
  unfold dict_getE. rewrite Hdst. reflexivity.
Qed.
Lemma in_coroutine_ok (x : result zpi) y : in_coroutine x = Ok y -> x = Ok y.
Proof. destruct x as [|[]]; cbn; congruence. Qed.

Lemma start_registers s t k o m q : get s t = Some k -> t_phase k = PStart -> (forall m to, t_job k <> JWaitFor m to) ->
  build (t_job k) = Ok o -> response_waiter (t_job k) o = Ok (Some (m, q)) ->
  exists l, s_waiters (step (ERun t) s) = s_waiters s ++ mk_waiter (s_next s) m 10000 q :: l /\ Forall sync l.
Proof.
  intros G Hp Hj Hb Hr. cbn [step]. unfold resume. rewrite G, Hp. unfold start.
  destruct (t_job k) as [| | | | | |m0 to0] eqn:Ej; try (exfalso; eapply Hj; reflexivity); rewrite Hb, Hr; cbv zeta;
    match goal with |- context [acquire_sem ?t ?k ?s] => destruct (adds_acquire_sem t k s) as (l & E & F) end;
    exists l; (split; [|exact F]); rewrite E; unfold prepared; fld; rewrite <- app_assoc; reflexivity.
Qed.

Lemma request_registers s t k nwk profile cluster rsp src_ep dst_ep sequence data :
  get s t = Some k -> t_phase k = PStart -> t_job k = JRequest nwk profile cluster src_ep dst_ep sequence data true ->
  profile <> 260 -> In (cluster, rsp) addressed_requests -> 0 <= nwk < 65536 -> bytes_ok data ->
  (exists o, build (t_job k) = Ok o) ->
  exists w, w_seq w = Some sequence /\
    filter (asks_for rsp nwk) (s_waiters (step (ERun t) s)) = filter (asks_for rsp nwk) (s_waiters s) ++ [w] /\
    forall rsp' nwk', (rsp', nwk') <> (rsp, nwk) ->
      filter (asks_for rsp' nwk') (s_waiters (step (ERun t) s)) = filter (asks_for rsp' nwk') (s_waiters s).
Proof.
  intros G Hp Hj Hpr Hin Hn Hd (o & Hb).
  assert (Hr : response_waiter (t_job k) o = Ok (Some (mk_matcher AREQ ZDO rsp [("srcaddr", VInt nwk)], Some sequence))).
  { rewrite Hj in *. cbn [build response_waiter] in *. unfold build_request in Hb. apply in_coroutine_ok in Hb.
    eapply zdo_created; eassumption. }
  destruct (start_registers s t k o _ _ G Hp ltac:(rewrite Hj; discriminate) Hb Hr) as (l & E & F).
  eexists. split; [|split].
  2:{ rewrite E, filter_app. cbn [filter]. rewrite (asks_none _ _ l F). unfold asks_for at 2. cbn [w_matcher m_type m_sub m_cmd m_payload].
      rewrite !String.eqb_refl, Z.eqb_refl. change (ct_eqb AREQ AREQ) with true. change (sub_eqb ZDO ZDO) with true. cbn [andb]. reflexivity. }
  - reflexivity.
  - intros rsp' nwk' Hne. rewrite E, filter_app. cbn [filter]. rewrite (asks_none _ _ l F). unfold asks_for at 2. cbn [w_matcher m_type m_sub m_cmd m_payload].
    rewrite String.eqb_refl. change (ct_eqb AREQ AREQ) with true. change (sub_eqb ZDO ZDO) with true. cbn [andb].
    destruct (String.eqb_spec rsp rsp') as [->|]; cbn [andb]; [|apply app_nil_r].
    destruct (Z.eqb_spec nwk nwk') as [->|]; [congruence|apply app_nil_r].
Qed.

(** from the request to the delivery of its reply, whatever happens in between *)
Lemma request_to_delivery cap s t k nwk profile cluster rsp rcluster src_ep dst_ep sequence data :
  0 <= cap -> reachable cap s ->
  get s t = Some k -> t_phase k = PStart -> t_job k = JRequest nwk profile cluster src_ep dst_ep sequence data true ->
  profile <> 260 -> In (cluster, rsp) addressed_requests -> In (rsp, rcluster) passed_replies -> 0 <= nwk < 65536 -> bytes_ok data ->
  (exists o, build (t_job k) = Ok o) ->
  exists w, filter (asks_for rsp nwk) (s_waiters (step (ERun t) s)) = filter (asks_for rsp nwk) (s_waiters s) ++ [w] /\
    forall es f r v ieee rest, let s2 := run es (step (ERun t) s) in
      s_app s2 = true -> s_version s2 = Some v -> first_with nwk ieee (s_devs s2) ->
      (forall w, In w (s_waiters s2) -> m_type (w_matcher w) = AREQ -> m_sub (w_matcher w) = ZDO -> m_cmd (w_matcher w) = rsp ->
         (exists a, m_payload (w_matcher w) = [("srcaddr", VInt a)]) /\ exists q, w_seq w = Some q /\ 1 <= q <= 255) ->
      filter (asks_for rsp nwk) (s_waiters s2) = w :: rest ->
      bytes_ok (f_data f) -> from_unpi_frame f = Ok r -> replies rsp nwk r ->
      exists n body, Forall2 masked (firstn n (f_data f)) body /\ (rsp <> "mgmtLqiRsp" -> body = firstn n (f_data f)) /\
        (forall m, (m < n)%nat -> read_parameters (firstn m (f_data f)) (z_params r) = Err OverflowError) /\
        messages (s_log (fst (data_received s2 f))) = messages (s_log s2) ++ [sequence :: skipn 2 body].
Proof.
  intros Hcap Hr G Hp Hj Hpr Hin Hps Hn Hd Hb.
  destruct (request_registers s t k nwk profile cluster rsp src_ep dst_ep sequence data G Hp Hj Hpr Hin Hn Hd Hb) as (w & Hq & Ef & _).
  exists w. split; [exact Ef|]. intros es f r v ieee rest s2 Ha Hv Hdev Hw Hfil Hok Hf Hrep.
  assert (Hc : Core s2) by (unfold s2; apply run_core; apply (I_core cap); apply reachable_inv; [exact Hcap|apply reachable_step, Hr]).
  destruct (reply_step rsp rcluster nwk v ieee Hps s2 f r w rest) as (_ & _ & _ & _ & q & n & body & Hq' & Hm & Hex & Hmin & HM); try assumption.
  { split; [exact Hc|]. repeat (split; [assumption|]). exact Hw. }
  rewrite Hq in Hq'. injection Hq' as <-. exists n, body. auto.
Qed.
