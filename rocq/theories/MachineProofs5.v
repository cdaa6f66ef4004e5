(** * MachineProofs5: steps of a request that waits, starts or is next in line *)
From Coq Require Import ZifyBool ZifyNat.
From Verif Require Import Base Types Uart Buffalo CmdTable Zpi Api App Machine SpecWire UartProofs SpecCodec SpecApi SpecMachine CodecProofs CodecProofs2 ApiProofs AppProofs
  MachineBase MachineInv MachineInv2 MachineInv3 MachineInv4 MachineInv5 DispatchProofs MachineProofs MachineProofs2 MachineProofs3 MachineProofs4.

Definition at_end (k : task) (r : outcome) : task := mk_task (t_job k) (PDone r) (t_obj k) (t_wid k).
Lemma raise_effect s t k e : get s t = Some k ->
  let s' := raw_raise t (t_job k) e s in
  s_log s' = s_log s ++ [OFreed t; OEnded t (outcome_of_exn (t_job k) e)] /\ s_lock s' = None /\
  get s' t = Some (at_end k (outcome_of_exn (t_job k) e)) /\ s_waiters s' = s_waiters s /\ s_futs s' = s_futs s /\ s_queue s' = s_queue s /\
  s_wire s' = s_wire s.
Proof.
  intro G. cbv zeta. rewrite (raw_raise_nf _ _ _ _ G). opn. rewrite <- app_assoc. repeat split; try reflexivity.
  rewrite assoc_set_get, Z.eqb_refl. unfold get in G. rewrite G. reflexivity.
Qed.
Lemma return_effect s t k r : get s t = Some k ->
  let s' := raw_return t (t_job k) r s in
  s_lock s' = None /\ s_waiters s' = s_waiters s /\ s_futs s' = s_futs s /\ s_queue s' = s_queue s /\ s_wire s' = s_wire s /\
  if settles (t_job k) then
    s_log s' = s_log s ++ [OFreed t] /\ get s' t = Some (mk_task (t_job k) (PSleep (s_now s + 200)) (t_obj k) (t_wid k))
  else s_log s' = s_log s ++ [OFreed t; OEnded t (outcome_of_result (t_job k) r)] /\ get s' t = Some (at_end k (outcome_of_result (t_job k) r)).
Proof.
  intro G. cbv zeta. rewrite (raw_return_nf _ _ _ _ G). destruct (settles (t_job k)); opn; repeat split; try reflexivity;
    repeat rewrite <- app_assoc; try reflexivity; rewrite assoc_set_get, Z.eqb_refl; unfold get in G; rewrite G; reflexivity.
Qed.

(** ** C34: an unexpected status *)
Lemma refused_step s t k i d o r c : get s t = Some k -> t_phase k = PWait i d -> t_obj k = Some o -> z_type o = SREQ ->
  s_futs s i = FDone r -> status_of r = Some (VInt c) -> ~ expects (t_job k) c ->
  let s' := step (ERun t) s in
  s_lock s' = None /\
  match t_wid k with
  | None => s_log s' = s_log s ++ [OFreed t; OEnded t (reported (t_job k) c)] /\ s_waiters s' = s_waiters s /\ s_futs s' = s_futs s
  | Some w =>
    if registered s w then
      s_log s' = s_log s ++ [OCompleted w r; OFreed t; OEnded t (reported (t_job k) c)] /\ 
      s_waiters s' = filter (fun x => negb (w_id x =? w)) (s_waiters s) /\ s_futs s' = resulted (s_futs s) w r
    else s_log s' = s_log s ++ [OFreed t; OEnded t (OExn KeyError)] /\ s_waiters s' = s_waiters s /\ s_futs s' = s_futs s
  end.
Proof.
  intros G Hp Ho Ht Hf Hst Hn. cbv zeta. cbn [step]. unfold resume. rewrite G, Hp, Hf, Ho. unfold request_raw_resume. rewrite Ht.
  assert (Hu : unexpected_status r (expected_of (t_job k)) = Some c) by (apply unexpected_some; auto). rewrite Hu.
  destruct (t_wid k) as [w|].
  - destruct (registered s w).
    + rewrite complete_nf. pose proof (raise_effect (completed w r s) t k (CommandError c) G) as H. cbv zeta in H.
      destruct H as (E1 & E2 & _ & E3 & E4 & _ & _). split; [exact E2|]. rewrite E1, E3, E4, reported_exn. split; [|auto].
      unfold completed, note. fld. rewrite <- app_assoc. reflexivity.
    + pose proof (raise_effect s t k KeyError G) as H. cbv zeta in H. destruct H as (E1 & E2 & _ & E3 & E4 & _ & _). auto.
  - pose proof (raise_effect s t k (CommandError c) G) as H. cbv zeta in H. rewrite reported_exn in H. destruct H as (E1 & E2 & _ & E3 & E4 & _ & _). auto.
Qed.
Lemma accepted_step s t k i d o r : get s t = Some k -> t_phase k = PWait i d -> t_obj k = Some o ->
  s_futs s i = FDone r -> (z_type o = SREQ -> forall v, status_of r = Some v -> exists c, v = VInt c /\ expects (t_job k) c) ->
  let s' := step (ERun t) s in
  s_lock s' = None /\ s_waiters s' = s_waiters s /\ s_futs s' = s_futs s /\ 
  if settles (t_job k) then
    s_log s' = s_log s ++ [OFreed t] /\ get s' t = Some (mk_task (t_job k) (PSleep (s_now s + 200)) (t_obj k) (t_wid k))
  else s_log s' = s_log s ++ [OFreed t; OEnded t (outcome_of_result (t_job k) (Some r))].
Proof.
  intros G Hp Ho Hf Hst. cbv zeta. cbn [step]. unfold resume. rewrite G, Hp, Hf, Ho.
  assert (E : request_raw_resume t k o r s = raw_return t (t_job k) (Some r) s).
  { unfold request_raw_resume. destruct (z_type o) eqn:Ht; try reflexivity.
    destruct (unexpected_status r (expected_of (t_job k))) as [c|] eqn:Hu; [|reflexivity]. exfalso.
    apply unexpected_some in Hu as [H1 H2]. destruct (Hst eq_refl _ H1) as (c' & E & H). injection E as <-. contradiction. }
  rewrite E. pose proof (return_effect s t k (Some r) G) as H. cbv zeta in H. destruct H as (E1 & E2 & E3 & _ & _ & E4).
  split; [exact E1|]. split; [exact E2|]. split; [exact E3|]. rewrite ?Ho in E4. destruct (settles (t_job k)); [exact E4|apply E4].
Qed.

(** ** C37: time limits *)
Lemma waits_for cap s t k i d : 0 <= cap -> reachable cap s -> get s t = Some k -> t_phase k = PWait i d ->
  exists o at_ bs la lb, t_obj k = Some o /\ build (t_job k) = Ok o /\ frame_bytes o bs /\
    (z_type o = SREQ \/ z_type o = AREQ /\ resets o) /\ d = at_ + limit o /\ at_ <= s_now s /\
    s_log s = la ++ OWritten t at_ bs :: lb /\ ~ In (OFreed t) lb /\ s_lock s = Some t /\
    match s_futs s i with
    | FPending => s_now s < d + 100 -> exists w, In w (s_waiters s) /\ w_id w = i /\
        w_matcher w = match z_type o with SREQ => mk_matcher SRSP (z_sub o) (z_cmd o) [] | _ => mk_matcher AREQ SYS "resetInd" [] end
    | FDone r => In (OReceived r) lb /\ (z_type o = SREQ -> response_to o r) /\ (z_type o = AREQ -> z_type r = AREQ /\ z_sub r = SYS /\ z_cmd r = "resetInd")
    | FCancelled => False
    end.
Proof.
  intros Hcap Hr G Hp. pose proof (reachable_inv cap s Hcap Hr) as HI. pose proof (I_waiters _ _ HI t k G) as W. unfold Waits in W. rewrite Hp in W.
  destruct W as (o & m & to & at_ & f & bs & Ho & Hb & Haw & Hf & Hbuf & -> & la & lb & L & Hnf & _ & Hat & Hm & Hfut).
  exists o, at_, bs, la, lb. split; [exact Ho|]. split; [exact Hb|]. split; [exists f; auto|].
  assert (Hty : z_type o = SREQ \/ z_type o = AREQ /\ resets o).
  { destruct (awaited_type _ _ _ Haw) as [E|E]; [left; exact E|right; split; [exact E|apply (awaited_areq _ _ _ Haw E)]]. }
  split; [exact Hty|]. split; [rewrite (awaited_limit _ _ _ Haw); reflexivity|]. split; [exact Hat|]. split; [exact L|]. split; [exact Hnf|]. split.
  { eapply (proj2 (I_lock _ _ HI)); [exact G|]. rewrite Hp. reflexivity. }
  destruct (s_futs s i) as [|r|].
  - intro Hlt. destruct Hfut as [(w & Hw & Hi)|Hge]; [|lia]. exists w. split; [exact Hw|]. split; [exact Hi|].
    rewrite (Hm w Hw Hi). destruct Hty as [E|[E _]]; rewrite E; [apply (awaited_sreq _ _ _ Haw E)|apply (awaited_areq _ _ _ Haw E)].
  - destruct Hfut as [Hmatch Hin]. split; [exact Hin|]. apply matched in Hmatch. split; intro E.
    + rewrite (awaited_sreq _ _ _ Haw E) in Hmatch. exact Hmatch.
    + destruct (awaited_areq _ _ _ Haw E) as [-> _]. exact Hmatch.
  - exact Hfut.
Qed.
Lemma timeout_step s t k i d : get s t = Some k -> t_phase k = PWait i d -> s_futs s i = FPending ->
  let s' := step (ETimeout t) s in
  if d <=? s_now s then s_log s' = s_log s ++ [OFreed t; OEnded t (OExn TimeoutError)] /\ s_lock s' = None else s' = s.
Proof.
  intros G Hp Hf. cbv zeta. cbn [step]. unfold wait_timeout. rewrite G, Hp, Hf. destruct (d <=? s_now s); [|reflexivity].
  pose proof (raise_effect (cancel_fut i s) t k TimeoutError) as H. rewrite cancel_fut_nf in *. specialize (H G). cbv zeta in H.
  destruct H as (E1 & E2 & _). split; [exact E1|exact E2].
Qed.
(** a task that waits and whose limit is over is gone from the link after its timer and its next run *)
Lemma resume_frees s t k i d : get s t = Some k -> t_phase k = PWait i d -> (exists o, t_obj k = Some o) -> (exists r, s_futs s i = FDone r) ->
  s_lock (step (ERun t) s) = None.
Proof.
  intros G Hp (o & Ho) (r & Hf). cbn [step]. unfold resume. rewrite G, Hp, Hf, Ho. unfold request_raw_resume.
  assert (Hr : s_lock (raw_return t (t_job k) (Some r) s) = None) by apply (return_effect s t k (Some r) G).
  destruct (z_type o); try exact Hr. destruct (unexpected_status r (expected_of (t_job k))); [|exact Hr].
  destruct (t_wid k) as [w|]; [destruct (registered s w)|].
  - rewrite complete_nf. apply (raise_effect (completed w r s) t k _ G).
  - apply (raise_effect s t k _ G).
  - apply (raise_effect s t k _ G).
Qed.
Lemma frees_in_time cap s t k i d ms : 0 <= cap -> reachable cap s -> get s t = Some k -> t_phase k = PWait i d -> 0 <= ms -> d <= s_now s + ms ->
  s_lock (run [ETick ms; ETimeout t; ERun t] s) = None.
Proof.
  intros Hcap Hr G Hp Hms Hd. destruct (waits_for cap s t k i d Hcap Hr G Hp) as (o & ? & ? & ? & ? & Ho & _ & _ & _ & _ & _ & _ & _ & _ & Hfut).
  cbn [run fold_left]. replace (step (ETick ms) s) with (set_now (s_now s + ms) s) by (cbn [step]; replace (0 <=? ms) with true by lia; reflexivity).
  set (s1 := set_now (s_now s + ms) s).
  assert (G1 : get s1 t = Some k) by exact G. destruct (s_futs s i) as [|r|] eqn:Ef; [| |contradiction].
  - pose proof (timeout_step s1 t k i d G1 Hp Ef) as H. cbv zeta in H. change (s_now s1) with (s_now s + ms) in H. replace (d <=? s_now s + ms) with true in H by lia.
    assert (Hg : exists r, get (step (ETimeout t) s1) t = Some (at_end k r)).
    { cbn [step]. unfold wait_timeout. rewrite G1, Hp. change (s_futs s1 i) with (s_futs s i). rewrite Ef. change (s_now s1) with (s_now s + ms). replace (d <=? s_now s + ms) with true by lia.
      rewrite cancel_fut_nf. eexists. apply raise_effect. exact G1. }
    destruct Hg as [r Hg]. cbn [step] in *. unfold resume. rewrite Hg. cbn [t_phase at_end]. apply H.
  - assert (E : step (ETimeout t) s1 = s1). { cbn [step]. unfold wait_timeout. rewrite G1, Hp. change (s_futs s1 i) with (s_futs s i). rewrite Ef. reflexivity. }
    rewrite E. eapply resume_frees; [exact G1|exact Hp|eauto|exists r; exact Ef].
Qed.

(** ** C32: whoever is first in line gets the link *)
Lemma granted_log s t k : (exists o, t_obj k = Some o) -> get s t = Some k ->
  exists l, s_log (granted t k s) = s_log s ++ OGranted t :: l.
Proof.
  intros [o Ho] G. unfold granted. rewrite Ho. rewrite (goto_some _ _ _ _ G).
  set (k1 := mk_task (t_job k) PHold (t_obj k) (t_wid k)). set (s1 := note (OGranted t) (set_lock (Some t) (put t k1 s))).
  assert (Hp : prims s1 (request_raw t (t_job k1) o s1)).
  { apply request_raw_prims; [|reflexivity|exact Ho]. change (get (put t k1 s) t = Some k1). rewrite (get_put _ _ _ _ _ G), Z.eqb_refl. reflexivity. }
  destruct (log_prims _ _ Hp) as [l E]. exists l. change (t_job k) with (t_job k1). rewrite E. unfold s1, note. fld. rewrite <- app_assoc. reflexivity.
Qed.
Lemma next_granted cap s t q : 0 <= cap -> reachable cap s -> holder (s_log s) = None -> waiting (s_log s) = t :: q ->
  exists l, s_log (step (ERun t) s) = s_log s ++ OGranted t :: l.
Proof.
  intros Hcap Hr Hh Hw. pose proof (reachable_inv cap s Hcap Hr) as HI. rewrite (proj1 (I_link _ _ HI)) in Hh. rewrite (proj1 (I_waiting _ _ HI)) in Hw.
  destruct (proj1 (proj2 (I_queue _ _ HI)) t) as (k & G & Hq); [rewrite Hw; left; reflexivity|]. fold (get s t) in G.
  pose proof (proj1 (proj2 (I_core _ _ HI)) t k G) as Hk. unfold Task_ok in Hk. destruct (t_phase k) eqn:Hp; try discriminate.
  cbn [step]. unfold resume. rewrite G, Hp, Hh, Hw, Z.eqb_refl. destruct Hk as (o & Ho & _).
  destruct (granted_log (set_queue q s) t k) as [l E]; [eauto|exact G|]. exists l. exact E.
Qed.
Lemma link_comes_free cap s h : 0 <= cap -> reachable cap s -> holder (s_log s) = Some h ->
  exists ms, 0 <= ms <= 30000 /\ holder (s_log (run [ETick ms; ETimeout h; ERun h] s)) = None.
Proof.
  intros Hcap Hr Hh. pose proof (reachable_inv cap s Hcap Hr) as HI. rewrite (proj1 (I_link _ _ HI)) in Hh.
  destruct (holder_waits cap s h Hcap Hr Hh) as (k & i & d & G & Hp).
  destruct (waits_for cap s h k i d Hcap Hr G Hp) as (o & at_ & bs & la & lb & _ & _ & _ & _ & Hd & Hat & _).
  assert (Hl : 0 <= limit o <= 30000) by (unfold limit; destruct (z_type o); try destruct (existsb _ _); lia).
  exists (Z.max 0 (d - s_now s)). split; [lia|].
  assert (Hr' : reachable cap (run [ETick (Z.max 0 (d - s_now s)); ETimeout h; ERun h] s)) by apply reachable_run, Hr.
  rewrite (proj1 (I_link _ _ (reachable_inv cap _ Hcap Hr'))). eapply frees_in_time; try eassumption; lia.
Qed.

(** ** C46 and others: an admitted request with the link free is written at once *)
Lemma send_writes t j f m to bs s : to_buffer f = Ok bs -> s_open s = true ->
  s_wire (send_and_wait t j f m to s) = s_wire s ++ [bs].
Proof.
  intros Hb Ho. unfold send_and_wait, uart_send, gw_send. cbn [s_open wait_for note set_log set_timers set_next set_futs set_waiters]. rewrite Ho, Hb.
  fld. unfold goto. destruct (get _ t); reflexivity.
Qed.
Lemma raw_return_wire t j r s : s_wire (raw_return t j r s) = s_wire s.
Proof.
  unfold raw_return, free_lock, finish, free_sem, goto. 
  repeat match goal with |- context [match ?x with _ => _ end] => destruct x; fld end; reflexivity.
Qed.
Lemma raw_writes t j o f bs s : to_unpi_frame o = Ok f -> to_buffer f = Ok bs -> s_open s = true -> (z_type o = SREQ \/ z_type o = AREQ) ->
  s_wire (request_raw t j o s) = s_wire s ++ [bs].
Proof.
  intros Hf Hb Ho Ht. unfold request_raw. rewrite Hf. destruct Ht as [Ht|Ht]; rewrite Ht; [apply send_writes; assumption|].
  destruct (is_reset_command o); [apply send_writes; assumption|]. unfold uart_send, gw_send. rewrite Ho, Hb.
  rewrite raw_return_wire. reflexivity.
Qed.
Lemma goto_keeps t p s : s_wire (goto t p s) = s_wire s /\ s_open (goto t p s) = s_open s /\ s_lock (goto t p s) = s_lock s /\
  s_queue (goto t p s) = s_queue s /\ s_sem (goto t p s) = s_sem s.
Proof. unfold goto. destruct (get s t); repeat split; reflexivity. Qed.
Lemma granted_writes t k o bs s : t_obj k = Some o -> frame_bytes o bs -> s_open s = true -> (z_type o = SREQ \/ z_type o = AREQ) ->
  s_wire (granted t k s) = s_wire s ++ [bs].
Proof.
  intros Ho (f & Hf & Hb) Hopen Ht. unfold granted. rewrite Ho. destruct (goto_keeps t PHold s) as (E1 & E2 & _).
  rewrite (raw_writes t (t_job k) o f bs); try assumption.
  - unfold note. fld. rewrite E1. reflexivity.
  - unfold note. fld. rewrite E2. exact Hopen.
Qed.
Lemma admitted_writes t k o bs s : t_obj k = Some o -> frame_bytes o bs -> s_open s = true -> (z_type o = SREQ \/ z_type o = AREQ) ->
  s_lock s = None -> s_queue s = [] -> (uses_sem (t_job k) = true -> 0 < s_sem s) ->
  s_wire (acquire_sem t k s) = s_wire s ++ [bs].
Proof.
  intros Ho Hfb Hopen Ht Hl Hq Hs. unfold acquire_sem. destruct (goto_keeps t PAdm s) as (E1 & E2 & E3 & E4 & E5). 
  destruct (uses_sem (t_job k)).
  - specialize (Hs eq_refl). replace (0 <? s_sem s) with true by lia. unfold acquire_lock, note. fld. rewrite E3, E4, Hl, Hq.
    rewrite (granted_writes t k o bs) by (try assumption; fld; rewrite E2; exact Hopen). fld. rewrite E1. reflexivity.
  - unfold acquire_lock. rewrite E3, E4, Hl, Hq. rewrite (granted_writes t k o bs) by (try assumption; rewrite E2; exact Hopen). rewrite E1. reflexivity.
Qed.
Lemma start_writes cap s t k o x bs : 0 <= cap -> reachable cap s -> get s t = Some k -> t_phase k = PStart ->
  build (t_job k) = Ok o -> response_waiter (t_job k) o = Ok x -> frame_bytes o bs -> (z_type o = SREQ \/ z_type o = AREQ) -> s_open s = true ->
  holder (s_log s) = None -> waiting (s_log s) = [] -> Z.of_nat (length (active (s_log s))) < cap ->
  s_wire (step (ERun t) s) = s_wire s ++ [bs].
Proof.
  intros Hcap Hr G Hp Hb Hw Hfb Ht Hopen Hh Hwt Ha. pose proof (reachable_inv cap s Hcap Hr) as HI.
  rewrite (proj1 (I_link _ _ HI)) in Hh. rewrite (proj1 (I_waiting _ _ HI)) in Hwt. pose proof (proj2 (proj2 (I_active _ _ HI))) as Hsem.
  cbn [step]. unfold resume. rewrite G, Hp. unfold start.
  assert (Hmain : s_wire (match build (t_job k) with
    | Err e => finish t (OExn e) s
    | Ok o0 => match response_waiter (t_job k) o0 with
      | Err e => finish t (OExn e) s
      | Ok None => acquire_sem t (mk_task (t_job k) PSem (Some o0) None) (prepared t (mk_task (t_job k) PSem (Some o0) None) s)
      | Ok (Some (m, sequence)) => acquire_sem t (mk_task (t_job k) PSem (Some o0) (Some (s_next s)))
            (prepared t (mk_task (t_job k) PSem (Some o0) (Some (s_next s))) (wait_for m Timeouts_default sequence s))
      end end) = s_wire s ++ [bs]).
  { rewrite Hb, Hw. destruct x as [[m q]|]; (erewrite admitted_writes; [reflexivity|reflexivity|exact Hfb| | | | |]); try assumption; unfold prepared, put, wait_for, note; fld; try assumption; intros; lia. }
  destruct (t_job k); try exact Hmain. discriminate.
Qed.

(** ** C38: which requests wait *)
Lemma not_request_silent cap s t k o at_ bs : 0 <= cap -> reachable cap s -> get s t = Some k -> build (t_job k) = Ok o ->
  z_type o <> SREQ -> z_type o <> AREQ -> ~ In (OWritten t at_ bs) (s_log s).
Proof.
  intros Hcap Hr G Hb H1 H2 Hin. destruct (proj2 (I_wrote _ _ (reachable_inv cap s Hcap Hr)) t at_ bs Hin) as (_ & k' & o' & G' & Hb' & Ht & _).
  rewrite G in G'. injection G' as <-. rewrite Hb in Hb'. injection Hb' as <-. tauto.
Qed.
Lemma not_request_refused cap s t k o r : 0 <= cap -> reachable cap s -> get s t = Some k -> build (t_job k) = Ok o -> (forall m to, t_job k <> JWaitFor m to) ->
  z_type o <> SREQ -> z_type o <> AREQ -> In (OEnded t r) (s_log s) ->
  r = OExn CancelledError \/ (exists e, r = OExn e /\ (response_waiter (t_job k) o = Err e \/ to_unpi_frame o = Err e)) \/ r = OExn GenericException.
Proof.
  intros Hcap Hr G Hb Hj H1 H2 Hin. pose proof (get_job cap s t k _ Hcap Hr G Hin) as HR.
  destruct HR as [|e He|o' e Ho He|o' e Ho He|x Ha|o' m to at_ bs lb r' c Ho Hs Haw Hfb Hout Hi Hm Hu|o' m to at_ bs lb r' c mq Ho Hs|o' m to at_ bs lb Ho Haw|m to r' Hj'|m to Hj'];
    try (rewrite Hb in Ho; injection Ho as <-); try contradiction.
  - auto.
  - congruence.
  - right. left. exists e. auto.
  - destruct He as [He|[([E|E] & _)|(_ & _ & ->)]]; try contradiction.
    + right. left. exists e. split; [|auto]. unfold outcome_of_exn. destruct e; try reflexivity. exfalso. exact (frame_no_cmd _ _ He).
    + right. right. reflexivity.
  - exfalso. inversion Ha as [o' at_ bs Ho Hty|o' m to at_ bs lb r' Ho Haw]; subst; rewrite Hb in Ho; injection Ho as <-; [contradiction|].
    destruct (awaited_type _ _ _ Haw); contradiction.
  - exfalso. destruct (awaited_type _ _ _ Haw); contradiction.
  - exfalso. eapply Hj, Hj'.
  - exfalso. eapply Hj, Hj'.
Qed.
Lemma reset_answer cap s t k o x : 0 <= cap -> reachable cap s -> get s t = Some k -> build (t_job k) = Ok o -> z_type o = AREQ -> resets o ->
  In (OEnded t (ORet x)) (s_log s) -> ~ sends (t_job k) -> (forall z, t_job k <> JPermit z) ->
  exists r at_ bs lb, x = Some r /\ z_type r = AREQ /\ z_sub r = SYS /\ z_cmd r = "resetInd" /\
    frame_bytes o bs /\ outstanding t at_ bs lb (s_log s) /\ In (OReceived r) lb.
Proof.
  intros Hcap Hr G Hb Ht Hres Hin Hns Hnp. pose proof (get_job cap s t k _ Hcap Hr G Hin) as HR.
  remember (ORet x) as out eqn:Eout. destruct HR as [|e He|o' e Ho He|o' e Ho He|y Ha|o' m to at_ bs lb r' c Ho Hs Haw Hfb Hout Hi Hm Hu| | |m to r' Hj Hi Hm|]; try discriminate.
  - unfold outcome_of_exn in Eout. destruct e; try discriminate. destruct (_ && _); discriminate.
  - assert (y = x) by (destruct (t_job k); cbn [outcome_of_result sends] in *; try contradiction; try congruence; exfalso; apply Hns; exact I). subst y.
    inversion Ha as [o' at_ bs Ho Hty Haw Hfb Hout|o' m to at_ bs lb r' Ho Haw Hfb Hout Hi Hm Hu]; subst; rewrite Hb in Ho; injection Ho as <-.
    + exfalso. unfold awaited in Haw. rewrite Ht in Haw. apply is_reset in Hres. rewrite Hres in Haw. discriminate.
    + destruct (awaited_areq _ _ _ Haw Ht) as [-> _]. apply matched in Hm. cbn [m_type m_sub m_cmd] in Hm. destruct Hm as (M1 & M2 & M3).
      exists r', at_, bs, lb. auto 9.
  - rewrite reported_exn in Eout. destruct (t_job k); discriminate.
  - rewrite Hj in Hb. discriminate.
Qed.
Lemma plain_areq cap s t k o x : 0 <= cap -> reachable cap s -> get s t = Some k -> build (t_job k) = Ok o -> z_type o = AREQ -> ~ resets o ->
  (forall i d, t_phase k <> PWait i d) /\
  (In (OEnded t (ORet x)) (s_log s) -> exists at_ bs, frame_bytes o bs /\ outstanding t at_ bs [] (s_log s)).
Proof.
  intros Hcap Hr G Hb Ht Hres. split.
  - intros i d Hp. destruct (waits_for cap s t k i d Hcap Hr G Hp) as (o' & ? & ? & ? & ? & _ & Hb' & _ & Hty & _).
    rewrite Hb in Hb'. injection Hb' as <-. destruct Hty as [E|[_ E]]; [congruence|contradiction].
  - intro Hin. pose proof (get_job cap s t k _ Hcap Hr G Hin) as HR.
    remember (ORet x) as out eqn:Eout. destruct HR as [|e He|o' e Ho He|o' e Ho He|y Ha|o' m to at_ bs lb r' c Ho Hs Haw Hfb Hout Hi Hm Hu| | |m to r' Hj Hi Hm|]; try discriminate.
    + unfold outcome_of_exn in Eout. destruct e; try discriminate. destruct (_ && _); discriminate.
    + inversion Ha as [o' at_ bs Ho Hty Haw Hfb Hout|o' m to at_ bs lb r' Ho Haw Hfb Hout Hi Hm Hu]; subst; rewrite Hb in Ho; injection Ho as <-.
      * eauto.
      * exfalso. destruct (awaited_areq _ _ _ Haw Ht). contradiction.
    + rewrite reported_exn in Eout. destruct (t_job k); discriminate.
    + rewrite Hj in Hb. discriminate.
Qed.

(** ** C46 *)
Lemma permit_bytes z : 0 <= z <= 254 -> exists o, build (JPermit z) = Ok o /\ z_type o = SREQ /\
  frame_bytes o [254; 5; 37; 54; 15; 252; 255; z; 0; xor_all [5; 37; 54; 15; 252; 255; z; 0]].
Proof.
  intro Hz. destruct (permit_built z Hz) as (o & Hb & Ht & Hf). exists o. split; [exact Hb|]. split; [exact Ht|]. exists (mk_frame SREQ ZDO 54 [15; 252; 255; z; 0] None None).
  split; [exact Hf|]. apply (to_buffer_wire (mk_frame SREQ ZDO 54 [15; 252; 255; z; 0] None None)). split; [cbv; split; congruence|]. split; [|cbn [f_data length]; lia].
  repeat constructor; unfold byte_ok; lia.
Qed.
