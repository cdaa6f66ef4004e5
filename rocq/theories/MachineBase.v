(** * MachineBase: primitive transitions of the machine and the decomposition of its steps into them.
    Everything here is auxiliary to the proofs; the properties are stated in PropsMachine.v. *)
From Coq Require Import ZifyBool ZifyNat.
From Verif Require Import Base Types Uart Buffalo CmdTable Zpi Api App Machine.

Ltac fld := cbn [s_next s_waiters s_futs s_timers s_now s_wire s_open s_buf s_lock s_queue s_sem s_tasks s_ntid s_version s_devs s_app s_log set_next set_waiters set_futs set_timers set_now set_wire set_open set_buf set_lock set_queue set_sem set_tasks set_ntid set_version set_devs set_app set_log note put spawn wait_for get t_job t_phase t_obj t_wid w_id w_matcher w_timeout w_seq].
Ltac fldin H := cbn [s_next s_waiters s_futs s_timers s_now s_wire s_open s_buf s_lock s_queue s_sem s_tasks s_ntid s_version s_devs s_app s_log set_next set_waiters set_futs set_timers set_now set_wire set_open set_buf set_lock set_queue set_sem set_tasks set_ntid set_version set_devs set_app set_log note put spawn wait_for get t_job t_phase t_obj t_wid w_id w_matcher w_timeout w_seq] in H.
Ltac flda := cbn [s_next s_waiters s_futs s_timers s_now s_wire s_open s_buf s_lock s_queue s_sem s_tasks s_ntid s_version s_devs s_app s_log set_next set_waiters set_futs set_timers set_now set_wire set_open set_buf set_lock set_queue set_sem set_tasks set_ntid set_version set_devs set_app set_log note put spawn wait_for get t_job t_phase t_obj t_wid w_id w_matcher w_timeout w_seq] in *.

(** ** normal forms *)
Lemma goto_some s t k p : get s t = Some k -> goto t p s = put t (mk_task (t_job k) p (t_obj k) (t_wid k)) s.
Proof. intro H. unfold goto. rewrite H. reflexivity. Qed.
Lemma free_sem_nf j s : free_sem j s = set_sem (s_sem s + (if uses_sem j then 1 else 0)) s.
Proof. unfold free_sem. destruct (uses_sem j); [reflexivity|]. destruct s; fld. rewrite Z.add_0_r. reflexivity. Qed.
Definition cancelled (f : Z -> fstate) (i : Z) : Z -> fstate := match f i with FPending => upd f i FCancelled | _ => f end.
Lemma cancel_fut_nf i s : cancel_fut i s = set_futs (cancelled (s_futs s) i) s.
Proof. unfold cancel_fut, cancelled. destruct (s_futs s i); try reflexivity; destruct s; reflexivity. Qed.
Definition resulted (f : Z -> fstate) (i : Z) (o : zpi) : Z -> fstate :=
  upd f i (match f i with FPending => FDone o | x => x end).
Definition completed (i : Z) (o : zpi) (s : st) : st :=
  note (OCompleted i o) (set_futs (resulted (s_futs s) i o) (unregister i s)).
Lemma complete_nf i o s : complete i o s = (completed i o s, Ok tt).
Proof. unfold complete, completed, resulted, set_result, note, unregister. fld. destruct (s_futs s i); reflexivity. Qed.

Lemma assoc_set_get {A} (l : list (Z * A)) t v t' :
  assoc t' (assoc_set t v l) = if t =? t' then (match assoc t l with Some _ => Some v | None => None end) else assoc t' l.
Proof.
  induction l as [|[k w] l IH]; cbn [assoc_set assoc].
  - destruct (t =? t'); reflexivity.
  - destruct (Z.eqb_spec k t) as [->|Hk]; cbn [assoc].
    + destruct (Z.eqb_spec t t'); reflexivity.
    + destruct (Z.eqb_spec k t') as [->|Hk'].
      * destruct (Z.eqb_spec t t'); [congruence|reflexivity].
      * exact IH.
Qed.
Lemma assoc_snoc {A} (l : list (Z * A)) t v t' :
  assoc t' (l ++ [(t, v)]) = match assoc t' l with Some x => Some x | None => if t =? t' then Some v else None end.
Proof.
  induction l as [|[k w] l IH]; cbn [app assoc]; [reflexivity|].
  destruct (k =? t'); [reflexivity|exact IH].
Qed.
Lemma get_put s t k k0 t' : get s t = Some k0 -> get (put t k s) t' = if t =? t' then Some k else get s t'.
Proof. intro H. unfold get in *. fld. rewrite assoc_set_get, H. reflexivity. Qed.

(** ** what a request awaits *)
Definition awaited (o : zpi) : option (matcher * Z) :=
  match z_type o with
  | SREQ => Some (mk_matcher SRSP (z_sub o) (z_cmd o) [], sreq_timeout (z_cmd o))
  | AREQ => if is_reset_command o then Some (mk_matcher AREQ SYS "resetInd" [], Timeouts_reset) else None
  | _ => None
  end.

(** [o] was received in the current atomic step *)
Definition recent (o : zpi) (l : list obs) : Prop :=
  exists a b, l = a ++ OReceived o :: b /\ Forall (fun x => exists i p, x = OCompleted i p) b.

(** ** primitive transitions *)
Definition written (t : Z) (bs : list Z) (s : st) : st :=
  note (OWritten t (s_now s) bs) (set_wire (s_wire s ++ [bs]) s).

Inductive prim : st -> st -> Prop :=
| P_spawn s j : prim s (spawn j s)
| P_fail_start s t k e : get s t = Some k -> t_phase k = PStart ->
    (e = CancelledError \/ build (t_job k) = Err e \/ (exists o, build (t_job k) = Ok o /\ response_waiter (t_job k) o = Err e)) ->
    prim s (finish t (OExn e) s)
| P_prepare s t k o : get s t = Some k -> t_phase k = PStart -> build (t_job k) = Ok o ->
    response_waiter (t_job k) o = Ok None -> prim s (put t (mk_task (t_job k) PSem (Some o) None) s)
| P_prepare_w s t k o m q : get s t = Some k -> t_phase k = PStart -> build (t_job k) = Ok o ->
    response_waiter (t_job k) o = Ok (Some (m, q)) ->
    prim s (put t (mk_task (t_job k) PSem (Some o) (Some (s_next s))) (wait_for m Timeouts_default q s))
| P_reg s t k m to : get s t = Some k -> t_phase k = PStart -> t_job k = JWaitFor m to ->
    prim s (put t (mk_task (t_job k) (PReg (s_next s) to) (t_obj k) (t_wid k)) (wait_for m to None s))
| P_admit s t k : get s t = Some k -> t_phase k = PSem -> uses_sem (t_job k) = true -> 0 < s_sem s ->
    prim s (note (OAdmitted t) (set_sem (s_sem s - 1) (goto t PAdm s)))
| P_admit0 s t k : get s t = Some k -> t_phase k = PSem -> uses_sem (t_job k) = false -> prim s (goto t PAdm s)
| P_queue s t k : get s t = Some k -> t_phase k = PAdm -> (s_lock s <> None \/ s_queue s <> []) ->
    prim s (note (OQueued t) (set_queue (s_queue s ++ [t]) (goto t PLock s)))
| P_grab s t k : get s t = Some k -> t_phase k = PAdm -> s_lock s = None -> s_queue s = [] ->
    prim s (note (OGranted t) (set_lock (Some t) (goto t PHold s)))
| P_grant s t k q : get s t = Some k -> t_phase k = PLock -> s_lock s = None -> s_queue s = t :: q ->
    prim s (note (OGranted t) (set_lock (Some t) (goto t PHold (set_queue q s))))
| P_register s t k o m to : get s t = Some k -> t_phase k = PHold -> t_obj k = Some o -> awaited o = Some (m, to) ->
    prim s (wait_for m to None s)
| P_send s t k o m to f bs : get s t = Some k -> t_phase k = PHold -> t_obj k = Some o -> awaited o = Some (m, to) ->
    to_unpi_frame o = Ok f -> to_buffer f = Ok bs -> s_open s = true ->
    prim s (put t (mk_task (t_job k) (PWait (s_next s) (s_now s + to)) (t_obj k) (t_wid k)) (written t bs (wait_for m to None s)))
| P_send_only s t k o f bs : get s t = Some k -> t_phase k = PHold -> t_obj k = Some o -> z_type o = AREQ ->
    awaited o = None -> to_unpi_frame o = Ok f -> to_buffer f = Ok bs -> s_open s = true ->
    prim s (raw_return t (t_job k) None (written t bs s))
| P_raise_hold s t k o e : get s t = Some k -> t_phase k = PHold -> t_obj k = Some o ->
    (to_unpi_frame o = Err e \/
     (z_type o = AREQ \/ z_type o = SREQ) /\ (e = AttributeError /\ s_open s = false \/ exists f, to_unpi_frame o = Ok f /\ to_buffer f = Err e) \/
     z_type o <> AREQ /\ z_type o <> SREQ /\ e = GenericException) ->
    prim s (raw_raise t (t_job k) e s)
| P_return s t k i d o r : get s t = Some k -> t_phase k = PWait i d -> t_obj k = Some o -> s_futs s i = FDone r ->
    (z_type o = SREQ -> unexpected_status r (expected_of (t_job k)) = None) ->
    prim s (raw_return t (t_job k) (Some r) s)
| P_refused s t k i d o r c : get s t = Some k -> t_phase k = PWait i d -> t_obj k = Some o -> s_futs s i = FDone r ->
    z_type o = SREQ -> unexpected_status r (expected_of (t_job k)) = Some c -> t_wid k = None ->
    prim s (raw_raise t (t_job k) (CommandError c) s)
| P_refused_w s t k i d o r c j : get s t = Some k -> t_phase k = PWait i d -> t_obj k = Some o -> s_futs s i = FDone r ->
    z_type o = SREQ -> unexpected_status r (expected_of (t_job k)) = Some c -> t_wid k = Some j -> registered s j = true ->
    prim s (raw_raise t (t_job k) (CommandError c) (completed j r s))
| P_refused_lost s t k i d o r c j : get s t = Some k -> t_phase k = PWait i d -> t_obj k = Some o -> s_futs s i = FDone r ->
    z_type o = SREQ -> unexpected_status r (expected_of (t_job k)) = Some c -> t_wid k = Some j -> registered s j = false ->
    prim s (raw_raise t (t_job k) KeyError s)
| P_timeout s t k i d : get s t = Some k -> t_phase k = PWait i d -> s_futs s i = FPending -> d <= s_now s ->
    prim s (raw_raise t (t_job k) TimeoutError (cancel_fut i s))
| P_cancel_wait s t k i d : get s t = Some k -> t_phase k = PWait i d ->
    prim s (raw_raise t (t_job k) CancelledError (cancel_fut i s))
| P_cancel_sem s t k : get s t = Some k -> t_phase k = PSem -> prim s (finish t (OExn CancelledError) s)
| P_cancel_lock s t k : get s t = Some k -> t_phase k = PLock ->
    prim s (finish t (OExn CancelledError) (free_sem (t_job k) (dequeue t s)))
| P_awake s t k u : get s t = Some k -> t_phase k = PSleep u -> u <= s_now s ->
    prim s (finish t (outcome_of_result (t_job k) None) (free_sem (t_job k) s))
| P_cancel_sleep s t k u : get s t = Some k -> t_phase k = PSleep u ->
    prim s (finish t (OExn CancelledError) (free_sem (t_job k) s))
| P_await s t k i to : get s t = Some k -> t_phase k = PReg i to -> prim s (goto t (PAwait i (s_now s + to)) s)
| P_await_done s t k i d r : get s t = Some k -> t_phase k = PAwait i d -> s_futs s i = FDone r ->
    prim s (finish t (ORet (Some r)) s)
| P_await_timeout s t k i d : get s t = Some k -> t_phase k = PAwait i d -> s_futs s i = FPending -> d <= s_now s ->
    prim s (finish t (OExn TimeoutError) (cancel_fut i s))
| P_await_cancel s t k i d : get s t = Some k -> t_phase k = PAwait i d ->
    prim s (finish t (OExn CancelledError) (cancel_fut i s))
| P_reg_cancel s t k i to : get s t = Some k -> t_phase k = PReg i to -> prim s (finish t (OExn CancelledError) s)
| P_cleanup s i : prim s (cleanup i s)
| P_tick s ms : 0 <= ms -> prim s (set_now (s_now s + ms) s)
| P_complete s w o : In w (s_waiters s) -> waiter_match (w_matcher w) o = Ok true -> recent o (s_log s) ->
    prim s (completed (w_id w) o s)
| P_received s o f : from_unpi_frame f = Ok o -> prim s (note (OReceived o) s)
| P_effect s e : prim s (note (OEffect e) s)
| P_raised s e : prim s (note (ORaised e) s)
| P_devs s d : prim s (set_devs d s)
| P_buf s b : prim s (set_buf b s)
| P_open s : prim s (set_open false s)
| P_version s v : prim s (set_version v s).

Inductive prims : st -> st -> Prop :=
| prims_nil s : prims s s
| prims_cons s1 s2 s3 : prim s1 s2 -> prims s2 s3 -> prims s1 s3.
Lemma prims_one s1 s2 : prim s1 s2 -> prims s1 s2.
Proof. intro H. econstructor; [exact H|constructor]. Qed.
Lemma prims_app s1 s2 s3 : prims s1 s2 -> prims s2 s3 -> prims s1 s3.
Proof. induction 1; [auto|]. intro. econstructor; eauto. Qed.
Lemma prims_inv (P : st -> Prop) : (forall s s', prim s s' -> P s -> P s') -> forall s s', prims s s' -> P s -> P s'.
Proof. intros H s s'. induction 1; eauto. Qed.

(** ** every step is a sequence of primitive transitions *)
Lemma uart_send_cases t f s : 
  (s_open s = false /\ uart_send t f s = (s, Err AttributeError)) \/
  (s_open s = true /\ exists bs, to_buffer f = Ok bs /\ uart_send t f s = (written t bs s, Ok tt)) \/
  (s_open s = true /\ exists e, to_buffer f = Err e /\ uart_send t f s = (s, Err e)).
Proof.
  unfold uart_send. destruct (s_open s); [right|left; auto]. unfold gw_send.
  destruct (to_buffer f) as [bs|e]; [left|right]; (split; [reflexivity|]); eexists; (split; [reflexivity|]); [|reflexivity].
  cbn [concat app]. rewrite app_nil_r. reflexivity.
Qed.

Lemma get_wait_for s m to q t : get (wait_for m to q s) t = get s t.
Proof. reflexivity. Qed.
Lemma get_written s t' bs t : get (written t' bs s) t = get s t.
Proof. reflexivity. Qed.

Lemma awaited_sreq o : z_type o = SREQ -> awaited o = Some (mk_matcher SRSP (z_sub o) (z_cmd o) [], sreq_timeout (z_cmd o)).
Proof. intro H. unfold awaited. rewrite H. reflexivity. Qed.

Lemma send_and_wait_prims s t k o m to f : get s t = Some k -> t_phase k = PHold -> t_obj k = Some o ->
  awaited o = Some (m, to) -> to_unpi_frame o = Ok f -> prims s (send_and_wait t (t_job k) f m to s).
Proof.
  intros Hg Hp Ho Ha Hf. unfold send_and_wait.
  assert (Hty : z_type o = AREQ \/ z_type o = SREQ).
  { unfold awaited in Ha. destruct (z_type o); try discriminate; auto. }
  destruct (uart_send_cases t f (wait_for m to None s)) as [[Hop E]|[[Hop (bs & Hb & E)]|[Hop (e & Hb & E)]]]; rewrite E.
  - eapply prims_cons; [eapply P_register; eassumption|]. apply prims_one.
    eapply P_raise_hold; [rewrite get_wait_for; exact Hg|exact Hp|exact Ho|]. right. left. split; [exact Hty|]. left. split; [reflexivity|exact Hop].
  - rewrite (goto_some _ _ k) by (rewrite get_written, get_wait_for; exact Hg).
    change (s_now (written t bs (wait_for m to None s))) with (s_now s).
    apply prims_one. eapply P_send; eassumption.
  - eapply prims_cons; [eapply P_register; eassumption|]. apply prims_one.
    eapply P_raise_hold; [rewrite get_wait_for; exact Hg|exact Hp|exact Ho|]. right. left. split; [exact Hty|]. right. exists f. split; [exact Hf|exact Hb].
Qed.

Lemma request_raw_prims s t k o : get s t = Some k -> t_phase k = PHold -> t_obj k = Some o ->
  prims s (request_raw t (t_job k) o s).
Proof.
  intros Hg Hp Ho. unfold request_raw.
  destruct (to_unpi_frame o) as [f|e] eqn:Hf; [|apply prims_one; eapply P_raise_hold; eauto].
  destruct (z_type o) eqn:Ht.
  - apply prims_one. eapply P_raise_hold; eauto. right. right. rewrite Ht. repeat split; discriminate.
  - eapply send_and_wait_prims; eauto. unfold awaited. rewrite Ht. reflexivity.
  - destruct (is_reset_command o) eqn:Hr.
    + eapply send_and_wait_prims; eauto. unfold awaited. rewrite Ht, Hr. reflexivity.
    + assert (Ha : awaited o = None) by (unfold awaited; rewrite Ht, Hr; reflexivity).
      destruct (uart_send_cases t f s) as [[Hop E]|[[Hop (bs & Hb & E)]|[Hop (e & Hb & E)]]]; rewrite E.
      * apply prims_one. eapply P_raise_hold; eauto. right. left. split; [auto|]. left. auto.
      * apply prims_one. eapply P_send_only; eauto.
      * apply prims_one. eapply P_raise_hold; eauto. right. left. split; [auto|]. right. eauto.
  - apply prims_one. eapply P_raise_hold; eauto. right. right. rewrite Ht. repeat split; discriminate.
Qed.

Lemma granted_prims s t k k0 : get s t = Some k0 -> t_job k0 = t_job k -> t_obj k0 = t_obj k ->
  prim s (note (OGranted t) (set_lock (Some t) (goto t PHold s))) -> prims s (granted t k s).
Proof.
  intros Hg Hj Ho Hp. unfold granted. eapply prims_cons; [exact Hp|].
  destruct (t_obj k) as [o|] eqn:Eo; [|constructor].
  rewrite (goto_some _ _ _ _ Hg). rewrite <- Hj.
  set (k1 := mk_task (t_job k0) PHold (t_obj k0) (t_wid k0)).
  change (t_job k0) with (t_job k1). apply request_raw_prims; [|reflexivity|unfold k1; cbn [t_obj]; congruence].
  change (get (put t k1 s) t = Some k1). rewrite (get_put _ _ _ _ _ Hg), Z.eqb_refl. reflexivity.
Qed.

Lemma acquire_lock_prims s t k k0 : get s t = Some k0 -> t_phase k0 = PAdm -> t_job k0 = t_job k -> t_obj k0 = t_obj k ->
  prims s (acquire_lock t k s).
Proof.
  intros Hg Hp Hj Ho. unfold acquire_lock. destruct (s_lock s) eqn:El.
  - apply prims_one. eapply P_queue; [exact Hg|exact Hp|]. left. congruence.
  - destruct (s_queue s) as [|h q] eqn:Eq.
    + eapply granted_prims; try eassumption. eapply P_grab; eassumption.
    + rewrite <- Eq. apply prims_one. eapply P_queue; [exact Hg|exact Hp|]. right. congruence.
Qed.

Lemma acquire_sem_prims s t k : get s t = Some k -> t_phase k = PSem -> prims s (acquire_sem t k s).
Proof.
  intros Hg Hp. unfold acquire_sem. destruct (uses_sem (t_job k)) eqn:Hu.
  - destruct (Z.ltb_spec 0 (s_sem s)) as [Hs|Hs]; [|constructor].
    eapply prims_cons; [eapply P_admit; eassumption|]. rewrite (goto_some _ _ _ _ Hg).
    set (k1 := mk_task (t_job k) PAdm (t_obj k) (t_wid k)).
    apply (acquire_lock_prims _ _ _ k1); try reflexivity.
    change (get (put t k1 s) t = Some k1). rewrite (get_put _ _ _ _ _ Hg), Z.eqb_refl. reflexivity.
  - eapply prims_cons; [eapply P_admit0; eassumption|]. rewrite (goto_some _ _ _ _ Hg).
    set (k1 := mk_task (t_job k) PAdm (t_obj k) (t_wid k)).
    apply (acquire_lock_prims _ _ _ k1); try reflexivity.
    rewrite (get_put _ _ _ _ _ Hg), Z.eqb_refl. reflexivity.
Qed.

Lemma start_prims s t k : get s t = Some k -> t_phase k = PStart -> prims s (start t k s).
Proof.
  intros Hg Hp. unfold start.
  assert (Hmain : prims s
    (match build (t_job k) with
     | Err e => finish t (OExn e) s
     | Ok o =>
       match response_waiter (t_job k) o with
       | Err e => finish t (OExn e) s
       | Ok None => acquire_sem t (mk_task (t_job k) PSem (Some o) None) (put t (mk_task (t_job k) PSem (Some o) None) s)
       | Ok (Some (m, sequence)) =>
           acquire_sem t (mk_task (t_job k) PSem (Some o) (Some (s_next s)))
             (put t (mk_task (t_job k) PSem (Some o) (Some (s_next s))) (wait_for m Timeouts_default sequence s))
       end
     end)).
  { destruct (build (t_job k)) as [o|e] eqn:Hb; [|apply prims_one; eapply P_fail_start; eauto].
    destruct (response_waiter (t_job k) o) as [[[m q]|]|e] eqn:Hr.
    - eapply prims_cons; [eapply P_prepare_w; eassumption|].
      apply acquire_sem_prims; [|reflexivity]. rewrite (get_put _ _ _ k); [rewrite Z.eqb_refl; reflexivity|exact Hg].
    - eapply prims_cons; [eapply P_prepare; eassumption|].
      apply acquire_sem_prims; [|reflexivity]. rewrite (get_put _ _ _ k); [rewrite Z.eqb_refl; reflexivity|exact Hg].
    - apply prims_one. eapply P_fail_start; eauto. }
  destruct (t_job k) eqn:Hj; try exact Hmain.
  clear Hmain. rewrite (goto_some _ _ k) by exact Hg. apply prims_one. eapply P_reg; eassumption.
Qed.

Lemma resume_prims s t : prims s (resume t s).
Proof.
  unfold resume. destruct (get s t) as [k|] eqn:Hg; [|constructor].
  destruct (t_phase k) eqn:Hp; try constructor.
  - apply start_prims; assumption.
  - apply acquire_sem_prims; assumption.
  - destruct (s_lock s) eqn:El; [constructor|]. destruct (s_queue s) as [|h q] eqn:Eq; [constructor|].
    destruct (Z.eqb_spec h t) as [->|]; [|constructor].
    unfold granted. eapply prims_cons; [eapply P_grant; eassumption|].
    destruct (t_obj k) as [o|] eqn:Eo; [|constructor].
    rewrite (goto_some _ _ k) by exact Hg.
    set (k1 := mk_task (t_job k) PHold (t_obj k) (t_wid k)).
    change (t_job k) with (t_job k1). apply request_raw_prims; [|reflexivity|exact Eo].
    change (get (put t k1 (set_queue q s)) t = Some k1). rewrite (get_put _ _ _ k); [rewrite Z.eqb_refl; reflexivity|exact Hg].
  - destruct (s_futs s i) eqn:Ef; try constructor. destruct (t_obj k) as [x|] eqn:Eo; [|constructor].
    unfold request_raw_resume. destruct (z_type x) eqn:Ht.
    + apply prims_one. eapply P_return; eauto. congruence.
    + destruct (unexpected_status o (expected_of (t_job k))) as [c|] eqn:Eu.
      * destruct (t_wid k) as [j|] eqn:Ew.
        -- destruct (registered s j) eqn:Er; try rewrite complete_nf; apply prims_one; [eapply P_refused_w; eassumption|eapply P_refused_lost; eassumption].
        -- apply prims_one. eapply P_refused; eassumption.
      * apply prims_one. eapply P_return; eauto.
    + apply prims_one. eapply P_return; eauto. congruence.
    + apply prims_one. eapply P_return; eauto. congruence.
  - destruct (Z.leb_spec until (s_now s)); [|constructor]. apply prims_one. eapply P_awake; eassumption.
  - apply prims_one. eapply P_await; eassumption.
  - destruct (s_futs s i) eqn:Ef; try constructor. apply prims_one. eapply P_await_done; eassumption.
Qed.

Lemma wait_timeout_prims s t : prims s (wait_timeout t s).
Proof.
  unfold wait_timeout. destruct (get s t) as [k|] eqn:Hg; [|constructor].
  destruct (t_phase k) eqn:Hp; try constructor; destruct (s_futs s i) eqn:Ef; try constructor;
    destruct (Z.leb_spec deadline (s_now s)); try constructor; apply prims_one;
    [eapply P_timeout|eapply P_await_timeout]; eassumption.
Qed.

Lemma cancel_prims s t : prims s (cancel t s).
Proof.
  unfold cancel. destruct (get s t) as [k|] eqn:Hg; [|constructor].
  destruct (t_phase k) eqn:Hp; try constructor; apply prims_one.
  - eapply P_fail_start; eauto.
  - eapply P_cancel_sem; eassumption.
  - eapply P_cancel_lock; eassumption.
  - eapply P_cancel_wait; eassumption.
  - eapply P_cancel_sleep; eassumption.
  - eapply P_reg_cancel; eassumption.
  - eapply P_await_cancel; eassumption.
Qed.

(** the message loop *)
Lemma complete_waiters i o s : s_waiters (completed i o s) = filter (fun w => negb (w_id w =? i)) (s_waiters s).
Proof. reflexivity. Qed.
Lemma complete_log i o s : s_log (completed i o s) = s_log s ++ [OCompleted i o].
Proof. reflexivity. Qed.

Lemma dispatch_prims ws o : forall s, recent o (s_log s) -> NoDup (map w_id ws) ->
  (forall w, In w ws -> In w (s_waiters s)) -> prims s (fst (fst (dispatch ws o s))).
Proof.
  induction ws as [|w ws IH]; intros s Hr Hnd Hin; cbn [dispatch fst]; [constructor|].
  inversion Hnd as [|? ? Hw Hnd']; subst.
  destruct (waiter_match (w_matcher w) o) as [[]|e] eqn:Hm.
  - assert (Hc : prim s (completed (w_id w) o s)) by (apply P_complete; [apply Hin; left; reflexivity|exact Hm|exact Hr]).
    assert (Hd : prims s (fst (fst (dispatch ws o (completed (w_id w) o s))))).
    { eapply prims_cons; [exact Hc|]. apply IH; [|exact Hnd'|].
      - destruct Hr as (a & b & E & Hb). exists a, (b ++ [OCompleted (w_id w) o]). rewrite complete_log, E.
        rewrite <- app_assoc. split; [reflexivity|]. apply Forall_app. split; [exact Hb|]. repeat constructor. eauto.
      - intros w' Hw'. rewrite complete_waiters. apply filter_In. split; [apply Hin; right; exact Hw'|].
        apply negb_true_iff, Z.eqb_neq. intro E. apply Hw. rewrite <- E. apply in_map, Hw'. }
    rewrite complete_nf. destruct (w_seq w) as [q|]; [|exact Hd]. destruct (q =? 0); [exact Hd|]. cbn [fst]. apply prims_one, Hc.
  - apply IH; [exact Hr|exact Hnd'|]. intros w' Hw'. apply Hin. right. exact Hw'.
  - constructor.
Qed.

Lemma effects_prims es : forall s, prims s (fold_left (fun s e => do_effect e s) es s).
Proof.
  induction es as [|e es IH]; intro s; cbn [fold_left]; [constructor|].
  eapply prims_app; [|apply IH].
  destruct e; unfold do_effect; try (apply prims_one; apply P_effect).
  eapply prims_cons; [apply P_effect|]. apply prims_one, P_spawn.
Qed.

Lemma app_handle_prims o s : prims s (fst (app_handle o s)).
Proof.
  unfold app_handle. destruct (s_app s); [|constructor].
  destruct (handle_znp (s_version s) (s_devs s) o) as [[d es] r]. cbn [fst].
  eapply prims_cons; [apply P_devs|]. apply effects_prims.
Qed.

(** ** unfolding of a primitive transition's result into explicit fields *)
Ltac nf_some := 
  repeat match goal with
  | H : get ?s ?t = Some ?k |- context [goto ?t ?p ?s] => rewrite (goto_some s t k p H)
  end.
Lemma get_free_sem j s t : get (free_sem j s) t = get s t.
Proof. rewrite free_sem_nf. reflexivity. Qed.
Lemma get_cancel_fut i s t : get (cancel_fut i s) t = get s t.
Proof. rewrite cancel_fut_nf. reflexivity. Qed.

Definition done (t : Z) (k : task) (r : outcome) (s : st) : st :=
  note (OEnded t r) (put t (mk_task (t_job k) (PDone r) (t_obj k) (t_wid k)) s).
Lemma finish_nf s t k r : get s t = Some k -> finish t r s = done t k r s.
Proof. intro H. unfold finish. rewrite (goto_some _ _ _ _ H). reflexivity. Qed.
Definition freed (t : Z) (s : st) : st := note (OFreed t) (set_lock None s).
Definition sem_back (j : job) (s : st) : st := set_sem (s_sem s + (if uses_sem j then 1 else 0)) s.
(** the phase after leaving the lock is overwritten at once *)
Lemma assoc_set_twice {A} (l : list (Z * A)) t v w : assoc_set t w (assoc_set t v l) = assoc_set t w l.
Proof.
  induction l as [|[k x] l IH]; cbn [assoc_set]; [reflexivity|].
  destruct (Z.eqb_spec k t) as [->|Hk]; cbn [assoc_set].
  - rewrite Z.eqb_refl. reflexivity.
  - destruct (Z.eqb_spec k t); [contradiction|]. rewrite IH. reflexivity.
Qed.
Lemma raw_raise_nf s t k e : get s t = Some k ->
  raw_raise t (t_job k) e s = done t k (outcome_of_exn (t_job k) e) (sem_back (t_job k) (freed t s)).
Proof.
  intro H. unfold raw_raise, free_lock. rewrite (goto_some _ _ _ _ H), free_sem_nf.
  set (k1 := mk_task (t_job k) PRel (t_obj k) (t_wid k)).
  rewrite (finish_nf _ _ k1).
  - unfold done, sem_back, freed. unfold note. fld. unfold put. fld. rewrite assoc_set_twice. reflexivity.
  - change (get (put t k1 s) t = Some k1). rewrite (get_put _ _ _ _ _ H), Z.eqb_refl. reflexivity.
Qed.
Lemma raw_return_nf s t k r : get s t = Some k ->
  raw_return t (t_job k) r s =
  if settles (t_job k) then put t (mk_task (t_job k) (PSleep (s_now s + 200)) (t_obj k) (t_wid k)) (freed t s)
  else done t k (outcome_of_result (t_job k) r) (sem_back (t_job k) (freed t s)).
Proof.
  intro H. unfold raw_return, free_lock. rewrite (goto_some _ _ _ _ H).
  set (k1 := mk_task (t_job k) PRel (t_obj k) (t_wid k)).
  assert (Hg : get (note (OFreed t) (set_lock None (put t k1 s))) t = Some k1)
    by (change (get (put t k1 s) t = Some k1); rewrite (get_put _ _ _ _ _ H), Z.eqb_refl; reflexivity).
  destruct (settles (t_job k)).
  - rewrite (goto_some _ _ _ _ Hg). unfold put, freed, note. fld. rewrite assoc_set_twice. reflexivity.
  - rewrite free_sem_nf, (finish_nf _ _ k1) by exact Hg.
    unfold done, sem_back, freed. unfold note. fld. unfold put. fld. rewrite assoc_set_twice. reflexivity.
Qed.
Definition cleaned (i : Z) (s : st) : st :=
  set_waiters (match s_futs s i with FDone _ => s_waiters s | _ => filter (fun w => negb (w_id w =? i)) (s_waiters s) end)
    (set_timers (filter (fun x => negb (snd x =? i)) (s_timers s)) s).
Lemma cleanup_nf i s : cleanup i s = s \/
  (exists d, In (d, i) (s_timers s) /\ d <= s_now s) /\ cleanup i s = cleaned i s.
Proof.
  unfold cleanup. destruct (find (fun x => (snd x =? i) && (fst x <=? s_now s)) (s_timers s)) as [[d j]|] eqn:E; [|left; reflexivity].
  right. apply find_some in E as [Hin E]. apply andb_true_iff in E as [E1 E2]. cbn [fst snd] in *. apply Z.eqb_eq in E1 as ->.
  split; [exists d; split; [exact Hin|lia]|]. unfold cleaned, unregister. fld. destruct (s_futs s i); try reflexivity.
Qed.

(** split a primitive transition into its cases, with explicit resulting states *)
Ltac prim_nf :=
  repeat first
  [ match goal with |- context [cancel_fut ?i ?s] => rewrite (cancel_fut_nf i s) end
  | match goal with |- context [free_sem ?j ?s] => rewrite (free_sem_nf j s); change (set_sem (s_sem s + (if uses_sem j then 1 else 0)) s) with (sem_back j s) end
  | match goal with H : get ?s ?t = Some ?k |- context [goto ?t ?p ?s] => rewrite (goto_some s t k p H) end
  | match goal with H : get ?s ?t = Some ?k |- context [goto ?t ?p ?x] => rewrite (goto_some x t k p) by exact H end
  | match goal with H : get ?s ?t = Some ?k |- context [finish ?t ?r ?x] => rewrite (finish_nf x t k r) by exact H end
  | match goal with H : get ?s ?t = Some ?k |- context [raw_raise ?t (t_job ?k) ?e ?x] => rewrite (raw_raise_nf x t k e) by exact H end
  | match goal with H : get ?s ?t = Some ?k |- context [raw_return ?t (t_job ?k) ?e ?x] => rewrite (raw_return_nf x t k e) by exact H end
  | match goal with |- context [if settles ?j then _ else _] => destruct (settles j) eqn:?Hsettle end
  | match goal with |- context [cleanup ?i ?s] => destruct (cleanup_nf i s) as [->|[?Hdue ->]] end ].
Ltac opn := unfold done, sem_back, freed, completed, cleaned, unregister, written, dequeue, put, note, spawn, wait_for, get; fld.
Ltac opn_all := unfold done, sem_back, freed, completed, cleaned, unregister, written, dequeue, put, note, spawn, wait_for, get in *; flda.

(** ** waiter ids *)
Fixpoint increasing (l : list Z) : Prop :=
  match l with [] => True | x :: r => (forall y, In y r -> x < y) /\ increasing r end.
Lemma increasing_app_one l x : increasing l -> (forall y, In y l -> y < x) -> increasing (l ++ [x]).
Proof.
  induction l as [|a l IH]; cbn [app increasing]; intros H Hx; [split; [intros y []|exact I]|].
  destruct H as [Ha Hl]. split.
  - intros y Hy. apply in_app_or in Hy as [Hy|[<-|[]]]; [apply Ha, Hy|apply Hx; left; reflexivity].
  - apply IH; [exact Hl|]. intros y Hy. apply Hx. right. exact Hy.
Qed.
Lemma increasing_filter {A} (f : A -> Z) (p : A -> bool) l : increasing (map f l) -> increasing (map f (filter p l)).
Proof.
  induction l as [|a l IH]; cbn [map filter increasing]; [auto|]. intros [Ha Hl].
  destruct (p a); [|apply IH, Hl]. cbn [map increasing]. split; [|apply IH, Hl].
  intros y Hy. apply in_map_iff in Hy as (b & <- & Hb). apply filter_In in Hb as [Hb _]. apply Ha, in_map, Hb.
Qed.
Lemma increasing_nodup l : increasing l -> NoDup l.
Proof.
  induction l as [|a l IH]; cbn [increasing]; [constructor|]. intros [Ha Hl]. constructor; [|apply IH, Hl].
  intro C. specialize (Ha a C). lia.
Qed.

Definition Ids (s : st) : Prop :=
  0 <= s_next s /\ increasing (map w_id (s_waiters s)) /\
  (forall w, In w (s_waiters s) -> 0 <= w_id w < s_next s) /\
  (forall i, s_next s <= i -> s_futs s i = FPending).

Lemma resulted_other f i o j : j <> i -> resulted f i o j = f j.
Proof. intro H. unfold resulted, upd. destruct (Z.eqb_spec j i); [contradiction|reflexivity]. Qed.
Lemma cancelled_other f i j : j <> i -> cancelled f i j = f j.
Proof. intro H. unfold cancelled, upd. destruct (f i); try reflexivity. destruct (Z.eqb_spec j i); [contradiction|reflexivity]. Qed.
