(** * MachineProgress: nothing hangs.  A measure that every effective step lowers, and in every state
    with an unfinished coroutine a step that is effective once the time limits have passed. *)
From Coq Require Import ZifyBool ZifyNat.
From Verif Require Import Base Types Uart Buffalo CmdTable Zpi Api App Machine SpecMachine
  MachineBase MachineInv MachineInv2 MachineInv3 MachineInv4 MachineInv5 DispatchProofs MachineProofs MachineProofs4.

(** ** sums over tasks *)
Fixpoint total (f : task -> Z) (ts : list (Z * task)) : Z := match ts with [] => 0 | (_, k) :: r => f k + total f r end.
Lemma total_put f ts t k k' : assoc t ts = Some k -> total f (assoc_set t k' ts) = total f ts - f k + f k'.
Proof.
  induction ts as [|[a b] ts IH]; cbn [assoc assoc_set total]; [discriminate|].
  destruct (a =? t); cbn [total]; [intros [= ->]; lia|]. intro H. specialize (IH H). lia.
Qed.
Lemma total_snoc f ts t k : total f (ts ++ [(t, k)]) = total f ts + f k.
Proof. induction ts as [|[a b] ts IH]; cbn [app total]; lia. Qed.

(** ** the measure *)
Definition weight (p : phase) : Z :=
  match p with PStart => 7 | PSem => 6 | PAdm => 5 | PLock => 4 | PHold => 3 | PWait _ _ | PRel | PReg _ _ => 2 | PSleep _ | PAwait _ _ => 1 | PDone _ => 0 end.
Definition wt (k : task) : Z := weight (t_phase k).
Definition work (s : st) : Z := total wt (s_tasks s).
Lemma weight_nonneg p : 0 <= weight p.
Proof. destruct p; cbn; lia. Qed.
Lemma work_nonneg s : 0 <= work s.
Proof.
  unfold work. induction (s_tasks s) as [|[a k] l IH]; cbn [total]; [lia|]. pose proof (weight_nonneg (t_phase k) : 0 <= wt k). lia.
Qed.

Definition keys (s s' : st) : Prop := forall t k', get s' t = Some k' -> exists k, get s t = Some k.
Lemma prim_work s s' : prim s s' ->
  s_ntid s' = s_ntid s + 1 \/ s_ntid s' = s_ntid s /\ (s_tasks s' = s_tasks s \/ work s' < work s) /\ keys s s'.
Proof.
  intro H. unfold work, keys.
  start_prim H; try (left; reflexivity); right; (split; [reflexivity|]); (split;
    [first [left; reflexivity|right; rewrite (total_put _ _ _ k) by assumption; unfold wt at 2 3; phases; cbn [weight]; lia]|
     intros t' k' G; look G; eauto]).
Qed.
Lemma prims_work s s' : prims s s' ->
  s_ntid s <= s_ntid s' /\ (s_ntid s' = s_ntid s -> work s' <= work s /\ (s_tasks s' = s_tasks s \/ work s' < work s) /\ keys s s').
Proof.
  induction 1 as [s|s1 s2 s3 H _ [I1 I2]]; [split; [lia|]; intros _; split; [lia|]; split; [left; reflexivity|intros t k G; eauto]|].
  destruct (prim_work _ _ H) as [E|(E & W & K)]; (split; [lia|]); [lia|]. intro E'. destruct (I2 ltac:(lia)) as (L & W' & K').
  assert (L1 : work s2 <= work s1) by (destruct W as [W|W]; [unfold work; rewrite W|]; lia).
  split; [lia|]. split; [|intros t k G; destruct (K' t k G) as [k1 G1]; eauto].
  destruct W as [W|W]; [|right; lia]. destruct W' as [W'|W']; [left; congruence|right; lia].
Qed.

(** ** no step but a call and a reception makes new tasks *)
Lemma ntid_goto t p s : s_ntid (goto t p s) = s_ntid s.
Proof. unfold goto. destruct (get s t); reflexivity. Qed.
Lemma ntid_free_sem j s : s_ntid (free_sem j s) = s_ntid s.
Proof. rewrite free_sem_nf. reflexivity. Qed.
Lemma ntid_free_lock t s : s_ntid (free_lock t s) = s_ntid s.
Proof. unfold free_lock, note. fld. apply ntid_goto. Qed.
Lemma ntid_finish t r s : s_ntid (finish t r s) = s_ntid s.
Proof. unfold finish, note. fld. apply ntid_goto. Qed.
Lemma ntid_raw_raise t j e s : s_ntid (raw_raise t j e s) = s_ntid s.
Proof. unfold raw_raise. rewrite ntid_finish, ntid_free_sem. apply ntid_free_lock. Qed.
Lemma ntid_raw_return t j r s : s_ntid (raw_return t j r s) = s_ntid s.
Proof.
  unfold raw_return. destruct (settles j); [rewrite ntid_goto; apply ntid_free_lock|].
  rewrite ntid_finish, ntid_free_sem. apply ntid_free_lock.
Qed.
Lemma ntid_uart_send t f s : s_ntid (fst (uart_send t f s)) = s_ntid s.
Proof. destruct (uart_send_cases t f s) as [[_ E]|[[_ (bs & _ & E)]|[_ (e & _ & E)]]]; rewrite E; reflexivity. Qed.
Lemma ntid_send_and_wait t j f m to s : s_ntid (send_and_wait t j f m to s) = s_ntid s.
Proof.
  unfold send_and_wait. pose proof (ntid_uart_send t f (wait_for m to None s)) as E.
  destruct (uart_send t f (wait_for m to None s)) as [s1 [r|e]]; cbn [fst] in E;
    [rewrite ntid_goto|rewrite ntid_raw_raise]; rewrite E; reflexivity.
Qed.
Lemma ntid_request_raw t j o s : s_ntid (request_raw t j o s) = s_ntid s.
Proof.
  unfold request_raw. destruct (to_unpi_frame o) as [f|e]; [|apply ntid_raw_raise].
  destruct (z_type o); try apply ntid_raw_raise; [apply ntid_send_and_wait|].
  destruct (is_reset_command o); [apply ntid_send_and_wait|]. pose proof (ntid_uart_send t f s) as E.
  destruct (uart_send t f s) as [s1 [r|e]]; cbn [fst] in E; [rewrite ntid_raw_return|rewrite ntid_raw_raise]; exact E.
Qed.
Lemma ntid_granted t k s : s_ntid (granted t k s) = s_ntid s.
Proof. unfold granted. destruct (t_obj k); [rewrite ntid_request_raw|]; unfold note; fld; apply ntid_goto. Qed.
Lemma ntid_acquire_lock t k s : s_ntid (acquire_lock t k s) = s_ntid s.
Proof. unfold acquire_lock. destruct (s_lock s); [|destruct (s_queue s); [apply ntid_granted|]]; unfold note; fld; apply ntid_goto. Qed.
Lemma ntid_acquire_sem t k s : s_ntid (acquire_sem t k s) = s_ntid s.
Proof.
  unfold acquire_sem. destruct (uses_sem (t_job k)); [destruct (0 <? s_sem s); [|reflexivity]|];
    rewrite ntid_acquire_lock; unfold note; fld; apply ntid_goto.
Qed.
Lemma ntid_start t k s : s_ntid (start t k s) = s_ntid s.
Proof.
  unfold start. destruct (t_job k); try (rewrite ntid_goto; reflexivity);
    (destruct (build _) as [ob|?]; [|apply ntid_finish]; destruct (response_waiter _ ob) as [[[? ?]|]|?]; [| |apply ntid_finish];
     cbv zeta; rewrite ntid_acquire_sem; reflexivity).
Qed.
Lemma ntid_resume t s : s_ntid (resume t s) = s_ntid s.
Proof.
  unfold resume. destruct (get s t) as [k|]; [|reflexivity]. destruct (t_phase k); try reflexivity.
  - apply ntid_start.
  - apply ntid_acquire_sem.
  - destruct (s_lock s); [reflexivity|]. destruct (s_queue s) as [|h q]; [reflexivity|]. destruct (h =? t); [|reflexivity].
    rewrite ntid_granted. reflexivity.
  - destruct (s_futs s i); try reflexivity. destruct (t_obj k) as [x|]; [|reflexivity]. unfold request_raw_resume.
    destruct (z_type x); try apply ntid_raw_return. destruct (unexpected_status o (expected_of (t_job k))); [|apply ntid_raw_return].
    destruct (t_wid k) as [j|]; [|apply ntid_raw_raise]. destruct (registered s j); [|apply ntid_raw_raise].
    rewrite complete_nf. rewrite ntid_raw_raise. reflexivity.
  - destruct (until <=? s_now s); [|reflexivity]. rewrite ntid_finish. apply ntid_free_sem.
  - apply ntid_goto.
  - destruct (s_futs s i); try reflexivity. apply ntid_finish.
Qed.
Lemma ntid_cancel_fut i s : s_ntid (cancel_fut i s) = s_ntid s.
Proof. rewrite cancel_fut_nf. reflexivity. Qed.
Lemma ntid_timeout t s : s_ntid (wait_timeout t s) = s_ntid s.
Proof.
  unfold wait_timeout. destruct (get s t) as [k|]; [|reflexivity]. destruct (t_phase k); try reflexivity;
    destruct (s_futs s i); try reflexivity; destruct (deadline <=? s_now s); try reflexivity;
    [rewrite ntid_raw_raise|rewrite ntid_finish]; apply ntid_cancel_fut.
Qed.
Lemma ntid_cancel t s : s_ntid (cancel t s) = s_ntid s.
Proof.
  unfold cancel. destruct (get s t) as [k|]; [|reflexivity]. destruct (t_phase k); try reflexivity;
    rewrite ?ntid_raw_raise, ?ntid_finish, ?ntid_free_sem, ?ntid_cancel_fut; reflexivity.
Qed.

(** ** what can go on *)
Definition run_ready (s : st) (t : Z) : bool :=
  match get s t with
  | None => false
  | Some k =>
    match t_phase k with
    | PStart | PReg _ _ => true
    | PSem => negb (uses_sem (t_job k)) || (0 <? s_sem s)
    | PLock => match s_lock s, s_queue s with None, h :: _ => h =? t | _, _ => false end
    | PWait i _ | PAwait i _ => match s_futs s i with FDone _ => true | _ => false end
    | PSleep u => u <=? s_now s
    | _ => false
    end
  end.
Definition timeout_ready (s : st) (t : Z) : bool :=
  match get s t with
  | None => false
  | Some k => match t_phase k with PWait i d | PAwait i d => match s_futs s i with FPending => d <=? s_now s | _ => false end | _ => false end
  end.
Lemma not_run_ready s t : run_ready s t = false -> resume t s = s.
Proof.
  unfold run_ready, resume. destruct (get s t) as [k|]; [|reflexivity]. destruct (t_phase k); try discriminate; try reflexivity.
  - intro H. apply orb_false_iff in H as [H1 H2]. unfold acquire_sem. rewrite H2. destruct (uses_sem (t_job k)); [reflexivity|discriminate].
  - destruct (s_lock s); [reflexivity|]. destruct (s_queue s); [reflexivity|]. intros ->. reflexivity.
  - destruct (s_futs s i); try discriminate; reflexivity.
  - intros ->. reflexivity.
  - destruct (s_futs s i); try discriminate; reflexivity.
Qed.
Lemma not_timeout_ready s t : timeout_ready s t = false -> wait_timeout t s = s.
Proof.
  unfold timeout_ready, wait_timeout. destruct (get s t) as [k|]; [|reflexivity]. destruct (t_phase k); try reflexivity;
    destruct (s_futs s i); try reflexivity; intros ->; reflexivity.
Qed.

Lemma work_put s t k k' : get s t = Some k -> weight (t_phase k') < weight (t_phase k) -> work (put t k' s) < work s.
Proof. intros G H. unfold work, put. fld. rewrite (total_put _ _ _ k) by exact G. unfold wt at 2 3. lia. Qed.
Lemma work_goto s t k p : get s t = Some k -> weight p < weight (t_phase k) -> work (goto t p s) < work s.
Proof. intros G H. rewrite (goto_some _ _ _ _ G). apply (work_put _ _ k); [exact G|exact H]. Qed.
Lemma work_prims s s' : prims s s' -> s_ntid s' = s_ntid s -> work s' <= work s.
Proof. intros H E. apply (prims_work _ _ H), E. Qed.
Lemma work_tasks s s' : s_tasks s' = s_tasks s -> work s' = work s.
Proof. intro E. unfold work. rewrite E. reflexivity. Qed.
Lemma work_finish s t k r : get s t = Some k -> 0 < weight (t_phase k) -> work (finish t r s) < work s.
Proof. intros G H. change (work (goto t (PDone r) s) < work s). apply (work_goto _ _ k); [exact G|exact H]. Qed.
Lemma work_raw_raise s t k e : get s t = Some k -> 0 < weight (t_phase k) -> work (raw_raise t (t_job k) e s) < work s.
Proof.
  intros G H. rewrite (raw_raise_nf _ _ _ _ G).
  change (work (put t (mk_task (t_job k) (PDone (outcome_of_exn (t_job k) e)) (t_obj k) (t_wid k)) s) < work s).
  apply (work_put _ _ k); [exact G|exact H].
Qed.
Lemma work_raw_return s t k r : get s t = Some k -> 1 < weight (t_phase k) -> work (raw_return t (t_job k) r s) < work s.
Proof.
  intros G H. rewrite (raw_return_nf _ _ _ _ G). destruct (settles (t_job k)).
  - change (work (put t (mk_task (t_job k) (PSleep (s_now s + 200)) (t_obj k) (t_wid k)) s) < work s).
    apply (work_put _ _ k); [exact G|exact H].
  - change (work (put t (mk_task (t_job k) (PDone (outcome_of_result (t_job k) r)) (t_obj k) (t_wid k)) s) < work s).
    apply (work_put _ _ k); [exact G|cbn [t_phase weight]; lia].
Qed.

Lemma run_lowers_k s t : (forall k, get s t = Some k -> match t_phase k with PLock | PWait _ _ => exists o, t_obj k = Some o | _ => True end) ->
  run_ready s t = true -> work (resume t s) < work s.
Proof.
  intros Hc H. unfold run_ready in H. unfold resume. destruct (get s t) as [k|] eqn:G; [|discriminate].
  pose proof (Hc k eq_refl) as Hk.
  destruct (t_phase k) eqn:Hp; try discriminate.
  - unfold start.
    assert (Hmain : forall j, j = t_job k -> work
      (match build j with
       | Err e => finish t (OExn e) s
       | Ok o =>
         match response_waiter j o with
         | Err e => finish t (OExn e) s
         | Ok None => let k := mk_task j PSem (Some o) None in acquire_sem t k (prepared t k s)
         | Ok (Some (m, sequence)) =>
             let k := mk_task j PSem (Some o) (Some (s_next s)) in
             acquire_sem t k (prepared t k (wait_for m Timeouts_default sequence s))
         end
       end) < work s).
    { intros j Ej. assert (Hfin : forall r, work (finish t r s) < work s) by (intro r; apply (work_finish _ _ k); [exact G|rewrite Hp; reflexivity]).
      destruct (build j) as [o|e]; [|apply Hfin]. destruct (response_waiter j o) as [[[m q]|]|e]; cbv zeta; [| |apply Hfin]; unfold prepared.
      - eapply Z.le_lt_trans; [apply work_prims; [apply acquire_sem_prims; [|reflexivity]|apply ntid_acquire_sem]|].
        + rewrite (get_put _ _ _ k); [rewrite Z.eqb_refl; reflexivity|exact G].
        + rewrite (work_tasks (put t (mk_task j PSem (Some o) (Some (s_next s))) s)) by reflexivity.
          apply (work_put _ _ k); [exact G|rewrite Hp; reflexivity].
      - eapply Z.le_lt_trans; [apply work_prims; [apply acquire_sem_prims; [|reflexivity]|apply ntid_acquire_sem]|].
        + rewrite (get_put _ _ _ k); [rewrite Z.eqb_refl; reflexivity|exact G].
        + apply (work_put _ _ k); [exact G|rewrite Hp; reflexivity]. }
    destruct (t_job k) eqn:Ej; try (apply Hmain; reflexivity).
    rewrite (work_tasks (goto t (PReg (s_next s) timeout) s)).
    + apply (work_goto _ _ k); [exact G|rewrite Hp; reflexivity].
    + rewrite (goto_some s _ k), (goto_some (wait_for m timeout None s) _ k) by exact G. reflexivity.
  - unfold acquire_sem. destruct (uses_sem (t_job k)) eqn:Hu; cbn [negb orb] in H.
    + rewrite H. rewrite (goto_some _ _ _ _ G). set (k1 := mk_task (t_job k) PAdm (t_obj k) (t_wid k)).
      eapply Z.le_lt_trans; [apply work_prims; [apply (acquire_lock_prims _ _ _ k1); try reflexivity|apply ntid_acquire_lock]|].
      * change (get (put t k1 s) t = Some k1). rewrite (get_put _ _ _ k) by exact G. rewrite Z.eqb_refl. reflexivity.
      * rewrite (work_tasks (put t k1 s)) by reflexivity. apply (work_put _ _ k); [exact G|rewrite Hp; reflexivity].
    + rewrite (goto_some _ _ _ _ G). set (k1 := mk_task (t_job k) PAdm (t_obj k) (t_wid k)).
      eapply Z.le_lt_trans; [apply work_prims; [apply (acquire_lock_prims _ _ _ k1); try reflexivity|apply ntid_acquire_lock]|].
      * change (get (put t k1 s) t = Some k1). rewrite (get_put _ _ _ k) by exact G. rewrite Z.eqb_refl. reflexivity.
      * apply (work_put _ _ k); [exact G|rewrite Hp; reflexivity].
  - destruct (s_lock s) eqn:El; [discriminate|]. destruct (s_queue s) as [|h q] eqn:Eq; [discriminate|]. rewrite H.
    destruct Hk as (o & Ho). unfold granted. rewrite Ho. rewrite (goto_some _ _ k) by exact G.
    set (k1 := mk_task (t_job k) PHold (t_obj k) (t_wid k)).
    eapply Z.le_lt_trans; [apply work_prims; [change (t_job k) with (t_job k1); apply request_raw_prims; [|reflexivity|exact Ho]|apply ntid_request_raw]|].
    + change (get (put t k1 s) t = Some k1). rewrite (get_put _ _ _ k) by exact G. rewrite Z.eqb_refl. reflexivity.
    + rewrite (work_tasks (put t k1 s)) by reflexivity. apply (work_put _ _ k); [exact G|rewrite Hp; reflexivity].
  - destruct (s_futs s i) as [|r|]; try discriminate. destruct Hk as (o & ->). unfold request_raw_resume.
    assert (W2 : 1 < weight (t_phase k)) by (rewrite Hp; reflexivity). assert (W1 : 0 < weight (t_phase k)) by lia.
    destruct (z_type o); try (apply work_raw_return; assumption).
    destruct (unexpected_status r (expected_of (t_job k))); [|apply work_raw_return; assumption].
    destruct (t_wid k) as [j|]; [|apply work_raw_raise; assumption]. destruct (registered s j); [|apply work_raw_raise; assumption].
    rewrite complete_nf. eapply Z.lt_le_trans; [apply (work_raw_raise (completed j r s)); [exact G|exact W1]|].
    rewrite (work_tasks s) by reflexivity. lia.
  - rewrite H. rewrite free_sem_nf. eapply Z.lt_le_trans; [apply (work_finish _ _ k); [exact G|rewrite Hp; reflexivity]|].
    rewrite (work_tasks s) by reflexivity. lia.
  - apply (work_goto _ _ k); [exact G|rewrite Hp; reflexivity].
  - destruct (s_futs s i); try discriminate. apply (work_finish _ _ k); [exact G|rewrite Hp; reflexivity].
Qed.
Lemma run_lowers s t : Core s -> run_ready s t = true -> work (resume t s) < work s.
Proof.
  intro Hc. apply run_lowers_k. intros k G. pose proof (proj1 (proj2 Hc) t k G) as Hk. unfold Task_ok in Hk.
  destruct (t_phase k); try exact I; destruct Hk as (o & Ho & _); eauto.
Qed.
Lemma timeout_lowers s t : timeout_ready s t = true -> work (wait_timeout t s) < work s.
Proof.
  intro H. unfold timeout_ready in H. unfold wait_timeout. destruct (get s t) as [k|] eqn:G; [|discriminate].
  destruct (t_phase k) eqn:Hp; try discriminate; destruct (s_futs s i); try discriminate; rewrite H, cancel_fut_nf.
  - eapply Z.lt_le_trans; [apply work_raw_raise; [exact G|rewrite Hp; reflexivity]|]. rewrite (work_tasks s) by reflexivity. lia.
  - eapply Z.lt_le_trans; [apply (work_finish _ _ k); [exact G|rewrite Hp; reflexivity]|]. rewrite (work_tasks s) by reflexivity. lia.
Qed.
Lemma cancel_lowers s t : cancel t s = s \/ work (cancel t s) < work s.
Proof.
  unfold cancel. destruct (get s t) as [k|] eqn:G; [|left; reflexivity].
  destruct (t_phase k) eqn:Hp; try (left; reflexivity); right; rewrite ?cancel_fut_nf, ?free_sem_nf;
    (eapply Z.lt_le_trans; [first [apply work_raw_raise; [exact G|rewrite Hp; reflexivity]|apply (work_finish _ _ k); [exact G|rewrite Hp; reflexivity]]|]);
    apply Z.eq_le_incl; apply work_tasks; reflexivity.
Qed.

(** ** quiet steps *)
Definition same (s s' : st) : Prop :=
  s_tasks s' = s_tasks s /\ s_futs s' = s_futs s /\ s_lock s' = s_lock s /\ s_queue s' = s_queue s /\ s_sem s' = s_sem s /\ s_now s <= s_now s'.
Lemma same_refl s : same s s.
Proof. repeat split. lia. Qed.
Lemma same_trans a b c : same a b -> same b c -> same a c.
Proof. intros (A1 & A2 & A3 & A4 & A5 & A6) (B1 & B2 & B3 & B4 & B5 & B6). repeat split; try congruence. lia. Qed.
Lemma quiet_ntid e s : quiet_event e -> s_ntid (step e s) = s_ntid s.
Proof.
  destruct e; cbn [quiet_event step]; try contradiction; intros _.
  - apply ntid_resume.
  - apply ntid_timeout.
  - apply ntid_cancel.
  - destruct (cleanup_nf i s) as [->|[_ ->]]; reflexivity.
  - destruct (0 <=? ms); reflexivity.
  - reflexivity.
  - reflexivity.
Qed.
Lemma quiet_step e s : Core s -> quiet_event e -> work (step e s) < work s \/ same s (step e s).
Proof.
  intros Hc. destruct e; cbn [quiet_event step]; try contradiction; intros _.
  - destruct (run_ready s t) eqn:E; [left; apply run_lowers; assumption|]. right. rewrite (not_run_ready _ _ E). apply same_refl.
  - destruct (timeout_ready s t) eqn:E; [left; apply timeout_lowers; assumption|]. right. rewrite (not_timeout_ready _ _ E). apply same_refl.
  - destruct (cancel_lowers s t) as [->|H]; [right; apply same_refl|left; exact H].
  - right. destruct (cleanup_nf i s) as [->|[_ ->]]; [apply same_refl|]. unfold cleaned. repeat split. fld. lia.
  - right. destruct (Z.leb_spec 0 ms); [|apply same_refl]. repeat split. fld. lia.
  - right. repeat split. fld. lia.
  - right. repeat split. fld. lia.
Qed.
Lemma quiet_run es : forall s, Core s -> Forall quiet_event es ->
  s_ntid (run es s) = s_ntid s /\ keys s (run es s) /\ work (run es s) <= work s /\ (work (run es s) < work s \/ same s (run es s)).
Proof.
  induction es as [|e es IH]; intros s Hc H.
  - cbn [run fold_left]. split; [reflexivity|]. split; [intros t k G; eauto|]. split; [lia|]. right. apply same_refl.
  - inversion H as [|? ? He Hes]; subst. change (run (e :: es) s) with (run es (step e s)).
    pose proof (step_prims e s Hc) as Hp. pose proof (quiet_ntid e s He) as En.
    destruct (proj2 (prims_work _ _ Hp) En) as (L & _ & K).
    destruct (IH (step e s) (core_prims _ _ Hp Hc) Hes) as (I0 & I1 & I2 & I3).
    split; [lia|]. split; [intros t k G; destruct (I1 t k G) as [k1 G1]; exact (K t k1 G1)|]. split; [lia|].
    destruct (quiet_step e s Hc He) as [W|S]; [left; lia|]. destruct I3 as [W|S']; [left; lia|right; eapply same_trans; eassumption].
Qed.
Lemma elapsed_run es : forall s, Core s -> s_now s + elapsed es <= s_now (run es s).
Proof.
  induction es as [|e es IH]; intros s Hc; [cbn; lia|]. change (run (e :: es) s) with (run es (step e s)).
  pose proof (step_prims e s Hc) as Hp. specialize (IH (step e s) (core_prims _ _ Hp Hc)). pose proof (now_prims _ _ Hp) as Hn.
  destruct e; cbn [elapsed fold_right]; fold (elapsed es); try lia.
  cbn [step] in *. destruct (Z.leb_spec 0 ms); fldin IH; lia.
Qed.

(** ** time limits *)
Definition Due (s : st) : Prop := forall t k, get s t = Some k ->
  match t_phase k with
  | PWait _ d => d <= s_now s + 30000
  | PSleep u => u <= s_now s + 200
  | PReg _ to => exists m, t_job k = JWaitFor m to
  | PAwait _ d => exists m to, t_job k = JWaitFor m to /\ d <= s_now s + to
  | _ => True
  end.
Lemma limit_le o : limit o <= 30000.
Proof. unfold limit. destruct (z_type o); try lia; destruct (existsb _ _); lia. Qed.
Lemma due_prim s s' : prim s s' -> Due s -> Due s'.
Proof.
  intros H D. unfold Due in *.
  start_prim H; intros t' k' G; look G; try exact I; try (eapply D; eassumption); flda; try exact I; try (eauto; fail).
  - match goal with A : awaited _ = Some (_, _) |- _ => apply awaited_limit in A as -> end. pose proof (limit_le o). lia.
  - lia.
  - lia.
  - pose proof (D _ _ H) as Hd. rewrite H0 in Hd. destruct Hd as [m Hd]. exists m, to. split; [exact Hd|lia].
  - pose proof (D _ _ G) as Hd. destruct (t_phase k'); try exact Hd; try lia. destruct Hd as (m & to & E & Hd). exists m, to. split; [exact E|lia].
Qed.
Lemma reachable_due cap s : reachable cap s -> Due s.
Proof. intros (v & d & a & es & ->). eapply (prims_inv Due due_prim); [apply run_prims, core_init|]. discriminate. Qed.

(** ** not stuck: once the limits have passed, somebody can go on *)
Definition ends (s : st) : Prop := forall t k, get s t = Some k -> ended (t_phase k) = true.
Definition past (s : st) : Prop := forall t k, get s t = Some k ->
  match t_phase k with PWait _ d | PAwait _ d => d <= s_now s | PSleep u => u <= s_now s | _ => True end.
Lemma in_assoc {A} (l : list (Z * A)) t k : assoc t l = Some k -> In (t, k) l.
Proof. induction l as [|[a b] l IH]; cbn [assoc]; [discriminate|]. destruct (Z.eqb_spec a t) as [->|]; [intros [= ->]; left; reflexivity|right; auto]. Qed.
Definition movable (s : st) : Prop := exists t k, get s t = Some k /\ (run_ready s t = true \/ timeout_ready s t = true).
Lemma waits_movable s t k i d : Waits s t k -> past s -> get s t = Some k -> (t_phase k = PWait i d \/ t_phase k = PAwait i d) -> movable s.
Proof.
  intros W P G Hp. exists t, k. split; [exact G|]. specialize (P t k G). unfold Waits in W. unfold run_ready, timeout_ready. rewrite G.
  destruct Hp as [Hp|Hp]; rewrite Hp in *.
  - destruct W as (o & m & to & a & f & bs & _ & _ & _ & _ & _ & _ & (la & lb & _ & _ & _ & _ & _ & W)).
    destruct (s_futs s i); [right; apply Z.leb_le, P|left; reflexivity|contradiction].
  - destruct W as (m & to & a & _ & _ & (la & lb & _ & _ & _ & _ & _ & W)).
    destruct (s_futs s i); [right; apply Z.leb_le, P|left; reflexivity|contradiction].
Qed.
Lemma inside_movable cap s t k : 0 <= cap -> reachable cap s -> past s -> get s t = Some k -> inside (t_phase k) = true -> movable s.
Proof.
  intros Hcap Hr P G Hi. pose proof (reachable_inv cap s Hcap Hr) as HI. pose proof (reachable_rests cap s Hcap Hr t k G) as Ha.
  destruct (t_phase k) eqn:Hp; try discriminate.
  - destruct (s_lock s) as [h|] eqn:El.
    + destruct (holder_waits cap s h Hcap Hr El) as (kh & i & d & Gh & Hh).
      eapply (waits_movable s h kh i d); [apply (I_waiters _ _ HI), Gh|exact P|exact Gh|left; exact Hh].
    + destruct (I_queue _ _ HI) as (_ & Q1 & Q2). assert (Hin : In t (s_queue s)) by (eapply Q2; [exact G|rewrite Hp; reflexivity]).
      destruct (s_queue s) as [|h q] eqn:Eq; [destruct Hin|]. destruct (Q1 h ltac:(left; reflexivity)) as (kh & Gh & Hh). fold (get s h) in Gh.
      exists h, kh. split; [exact Gh|]. left. unfold run_ready. rewrite Gh. destruct (t_phase kh); try discriminate.
      rewrite El, Eq. apply Z.eqb_refl.
  - eapply (waits_movable s t k i deadline); [apply (I_waiters _ _ HI), G|exact P|exact G|left; exact Hp].
  - exists t, k. split; [exact G|]. left. unfold run_ready. rewrite G, Hp. apply Z.leb_le. specialize (P t k G). rewrite Hp in P. exact P.
Qed.
Lemma slot_somewhere ts : 0 < slots ts -> exists t k, In (t, k) ts /\ inside (t_phase k) = true.
Proof.
  induction ts as [|[t k] ts IH]; cbn [slots]; [lia|]. intro H. unfold slot in H.
  destruct (uses_sem (t_job k) && inside (t_phase k)) eqn:E.
  - exists t, k. split; [left; reflexivity|]. apply andb_true_iff in E. apply E.
  - destruct (IH ltac:(lia)) as (t' & k' & Hin & Hi). exists t', k'. split; [right; exact Hin|exact Hi].
Qed.
(** task ids are the numbers of the calls *)
Definition Numbered (s : st) : Prop := 0 <= s_ntid s /\ map fst (s_tasks s) = upto (s_ntid s).
Lemma set_keys {A} (l : list (Z * A)) t v : map fst (assoc_set t v l) = map fst l.
Proof. induction l as [|[a b] l IH]; cbn [assoc_set map]; [reflexivity|]. destruct (a =? t); cbn [map fst]; [reflexivity|rewrite IH; reflexivity]. Qed.
Lemma numbered_prim s s' : prim s s' -> Numbered s -> Numbered s'.
Proof.
  intros H [N0 N]. unfold Numbered. start_prim H; rewrite ?set_keys; try (split; assumption).
  split; [lia|]. rewrite map_app, N, upto_snoc by exact N0. reflexivity.
Qed.
Lemma reachable_numbered cap s : reachable cap s -> Numbered s.
Proof. intros (v & d & a & es & ->). eapply (prims_inv Numbered numbered_prim); [apply run_prims, core_init|]. split; [cbn; lia|reflexivity]. Qed.
Lemma assoc_in {A} (l : list (Z * A)) t k : NoDup (map fst l) -> In (t, k) l -> assoc t l = Some k.
Proof.
  induction l as [|[a b] l IH]; [intros _ []|]. cbn [map fst]. intros Nd Hin. inversion Nd as [|? ? Ha Nd']; subst. cbn [assoc].
  destruct Hin as [[= -> ->]|Hin]; [rewrite Z.eqb_refl; reflexivity|]. destruct (Z.eqb_spec a t) as [->|]; [|apply IH; assumption].
  exfalso. apply Ha. change t with (fst (t, k)). apply in_map, Hin.
Qed.
Lemma task_get cap s t k : reachable cap s -> In (t, k) (s_tasks s) -> get s t = Some k.
Proof. intros Hr. apply assoc_in. rewrite (proj2 (reachable_numbered cap s Hr)). apply upto_nodup. Qed.

Lemma all_or_some (ts : list (Z * task)) : (forall t k, In (t, k) ts -> ended (t_phase k) = true) \/ exists t k, In (t, k) ts /\ ended (t_phase k) = false.
Proof.
  induction ts as [|[t k] ts IH]; [left; intros ? ? []|]. destruct (ended (t_phase k)) eqn:E.
  - destruct IH as [IH|(t' & k' & Hin & E')]; [left|right; exists t', k'; split; [right; exact Hin|exact E']].
    intros t' k' [[= <- <-]|Hin]; [exact E|eapply IH, Hin].
  - right. exists t, k. split; [left; reflexivity|exact E].
Qed.
Lemma never_stuck cap s : 0 < cap -> reachable cap s -> past s -> ends s \/ movable s.
Proof.
  intros Hcap Hr P. pose proof (reachable_inv cap s ltac:(lia) Hr) as HI.
  destruct (all_or_some (s_tasks s)) as [Hall|(t & k & Hin & He)].
  { left. intros t k G. eapply Hall, in_assoc, G. }
  right. pose proof (task_get cap s t k Hr Hin) as G. pose proof (reachable_rests cap s ltac:(lia) Hr t k G) as Ha.
  destruct (t_phase k) eqn:Hp; try discriminate.
  - exists t, k. split; [exact G|]. left. unfold run_ready. rewrite G, Hp. reflexivity.
  - destruct (run_ready s t) eqn:E; [exists t, k; auto|]. unfold run_ready in E. rewrite G, Hp in E.
    apply orb_false_iff in E as [_ E]. apply Z.ltb_ge in E. destruct (I_sem _ _ HI) as [S1 S2].
    destruct (slot_somewhere (s_tasks s) ltac:(lia)) as (t' & k' & Hin' & Hi'). pose proof (task_get cap s t' k' Hr Hin') as G'.
    eapply (inside_movable cap s t' k'); try assumption. lia.
  - eapply (inside_movable cap s t k); try assumption; [lia|rewrite Hp; reflexivity].
  - eapply (inside_movable cap s t k); try assumption; [lia|rewrite Hp; reflexivity].
  - eapply (inside_movable cap s t k); try assumption; [lia|rewrite Hp; reflexivity].
  - exists t, k. split; [exact G|]. left. unfold run_ready. rewrite G, Hp. reflexivity.
  - eapply (waits_movable s t k); [apply (I_waiters _ _ HI), G|exact P|exact G|right; exact Hp].
Qed.

(** ** a round *)
Lemma same_get s s' t : same s s' -> get s' t = get s t.
Proof. intros (E & _). unfold get. rewrite E. reflexivity. Qed.
Lemma run_ready_same s s' t : same s s' -> run_ready s t = true -> run_ready s' t = true.
Proof.
  intros S. unfold run_ready. rewrite (same_get _ _ _ S). destruct S as (_ & E2 & E3 & E4 & E5 & E6). rewrite E2, E3, E4, E5.
  destruct (get s t) as [k|]; [|discriminate]. destruct (t_phase k); try exact (fun H => H). intro H. lia.
Qed.
Lemma timeout_ready_same s s' t : same s s' -> timeout_ready s t = true -> timeout_ready s' t = true.
Proof.
  intros S. unfold timeout_ready. rewrite (same_get _ _ _ S). destruct S as (_ & E2 & E3 & E4 & E5 & E6). rewrite E2.
  destruct (get s t) as [k|]; [|discriminate]. destruct (t_phase k); try discriminate; destruct (s_futs s i); try discriminate; lia.
Qed.
Lemma run_app a b s : run (a ++ b) s = run b (run a s).
Proof. unfold run. apply fold_left_app. Qed.
(** an event that would be effective now is still effective when its turn comes, unless something else was *)
Lemma turn_comes b : forall s e, Core s -> Forall quiet_event b -> In e b ->
  (forall s', Core s' -> same s s' -> work (step e s') < work s') -> work (run b s) < work s.
Proof.
  intros s e Hc Hq Hin He. apply in_split in Hin as (b1 & b2 & ->).
  apply Forall_app in Hq as [Q1 Q2]. inversion Q2 as [|? ? Qe Q3]; subst. rewrite run_app.
  change (run (e :: b2) (run b1 s)) with (run b2 (step e (run b1 s))).
  destruct (quiet_run b1 s Hc Q1) as (_ & _ & L1 & W1). pose proof (run_core b1 s Hc) as Hc1.
  pose proof (core_prims _ _ (step_prims e _ Hc1) Hc1) as Hc2.
  destruct (quiet_run b2 _ Hc2 Q3) as (_ & _ & L2 & _).
  destruct (proj2 (prims_work _ _ (step_prims e _ Hc1)) (quiet_ntid e _ Qe)) as (L3 & _).
  destruct W1 as [W1|S1]; [lia|]. specialize (He _ Hc1 S1). lia.
Qed.
Definition waits_at_most (T : Z) (s : st) : Prop := forall t k m to, get s t = Some k -> t_job k = JWaitFor m to -> to <= T.
Lemma round_lowers cap s T ids es : 0 < cap -> reachable cap s -> 30000 <= T -> waits_at_most T s ->
  (forall t k, get s t = Some k -> ended (t_phase k) = false -> In t ids) -> fair_round T ids es -> ends s \/ work (run es s) < work s.
Proof.
  intros Hcap Hr HT Hw Hids (Hq & a & b & -> & Hel & Hb). apply Forall_app in Hq as [Qa Qb].
  pose proof (I_core _ _ (reachable_inv cap s ltac:(lia) Hr)) as Hc. rewrite run_app.
  destruct (quiet_run a s Hc Qa) as (_ & Ka & La & Wa). pose proof (run_core a s Hc) as Hc1.
  destruct (quiet_run b _ Hc1 Qb) as (_ & _ & Lb & _).
  destruct Wa as [Wa|Sa]; [right; lia|].
  pose proof (elapsed_run a s Hc) as Hnow. pose proof (reachable_run cap s a Hr) as Hr1.
  assert (P : past (run a s)).
  { intros t k G. rewrite (same_get _ _ _ Sa) in G. pose proof (reachable_due cap s Hr t k G) as D.
    destruct (t_phase k); try exact I; try lia. destruct D as (m & to & Hj & D). specialize (Hw t k m to G Hj). lia. }
  destruct (never_stuck cap (run a s) Hcap Hr1 P) as [E|(t & k & G & M)].
  - left. intros t k G. apply (E t k). rewrite (same_get _ _ _ Sa). exact G.
  - right. assert (Hin : In t ids).
    { eapply Hids; [rewrite <- (same_get _ _ _ Sa); exact G|]. unfold run_ready, timeout_ready in M. rewrite G in M.
      destruct (t_phase k); try reflexivity. destruct M as [M|M]; discriminate M. } destruct (Hb t Hin) as [B1 B2].
    assert (work (run b (run a s)) < work (run a s)); [|lia]. destruct M as [M|M].
    + apply (turn_comes b _ (ERun t) Hc1 Qb B1). intros s' Hc' S'. apply run_lowers; [exact Hc'|]. eapply run_ready_same; eassumption.
    + apply (turn_comes b _ (ETimeout t) Hc1 Qb B2). intros s' Hc' S'. apply timeout_lowers. eapply timeout_ready_same; eassumption.
Qed.

(** ** several rounds *)
Lemma ends_run s es : Core s -> Forall quiet_event es -> ends s -> ends (run es s).
Proof.
  intros Hc Hq E t k G. destruct (quiet_run es s Hc Hq) as (_ & K & _). destruct (K t k G) as [k0 G0].
  rewrite (done_prims _ _ _ _ (run_prims es s Hc) G0 (E t k0 G0)) in G. injection G as <-. apply (E t k0 G0).
Qed.
Lemma jobs_run s es t k : Core s -> Forall quiet_event es -> get (run es s) t = Some k -> exists k0, get s t = Some k0 /\ t_job k0 = t_job k.
Proof.
  intros Hc Hq G. destruct (quiet_run es s Hc Hq) as (_ & K & _). destruct (K t k G) as [k0 G0]. exists k0. split; [exact G0|].
  assert (J : same_job s (run es s)).
  { pose proof (run_prims es s Hc) as Hp. clear -Hp. induction Hp as [s|s1 s2 s3 H _ IH]; [intros t k G; eauto|].
    intros t k G. destruct (job_prim _ _ H t k G) as (k1 & G1 & E1). destruct (IH t k1 G1) as (k2 & G2 & E2). exists k2. split; [exact G2|congruence]. }
  destruct (J t k0 G0) as (k1 & G1 & E1). rewrite G in G1. injection G1 as <-. congruence.
Qed.
Lemma rounds_end cap T ids rs : forall s, 0 < cap -> reachable cap s -> 30000 <= T -> waits_at_most T s ->
  (forall t k, get s t = Some k -> ended (t_phase k) = false -> In t ids) -> Forall (fair_round T ids) rs -> work s <= Z.of_nat (length rs) -> ends (run (concat rs) s).
Proof.
  induction rs as [|r rs IH]; intros s Hcap Hr HT Hw Hids HF Hlen.
  - cbn [concat run fold_left]. cbn [length] in Hlen. intros t k G. destruct (ended (t_phase k)) eqn:E; [reflexivity|]. exfalso.
    assert (0 < wt k) by (unfold wt; destruct (t_phase k); cbn in *; try discriminate; lia).
    assert (X : forall ts, In (t, k) ts -> 0 < total wt ts).
    { assert (N : forall ts, 0 <= total wt ts) by (induction ts as [|[? k1] ts IHt]; cbn [total]; [lia|pose proof (weight_nonneg (t_phase k1) : 0 <= wt k1); lia]).
      induction ts as [|[t1 k1] ts IHt]; [intros []|]. cbn [total]. pose proof (weight_nonneg (t_phase k1) : 0 <= wt k1). specialize (N ts).
      intros [[= -> ->]|Hi]; [lia|]. specialize (IHt Hi). lia. }
    specialize (X (s_tasks s) (in_assoc _ _ _ G)). fold (work s) in X. lia.
  - inversion HF as [|? ? H1 H2]; subst. cbn [concat]. rewrite run_app.
    pose proof (I_core _ _ (reachable_inv cap s ltac:(lia) Hr)) as Hc. pose proof (run_core r s Hc) as Hc1.
    assert (Hq : Forall quiet_event r) by apply H1.
    assert (Hqs : Forall quiet_event (concat rs)) by (apply Forall_concat, Forall_forall; intros x Hx; rewrite Forall_forall in H2; apply (H2 x Hx)).
    destruct (round_lowers cap s T ids r Hcap Hr HT Hw Hids H1) as [E|W].
    + apply ends_run; [exact Hc1|exact Hqs|]. apply ends_run; assumption.
    + apply IH; try assumption.
      * apply reachable_run, Hr.
      * intros t k m to G Hj. destruct (jobs_run s r t k Hc Hq G) as (k0 & G0 & E). apply (Hw t k0 m to G0). congruence.
      * intros t k G E. destruct (jobs_run s r t k Hc Hq G) as (k0 & G0 & _). eapply Hids; [exact G0|].
        destruct (ended (t_phase k0)) eqn:E0; [|reflexivity].
        pose proof (done_prims _ _ _ _ (run_prims r s Hc) G0 E0) as G1. congruence.
      * cbn [length] in Hlen. lia.
Qed.

(** ** the unfinished coroutines, read off the history *)
Definition open_ (k : task) : Z := if ended (t_phase k) then 0 else 1.
Lemma pending_snoc l x : pending (l ++ [x]) = match x with OCalled t => pending l ++ [t] | OEnded t _ => without t (pending l) | _ => pending l end.
Proof. unfold pending. rewrite fold_left_app. reflexivity. Qed.
Definition PendP (q : list Z) (ts : list (Z * task)) : Prop :=
  NoDup q /\ (forall t, In t q <-> exists k, assoc t ts = Some k /\ ended (t_phase k) = false) /\ total open_ ts = Z.of_nat (length q).
Definition Pend (s : st) : Prop := PendP (pending (s_log s)) (s_tasks s).
Lemma pend_same q ts t k k' : PendP q ts -> assoc t ts = Some k -> ended (t_phase k') = ended (t_phase k) -> PendP q (assoc_set t k' ts).
Proof.
  intros (Nd & Hi & Hl) G E. split; [exact Nd|]. split.
  - intro u. rewrite Hi, (assoc_put _ _ _ _ _ G). destruct (Z.eqb_spec t u) as [->|]; [|reflexivity].
    rewrite G. split; intros (x & [= <-] & Hx); eexists; (split; [reflexivity|congruence]).
  - rewrite (total_put _ _ _ k) by exact G. unfold open_ at 2 3. rewrite E. lia.
Qed.
Lemma pend_out q ts t k k' : PendP q ts -> assoc t ts = Some k -> ended (t_phase k) = false -> ended (t_phase k') = true -> PendP (without t q) (assoc_set t k' ts).
Proof.
  intros (Nd & Hi & Hl) G E E'. assert (Hin : In t q) by (rewrite Hi; eauto).
  split; [apply without_nodup, Nd|]. split.
  - intro u. rewrite without_in, Hi, (assoc_put _ _ _ _ _ G). destruct (Z.eqb_spec t u) as [->|Hne].
    + split; [intros [_ C]; congruence|]. intros (x & [= <-] & Hx). congruence.
    + split; [intros [H _]; exact H|]. intro H. split; [exact H|congruence].
  - rewrite (total_put _ _ _ k) by exact G. unfold open_ at 2 3. rewrite E, E'. pose proof (without_length t q Nd Hin). lia.
Qed.
Lemma pend_prim s s' : prim s s' -> Core s -> Pend s -> Pend s'.
Proof.
  intros H Hc P. unfold Pend in *.
  assert (Hnew : assoc (s_ntid s) (s_tasks s) = None).
  { destruct (assoc (s_ntid s) (s_tasks s)) eqn:E; [|reflexivity]. pose proof (proj2 (proj1 Hc) _ _ E). lia. }
  start_prim H; repeat rewrite pending_snoc; try exact P;
    try (eapply pend_same; [exact P|eassumption|phases; reflexivity]);
    try (eapply pend_out; [exact P|eassumption|phases; reflexivity|reflexivity]).
  destruct P as (Nd & Hi & Hl). split; [apply nodup_snoc; [exact Nd|rewrite Hi; intros (x & G & _); congruence]|]. split.
  - intro t. rewrite in_app_iff, Hi. split.
    + intros [(x & G & Hx)|[<-|[]]].
      * exists x. rewrite assoc_snoc, G. auto.
      * eexists. rewrite assoc_snoc, Hnew, Z.eqb_refl. split; reflexivity.
    + intros (x & G & Hx). rewrite assoc_snoc in G. destruct (assoc t (s_tasks s)); [left; eauto|].
      destruct (Z.eqb_spec (s_ntid s) t); [|discriminate]. right. left. assumption.
  - rewrite total_snoc, app_length. unfold open_ at 2. cbn [t_phase ended length]. lia.
Qed.
Lemma reachable_pend cap s : reachable cap s -> Pend s.
Proof.
  intros (v & d & a & es & ->). eapply (prims_core_inv Pend pend_prim); [apply run_prims, core_init|apply core_init|].
  split; [constructor|]. split; [|reflexivity]. intro t. split; [intros []|intros (k & C & _); discriminate C].
Qed.
Lemma work_pending cap s : reachable cap s -> work s <= 7 * Z.of_nat (length (pending (s_log s))).
Proof.
  intro Hr. destruct (reachable_pend cap s Hr) as (_ & _ & E). rewrite <- E. unfold work. clear E.
  induction (s_tasks s) as [|[t k] ts IH]; cbn [total]; [lia|].
  assert (wt k <= 7 * open_ k) by (unfold wt, open_; destruct (t_phase k); cbn; lia). lia.
Qed.

(** ** everything ends *)
Lemma everything_ends cap s T rs : 0 < cap -> reachable cap s -> 30000 <= T ->
  (forall t k m to, get s t = Some k -> t_job k = JWaitFor m to -> to <= T) ->
  Forall (fair_round T (pending (s_log s))) rs -> 7 * Z.of_nat (length (pending (s_log s))) <= Z.of_nat (length rs) ->
  pending (s_log (run (concat rs) s)) = [].
Proof.
  intros Hcap Hr HT Hw HF Hlen. pose proof (work_pending cap s Hr). destruct (reachable_pend cap s Hr) as (_ & Hi & _).
  assert (E : ends (run (concat rs) s)).
  { apply (rounds_end cap T (pending (s_log s))); try assumption; [|lia]. intros t k G He. rewrite Hi. eauto. }
  destruct (reachable_pend cap _ (reachable_run cap s (concat rs) Hr)) as (_ & Hi' & _).
  destruct (pending (s_log (run (concat rs) s))) as [|t l]; [reflexivity|]. exfalso.
  destruct (proj1 (Hi' t) (or_introl eq_refl)) as (k & G & He). specialize (E t k G). congruence.
Qed.
