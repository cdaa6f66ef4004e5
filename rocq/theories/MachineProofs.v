(** * MachineProofs: histories of the link and the queue; phases between steps *)
From Coq Require Import ZifyBool ZifyNat.
From Verif Require Import Base Types Uart Buffalo CmdTable Zpi Api App Machine SpecApi SpecMachine ApiProofs AppProofs
  MachineBase MachineInv MachineInv2 MachineInv3 MachineInv4 MachineInv5 DispatchProofs.

(** ** the link *)
Lemma always_front P a b : always P (a ++ b) -> always P a.
Proof. intros H x y z E. apply (H x y (z ++ b)). rewrite E, <- app_assoc. reflexivity. Qed.
Lemma freed_dec t b : In (OFreed t) b \/ ~ In (OFreed t) b.
Proof.
  induction b as [|x b [IH|IH]]; [right; intros []|left; right; exact IH|].
  destruct x; try (right; intros [C|C]; [discriminate C|contradiction]).
  destruct (Z.eq_dec t0 t) as [->|Hne]; [left; left; reflexivity|right; intros [C|C]; [injection C as ->; contradiction|contradiction]].
Qed.
Lemma holder_keep a b t : always link_ok (a ++ b) -> holder a = Some t -> ~ In (OFreed t) b -> holder (a ++ b) = Some t.
Proof.
  intros HA Ha. induction b as [|x b IH] using rev_ind; [rewrite app_nil_r; auto|]. intro Hn.
  rewrite app_assoc in *.
  assert (E : holder (a ++ b) = Some t).
  { apply IH; [apply always_front in HA; exact HA|]. intro C. apply Hn, in_or_app. left. exact C. }
  pose proof (HA (a ++ b) x [] eq_refl) as Hx. rewrite holder_snoc.
  destruct x; try exact E; cbn [link_ok] in Hx; try congruence.
  exfalso. rewrite E in Hx. injection Hx as ->. apply Hn, in_or_app. right. left. reflexivity.
Qed.
Lemma link_excl l a t x b u y c : always link_ok l -> l = a ++ x :: b ++ y :: c ->
  (x = OGranted t \/ exists at_ bs, x = OWritten t at_ bs) ->
  (y = OGranted u \/ u <> t /\ exists at_ bs, y = OWritten u at_ bs) -> In (OFreed t) b.
Proof.
  intros HA -> Hx Hy. destruct (freed_dec t b) as [H|H]; [exact H|exfalso].
  assert (E : a ++ x :: b ++ y :: c = (a ++ [x]) ++ b ++ y :: c) by (rewrite <- app_assoc; reflexivity). rewrite E in HA.
  assert (Hh : holder (a ++ [x]) = Some t).
  { rewrite holder_snoc. destruct Hx as [->|(at_ & bs & ->)]; [reflexivity|].
    apply (HA a (OWritten t at_ bs) (b ++ y :: c)). rewrite <- app_assoc. reflexivity. }
  assert (Hok : link_ok ((a ++ [x]) ++ b) y) by (apply (HA ((a ++ [x]) ++ b) y c); rewrite <- !app_assoc; reflexivity).
  assert (Hb : holder ((a ++ [x]) ++ b) = Some t).
  { apply holder_keep; [|exact Hh|exact H]. rewrite app_assoc in HA. apply always_front in HA. exact HA. }
  destruct Hy as [->|(Hne & at_ & bs & ->)]; cbn [link_ok] in Hok; congruence.
Qed.

(** ** each task queues, writes and ends at most once *)
Definition is_queued (x : obs) : bool := match x with OQueued _ => true | _ => false end.
Definition is_written (x : obs) : bool := match x with OWritten _ _ _ => true | _ => false end.
Definition is_ended (x : obs) : bool := match x with OEnded _ _ => true | _ => false end.
Lemma life_once j t p l : life j t p l ->
  (length (filter is_queued l) <= 1)%nat /\ (length (filter is_written l) <= 1)%nat /\
  (forall r, In (OEnded t r) l -> p = PDone r).
Proof.
  intro H.
  assert (Hcame : forall l0, came j t l0 -> (length (filter is_queued l0) <= 1)%nat /\ filter is_written l0 = [] /\ (forall r, ~ In (OEnded t r) l0)).
  { intros l0 (q & Hq & ->). unfold adm. destruct (uses_sem j), Hq as [->| ->]; cbn; (split; [lia|split; [reflexivity|]]); intuition discriminate. }
  assert (Hrest : forall l0 r0, came j t l0 -> (length (filter is_queued (l0 ++ r0)) <= 1 + length (filter is_queued r0))%nat /\
     filter is_written (l0 ++ r0) = filter is_written r0 /\ (forall r, In (OEnded t r) (l0 ++ r0) -> In (OEnded t r) r0)).
  { intros l0 r0 Hc. destruct (Hcame l0 Hc) as (A & B & C). rewrite !filter_app, app_length, B. split; [lia|]. split; [reflexivity|].
    intros r Hr. apply in_app_or in Hr as [Hr|Hr]; [exfalso; eapply C, Hr|exact Hr]. }
  assert (Hsplit : forall l0 r0, came j t l0 -> filter is_queued r0 = [] -> (length (filter is_written r0) <= 1)%nat -> l = l0 ++ r0 ->
    (forall r, In (OEnded t r) r0 -> p = PDone r) ->
    (length (filter is_queued l) <= 1)%nat /\ (length (filter is_written l) <= 1)%nat /\ (forall r, In (OEnded t r) l -> p = PDone r)).
  { intros l0 r0 Hc E0 E1 -> E2. destruct (Hrest l0 r0 Hc) as (A & B & C). destruct (Hcame l0 Hc) as (A' & _).
    rewrite filter_app, app_length, E0, B. cbn [length]. split; [lia|]. split; [exact E1|]. intros r Hr. apply E2, C, Hr. }
  destruct p; cbn [life] in H.
  - subst. cbn. repeat split; try lia. intuition discriminate.
  - subst. cbn. repeat split; try lia. intuition discriminate.
  - subst. unfold adm. destruct (uses_sem j); cbn; repeat split; try lia; intuition discriminate.
  - subst. unfold adm. destruct (uses_sem j); cbn; repeat split; try lia; intuition discriminate.
  - destruct (Hcame l H) as (A & B & C). rewrite B. cbn [length]. split; [exact A|]. split; [lia|]. intros r Hr. exfalso. eapply C, Hr.
  - destruct H as (l0 & a & bs & Hc & ->). eapply Hsplit; [exact Hc| | |reflexivity|]; cbn; try lia; try reflexivity. intuition discriminate.
  - contradiction.
  - destruct H as (l0 & a & bs & Hc & -> & _). eapply Hsplit; [exact Hc| | |reflexivity|]; cbn; try lia; try reflexivity. intuition discriminate.
  - subst. cbn. repeat split; try lia. intuition discriminate.
  - subst. cbn. repeat split; try lia. intuition discriminate.
  - destruct H as [->|[->|[(l0 & Hc & ->)|(l0 & a & bs & Hc & ->)]]].
    + cbn. repeat split; try lia. intuition (try discriminate). injection H as ->. reflexivity.
    + unfold adm. destruct (uses_sem j); cbn; repeat split; try lia; intuition (try discriminate);
        match goal with H : OEnded _ _ = OEnded _ _ |- _ => injection H as ->; reflexivity end.
    + eapply Hsplit; [exact Hc| | |reflexivity|]; cbn; try lia; try reflexivity. intuition (try discriminate).
      match goal with H : OEnded _ _ = OEnded _ _ |- _ => injection H as ->; reflexivity end.
    + eapply Hsplit; [exact Hc| | |reflexivity|]; cbn; try lia; try reflexivity. intuition (try discriminate).
      match goal with H : OEnded _ _ = OEnded _ _ |- _ => injection H as ->; reflexivity end.
Qed.
Lemma life_of s t : Life s -> (length (filter is_queued (trace t (s_log s))) <= 1)%nat /\
  (length (filter is_written (trace t (s_log s))) <= 1)%nat /\
  (forall r, In (OEnded t r) (s_log s) -> exists k, get s t = Some k /\ t_phase k = PDone r).
Proof.
  intros [L1 L2].
  assert (Htr : forall r, In (OEnded t r) (s_log s) -> In (OEnded t r) (trace t (s_log s))).
  { intros r Hr. apply filter_In. split; [exact Hr|]. cbn [about]. apply Z.eqb_refl. }
  destruct (get s t) as [k|] eqn:G.
  - destruct (life_once _ _ _ _ (L1 t k G)) as (A & B & C). split; [exact A|]. split; [exact B|]. intros r Hr. exists k. split; [reflexivity|]. apply C, Htr, Hr.
  - specialize (L2 t G). rewrite L2 in *. cbn. split; [lia|]. split; [lia|]. intros r Hr. exfalso. apply (Htr r Hr).
Qed.
Lemma trace_app t a b : trace t (a ++ b) = trace t a ++ trace t b.
Proof. apply filter_app. Qed.
Lemma trace_cons t x l : trace t (x :: l) = (if about t x then [x] else []) ++ trace t l.
Proof. unfold trace. cbn [filter]. destruct (about t x); reflexivity. Qed.
Lemma queued_once s a t b c : Life s -> s_log s = a ++ OQueued t :: b ++ OQueued t :: c -> False.
Proof.
  intros HL E. destruct (life_of s t HL) as (A & _). rewrite E, trace_app, trace_cons, trace_app, trace_cons in A. cbn [about] in A.
  rewrite Z.eqb_refl, !filter_app, !app_length in A. cbn [filter app is_queued length] in A. lia.
Qed.
Lemma written_once s a t x1 y1 b x2 y2 c : Life s -> s_log s = a ++ OWritten t x1 y1 :: b ++ OWritten t x2 y2 :: c -> False.
Proof.
  intros HL E. destruct (life_of s t HL) as (_ & A & _). rewrite E, trace_app, trace_cons, trace_app, trace_cons in A. cbn [about] in A.
  rewrite Z.eqb_refl, !filter_app, !app_length in A. cbn [filter app is_written length] in A. lia.
Qed.

(** ** the queue *)
Lemma waiting_in l u : In u (waiting l) -> In (OQueued u) l.
Proof.
  induction l as [|x l IH] using rev_ind; [intros []|]. rewrite waiting_snoc. intro H. apply in_or_app.
  destruct x; try (left; apply IH; exact H).
  - apply in_app_or in H as [H|[->|[]]]; [left; apply IH, H|right; left; reflexivity].
  - apply without_in in H as [H _]. left. apply IH, H.
  - apply without_in in H as [H _]. left. apply IH, H.
Qed.
Lemma without_app t a b : without t (a ++ b) = without t a ++ without t b.
Proof. apply filter_app. Qed.
Lemma waiting_order a t b : ~ In (OGranted t) b -> (forall r, ~ In (OEnded t r) b) ->
  exists q1 q2, waiting (a ++ OQueued t :: b) = q1 ++ t :: q2 /\ forall u, In u q1 -> In (OQueued u) a.
Proof.
  induction b as [|x b IH] using rev_ind; intros Hg He.
  - exists (waiting a), []. rewrite waiting_snoc. split; [reflexivity|]. apply waiting_in.
  - destruct IH as (q1 & q2 & E & Hq).
    { intro C. apply Hg, in_or_app. left. exact C. }
    { intros r C. apply (He r), in_or_app. left. exact C. }
    change (a ++ OQueued t :: b ++ [x]) with (a ++ (OQueued t :: b) ++ [x]). rewrite app_assoc, waiting_snoc, E.
    destruct x; try (exists q1, q2; auto; fail).
    + exists q1, (q2 ++ [t0]). rewrite <- app_assoc. auto.
    + assert (t0 <> t) by (intros ->; apply Hg, in_or_app; right; left; reflexivity).
      exists (without t0 q1), (without t0 q2). rewrite without_app. cbn [without filter].
      destruct (Z.eqb_spec t t0); [congruence|]. cbn [negb]. split; [reflexivity|]. intros u Hu. apply without_in in Hu as [Hu _]. auto.
    + assert (t0 <> t) by (intros ->; apply (He r), in_or_app; right; left; reflexivity).
      exists (without t0 q1), (without t0 q2). rewrite without_app. cbn [without filter].
      destruct (Z.eqb_spec t t0); [congruence|]. cbn [negb]. split; [reflexivity|]. intros u Hu. apply without_in in Hu as [Hu _]. auto.
Qed.
Lemma left_dec t b : (In (OGranted t) b \/ exists r, In (OEnded t r) b) \/ (~ In (OGranted t) b /\ forall r, ~ In (OEnded t r) b).
Proof.
  induction b as [|x b [IH|[I1 I2]]]; [right; split; [intros []|intros r []]|left; destruct IH as [?|(r & ?)]; [left; right; assumption|right; exists r; right; assumption]|].
  destruct x; try (right; split; [intros [C|C]; [discriminate C|contradiction]|intros r' [C|C]; [discriminate C|eapply I2, C]]).
  - destruct (Z.eq_dec t0 t) as [->|Hne]; [left; left; left; reflexivity|].
    right; split; [intros [C|C]; [injection C as ->; contradiction|contradiction]|intros r [C|C]; [discriminate C|eapply I2, C]].
  - destruct (Z.eq_dec t0 t) as [->|Hne]; [left; right; exists r; left; reflexivity|].
    right; split; [intros [C|C]; [discriminate C|contradiction]|intros r' [C|C]; [injection C as -> ->; contradiction|eapply I2, C]].
Qed.
(** [t] queued before [u] came: [u] is not served before [t] *)
Lemma served_in_order s t u a b c : Life s -> always queue_ok (s_log s) ->
  s_log s = a ++ OQueued t :: b ++ OGranted u :: c -> ~ In (OQueued u) a -> u <> t ->
  In (OGranted t) b \/ exists r, In (OEnded t r) b.
Proof.
  intros HL HA E Hu Hne. destruct (left_dec t b) as [H|[H1 H2]]; [exact H|exfalso].
  destruct (waiting_order a t b H1 H2) as (q1 & q2 & Ew & Hq).
  pose proof (HA (a ++ OQueued t :: b) (OGranted u) c) as Hok. rewrite E, <- app_assoc in Hok. specialize (Hok eq_refl). cbn [queue_ok] in Hok.
  rewrite Ew in Hok. destruct Hok as [C|(q & C)]; [destruct q1; discriminate C|].
  destruct q1 as [|x q1]; injection C as -> _; [contradiction|]. apply Hu, Hq. left. reflexivity.
Qed.

(** ** between steps nobody is in the middle of something *)
Definition at_rest (p : phase) : bool := match p with PAdm | PHold | PRel => false | _ => true end.
Definition others (t : Z) (s s' : st) : Prop := forall u, u <> t -> get s' u = get s u.
Definition rests (t : Z) (s s' : st) : Prop := others t s s' /\ forall k, get s' t = Some k -> at_rest (t_phase k) = true.
Lemma others_refl t s : others t s s.
Proof. intros u _. reflexivity. Qed.
Lemma others_trans t a b c : others t a b -> others t b c -> others t a c.
Proof. intros H1 H2 u Hu. rewrite H2, H1 by exact Hu. reflexivity. Qed.
Lemma rests_after t a b c : others t a b -> rests t b c -> rests t a c.
Proof. intros H [H1 H2]. split; [eapply others_trans; eassumption|exact H2]. Qed.
Lemma others_put t k s : others t s (put t k s).
Proof.
  intros u Hu. unfold get, put. fld. rewrite assoc_set_get. destruct (Z.eqb_spec t u); [congruence|reflexivity].
Qed.
Lemma others_goto t p s : others t s (goto t p s).
Proof. unfold goto. destruct (get s t); [apply others_put|apply others_refl]. Qed.
Lemma goto_phase t p s k : get (goto t p s) t = Some k -> t_phase k = p \/ get s t = None.
Proof.
  unfold goto. destruct (get s t) as [k0|] eqn:G; [|auto]. intro H. rewrite (get_put _ _ _ _ _ G), Z.eqb_refl in H. injection H as <-. left. reflexivity.
Qed.
Lemma rests_goto t p s : at_rest p = true -> rests t s (goto t p s).
Proof.
  intro H. split; [apply others_goto|]. intros k G. destruct (goto_phase _ _ _ _ G) as [->|E]; [exact H|].
  unfold goto in G. rewrite E in G. congruence.
Qed.
Lemma rests_finish t r s : rests t s (finish t r s).
Proof. exact (rests_goto t (PDone r) s eq_refl). Qed.
Lemma others_free_lock t s : others t s (free_lock t s).
Proof. intros u Hu. unfold free_lock. change (get (goto t PRel s) u = get s u). apply others_goto, Hu. Qed.
Lemma others_free_sem t j s : others t s (free_sem j s).
Proof. intros u _. rewrite free_sem_nf. reflexivity. Qed.
Lemma rests_raw_raise t j e s : rests t s (raw_raise t j e s).
Proof.
  unfold raw_raise. eapply rests_after; [apply others_free_lock|]. eapply rests_after; [apply (others_free_sem t j)|]. apply rests_finish.
Qed.
Lemma rests_raw_return t j r s : rests t s (raw_return t j r s).
Proof.
  unfold raw_return. eapply rests_after; [apply others_free_lock|].
  destruct (settles j); [apply rests_goto; reflexivity|]. eapply rests_after; [apply (others_free_sem t j)|]. apply rests_finish.
Qed.
Lemma others_uart_send t u f s : others t s (fst (uart_send u f s)).
Proof. intros v _. destruct (uart_send_cases u f s) as [[_ E]|[[_ (bs & _ & E)]|[_ (e & _ & E)]]]; rewrite E; reflexivity. Qed.
Lemma rests_send_and_wait t j f m to s : rests t s (send_and_wait t j f m to s).
Proof.
  unfold send_and_wait. pose proof (others_uart_send t t f (wait_for m to None s)) as E.
  destruct (uart_send t f (wait_for m to None s)) as [s1 [r|e]]; cbn [fst] in E; (eapply rests_after; [exact E|]).
  - apply rests_goto. reflexivity.
  - apply rests_raw_raise.
Qed.
Lemma rests_request_raw t j o s : rests t s (request_raw t j o s).
Proof.
  unfold request_raw. destruct (to_unpi_frame o) as [f|e]; [|apply rests_raw_raise].
  destruct (z_type o); try apply rests_raw_raise; [apply rests_send_and_wait|].
  destruct (is_reset_command o); [apply rests_send_and_wait|]. pose proof (others_uart_send t t f s) as E.
  destruct (uart_send t f s) as [s1 [r|e]]; cbn [fst] in E; (eapply rests_after; [exact E|]); [apply rests_raw_return|apply rests_raw_raise].
Qed.
Lemma rests_granted t k o s : t_obj k = Some o -> rests t s (granted t k s).
Proof. intro Ho. unfold granted. rewrite Ho. eapply rests_after; [|apply rests_request_raw]. exact (others_goto t PHold s). Qed.
Lemma rests_acquire_lock t k o s : t_obj k = Some o -> rests t s (acquire_lock t k s).
Proof.
  intro Ho. unfold acquire_lock. destruct (s_lock s).
  - exact (rests_goto t PLock s eq_refl).
  - destruct (s_queue s); [eapply rests_granted, Ho|exact (rests_goto t PLock s eq_refl)].
Qed.
Lemma rests_acquire_sem t k o s : t_obj k = Some o -> (forall k, get s t = Some k -> at_rest (t_phase k) = true) -> rests t s (acquire_sem t k s).
Proof.
  intros Ho Hr. unfold acquire_sem. destruct (uses_sem (t_job k)).
  - destruct (0 <? s_sem s); [|split; [apply others_refl|exact Hr]].
    eapply rests_after; [|eapply rests_acquire_lock, Ho]. exact (others_goto t PAdm s).
  - eapply rests_after; [|eapply rests_acquire_lock, Ho]. exact (others_goto t PAdm s).
Qed.
Lemma rests_put t k s : at_rest (t_phase k) = true -> rests t s (put t k s).
Proof.
  intro H. split; [apply others_put|]. intros k' G. destruct (get s t) as [k0|] eqn:G0.
  - rewrite (get_put _ _ _ _ _ G0), Z.eqb_refl in G. injection G as <-. exact H.
  - unfold get, put in G. fldin G. rewrite assoc_set_get in G. unfold get in G0. rewrite G0, Z.eqb_refl in G. discriminate.
Qed.
Lemma rests_start t k s : rests t s (start t k s).
Proof.
  unfold start.
  assert (Hmain : forall j, rests t s
    (match build j with
     | Err e => finish t (OExn e) s
     | Ok o =>
       match response_waiter j o with
       | Err e => finish t (OExn e) s
       | Ok None => let k := mk_task j PSem (Some o) None in acquire_sem t k (prepared t k s)
       | Ok (Some (m, sequence)) =>
           let k := mk_task j PSem (Some o) (Some (s_next s)) in
           acquire_sem t k (prepared t k (wait_for m Timeouts_default sequence s))
       end
     end)).
  { intro j. destruct (build j) as [o|e]; [|apply rests_finish].
    destruct (response_waiter j o) as [[[m q]|]|e]; cbv zeta; [| |apply rests_finish]; unfold prepared.
    - eapply rests_after; [apply (others_put t (mk_task j PSem (Some o) (Some (s_next s))) s)|].
      eapply rests_after; [|eapply rests_acquire_sem; [reflexivity|]].
      + intros u Hu. rewrite (others_put t _ (wait_for m Timeouts_default q s) u Hu), (others_put t _ s u Hu). reflexivity.
      + apply rests_put. reflexivity.
    - eapply rests_after; [apply (others_put t (mk_task j PSem (Some o) None) s)|].
      eapply rests_acquire_sem; [reflexivity|]. apply rests_put. reflexivity. }
  destruct (t_job k); try apply Hmain. eapply rests_after; [|apply rests_goto; reflexivity]. intros u _. reflexivity.
Qed.

Definition At_rest (s : st) : Prop := forall t k, get s t = Some k -> at_rest (t_phase k) = true.
Lemma rests_ok t s s' : rests t s s' -> At_rest s -> At_rest s'.
Proof.
  intros [H1 H2] HA u k G. destruct (Z.eq_dec u t) as [->|Hne]; [apply H2, G|]. rewrite H1 in G by exact Hne. eapply HA, G.
Qed.
Lemma resume_rests s t : Core s -> At_rest s -> At_rest (resume t s).
Proof.
  intros Hc HA. unfold resume. destruct (get s t) as [k|] eqn:G; [|exact HA].
  pose proof (proj1 (proj2 Hc) t k G) as Hk. unfold Task_ok in Hk.
  destruct (t_phase k) eqn:Hp; try exact HA.
  - eapply rests_ok; [apply rests_start|exact HA].
  - destruct Hk as (o & Ho & _). eapply rests_ok; [eapply rests_acquire_sem; [exact Ho|apply HA]|exact HA].
  - destruct Hk as (o & Ho & _). destruct (s_lock s); [exact HA|]. destruct (s_queue s) as [|h q]; [exact HA|]. destruct (h =? t); [|exact HA].
    eapply rests_ok; [eapply (rests_granted _ _ o (set_queue q s)), Ho|exact HA].
  - destruct (s_futs s i) as [|r|]; try exact HA. destruct (t_obj k) as [o|]; [|exact HA]. eapply rests_ok; [|exact HA].
    unfold request_raw_resume. destruct (z_type o); try apply rests_raw_return.
    destruct (unexpected_status r (expected_of (t_job k))) as [c|]; [|apply rests_raw_return].
    destruct (t_wid k) as [j|]; [|apply rests_raw_raise]. destruct (registered s j); [|apply rests_raw_raise].
    rewrite complete_nf. eapply rests_after; [|apply rests_raw_raise]. intros u _. reflexivity.
  - destruct (until <=? s_now s); [|exact HA]. eapply rests_ok; [|exact HA]. eapply rests_after; [apply (others_free_sem t (t_job k))|apply rests_finish].
  - eapply rests_ok; [apply rests_goto; reflexivity|exact HA].
  - destruct (s_futs s i); try exact HA. eapply rests_ok; [apply rests_finish|exact HA].
Qed.
Lemma timeout_rests s t : At_rest s -> At_rest (wait_timeout t s).
Proof.
  intro HA. unfold wait_timeout. destruct (get s t) as [k|] eqn:G; [|exact HA].
  destruct (t_phase k) eqn:Hp; try exact HA; destruct (s_futs s i); try exact HA; destruct (deadline <=? s_now s); try exact HA;
    rewrite cancel_fut_nf; (eapply rests_ok; [eapply rests_after; [|first [apply rests_raw_raise|apply rests_finish]]|exact HA]); intros u _; reflexivity.
Qed.
Lemma cancel_rests s t : At_rest s -> At_rest (cancel t s).
Proof.
  intro HA. unfold cancel. destruct (get s t) as [k|] eqn:G; [|exact HA].
  destruct (t_phase k) eqn:Hp; try exact HA; try rewrite cancel_fut_nf; try rewrite free_sem_nf;
    (eapply rests_ok; [eapply rests_after; [|first [apply rests_raw_raise|apply rests_finish]]|exact HA]); intros u _; reflexivity.
Qed.
Lemma spawn_rests j s : At_rest s -> At_rest (spawn j s).
Proof. intros HA t k G. unfold get, spawn, note in G. fldin G. look G; [eapply HA; eassumption|reflexivity]. Qed.
Lemma effects_rest es : forall s, At_rest s -> At_rest (fold_left (fun s e => do_effect e s) es s).
Proof.
  induction es as [|e es IH]; intros s HA; cbn [fold_left]; [exact HA|]. apply IH. destruct e; try exact HA. apply spawn_rests. exact HA.
Qed.
Lemma data_received_rests s f : At_rest s -> At_rest (fst (data_received s f)).
Proof.
  intro HA. unfold data_received. destruct (from_unpi_frame f) as [o|e]; [|exact HA].
  destruct (dispatch_spec o (s_waiters (note (OReceived o) s)) (note (OReceived o) s)) as (pre & post & o' & r & _ & E & _). rewrite E.
  assert (H1 : At_rest (completes (filter (hit o) pre) o (note (OReceived o) s))) by (rewrite completes_nf; exact HA).
  destruct r; [|exact H1]. unfold app_handle. destruct (s_app _); [|exact H1].
  destruct (handle_znp _ _ _) as [[d es] r]. apply effects_rest. exact H1.
Qed.
Lemma gw_rests bs : forall s b, At_rest s -> At_rest (snd (fst (gw_data_received data_received b s bs))).
Proof.
  induction bs as [|x bs IH]; intros s b HA; cbn [gw_data_received]; [exact HA|].
  destruct (parser_write b x) as [b1 [[f|]|e]]; [|apply IH, HA|exact HA].
  pose proof (data_received_rests s f HA) as H. destruct (data_received s f) as [s1 [[]|e]]; cbn [fst] in *; [apply IH, H|exact H].
Qed.
Lemma step_rests e s : Core s -> At_rest s -> At_rest (step e s).
Proof.
  intros Hc HA. destruct e; cbn [step].
  - apply spawn_rests, HA.
  - apply resume_rests; assumption.
  - apply timeout_rests, HA.
  - apply cancel_rests, HA.
  - destruct (cleanup_nf i s) as [->|[_ ->]]; exact HA.
  - destruct (0 <=? ms); exact HA.
  - unfold receive. pose proof (gw_rests data s (s_buf s) HA) as H.
    destruct (gw_data_received data_received (s_buf s) s data) as [[b s1] r]. cbn [fst snd] in H. destruct r; exact H.
  - exact HA.
  - exact HA.
Qed.
Lemma reachable_rests cap s : 0 <= cap -> reachable cap s -> At_rest s.
Proof.
  intros Hcap (v & d & a & es & ->). assert (H0 : At_rest (init cap v d a)) by discriminate.
  pose proof (core_init cap v d a) as Hc. revert H0 Hc. generalize (init cap v d a).
  induction es as [|e es IH]; intros s H0 Hc; [exact H0|]. cbn [run fold_left]. apply IH; [apply step_rests; assumption|].
  eapply core_prims; [apply step_prims, Hc|exact Hc].
Qed.
(** whoever holds the link between two steps awaits an answer *)
Lemma holder_waits cap s t : 0 <= cap -> reachable cap s -> s_lock s = Some t ->
  exists k i d, get s t = Some k /\ t_phase k = PWait i d.
Proof.
  intros Hcap Hr E. destruct (proj1 (I_lock _ _ (reachable_inv cap s Hcap Hr)) t E) as (k & G & Hh). fold (get s t) in G.
  pose proof (reachable_rests cap s Hcap Hr t k G) as Ha. destruct (t_phase k) eqn:Hp; try discriminate. exists k, i, deadline. auto.
Qed.
