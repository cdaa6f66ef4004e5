(** * WholeInv: what a wait of a start-up may end with, when the reply waiters of other API objects are used on this one *)
From Coq Require Import ZifyBool ZifyNat.
From Verif Require Import Base Types Uart Buffalo CmdTable Zpi Api App Machine SpecWire SpecCodec SpecApi SpecMachine Nv StartZnp SpecStart Host SpecHost
  MachineBase MachineInv MachineInv2 MachineInv3 MachineInv4 MachineInv5 DispatchProofs MachineProofs MachineProofs4 StartLink HostProofs WorldInv World.

(** a request that was to use waiter [i] was refused with [r] *)
Definition refusal (s : st) (i : Z) (r : zpi) : Prop :=
  exists u k c, get s u = Some k /\ t_wid k = Some i /\ unexpected_status r (expected_of (t_job k)) = Some c /\
    t_phase k = PDone (outcome_of_exn (t_job k) (CommandError c)).
Lemma refusal_x s s' i r : xprim s s' -> refusal s i r -> refusal s' i r.
Proof.
  intros H (u & k & c & G & W & U & P). exists u, k, c. split; [|auto]. eapply done_x; [exact H|exact G|rewrite P; reflexivity].
Qed.
Definition came_for (s : st) (m : matcher) (i : Z) (r : zpi) : Prop :=
  In (OReceived r) (s_log s) /\ (waiter_match m r = Ok true \/ refusal s i r).
Lemma came_for_x s s' m i r : xprim s s' -> came_for s m i r -> came_for s' m i r.
Proof.
  intros H [H1 H2]. split; [eapply grows_in; [eapply log_x, H|exact H1]|]. destruct H2 as [H2|H2]; [left; exact H2|right; eapply refusal_x; eassumption].
Qed.
Definition wait_ok (s : st) (i : Z) (m : matcher) : Prop :=
  (forall w, In w (s_waiters s) -> w_id w = i -> w_matcher w = m) /\ (forall r, s_futs s i = FDone r -> came_for s m i r).
Lemma wait_ok_keep s s' i m : xprim s s' -> (forall w, In w (s_waiters s') -> w_id w = i -> In w (s_waiters s)) ->
  (forall r, s_futs s' i = FDone r -> s_futs s i = FDone r) -> wait_ok s i m -> wait_ok s' i m.
Proof.
  intros H W F [W1 W2]. split; [intros w Hw E; apply W1; auto|]. intros r Hr. eapply came_for_x; [exact H|]. apply W2, F, Hr.
Qed.
Lemma cancelled_done f i j r : cancelled f i j = FDone r -> f j = FDone r.
Proof. unfold cancelled, upd. destruct (f i) eqn:E; auto. destruct (Z.eqb_spec j i) as [->|]; [discriminate|auto]. Qed.
Lemma recent_received o l : recent o l -> In (OReceived o) l.
Proof. intros (a & b & -> & _). apply in_or_app. right. left. reflexivity. Qed.
Lemma wait_ok_x s s' i m : xprim s s' -> Winv s -> i < s_next s -> wait_ok s i m -> wait_ok s' i m.
Proof.
  intros H V Hi W. assert (X := H). destruct H as [s s' H Hnt|s j Hj|s o wid|s m0 to q|s b|s b].
  2,3,5,6: (apply (wait_ok_keep s _ i m X); [intros w Hw _; exact Hw|intros r Hr; exact Hr|exact W]).
  2: { apply (wait_ok_keep s _ i m X); [|intros r Hr; opn_in Hr; rewrite upd_other in Hr by lia; exact Hr|exact W].
       intros w Hw E. opn_in Hw. apply in_app_or in Hw as [Hw|[<-|[]]]; [exact Hw|fldin E; lia]. }
  destruct H; try (opn_in Hnt; lia); revert X; prim_nf; intro X;
    try (apply (wait_ok_keep s _ i m X); [intros w0 Hw0 E0; opn_in Hw0|intros r0 Hr0; opn_in Hr0|exact W];
         try assumption; try (eapply cancelled_done; eassumption);
         try (rewrite upd_other in Hr0 by lia; exact Hr0);
         try (apply in_app_or in Hw0 as [Hw0|[<-|[]]]; [exact Hw0|fldin E0; lia]);
         try (destruct (s_futs s i0); try assumption; apply filter_In in Hw0; apply Hw0); fail).
  - (* refused, the waiter gets the refusal *)
    destruct W as [W1 W2]. split.
    + intros w Hw E. opn_in Hw. apply filter_In in Hw as [Hw _]. apply W1; assumption.
    + intros r0 Hr0. opn_in Hr0. unfold resulted, upd in Hr0. destruct (Z.eqb_spec i j) as [->|]; [|eapply came_for_x; [exact X|apply W2, Hr0]].
      destruct (s_futs s j) eqn:E; try discriminate Hr0; [|eapply came_for_x; [exact X|apply W2; congruence]].
      injection Hr0 as <-. destruct (leavesW s t k i0 d [] [] (V_waiters s V) H H0 (fun x => x)) as (o' & m' & to' & a' & bs' & lb' & _ & _ & _ & _ & _ & Ho & Hf).
      destruct (Hf r H2) as [Hf1 _].
      assert (Hin : In (OReceived r) (s_log s)).
      { destruct Ho as (la & lc & El & _). assert (K : In (OReceived r) (s_log s ++ [OFreed t])).
        { cbn [app] in El. rewrite El. apply in_or_app. right. right. apply in_or_app. left. exact Hf1. }
        apply in_app_or in K as [K|[K|[]]]; [exact K|discriminate K]. }
      split; [eapply grows_in; [eapply log_x, X|exact Hin]|]. right. exists t, (mk_task (t_job k) (PDone (outcome_of_exn (t_job k) (CommandError c))) (t_obj k) (t_wid k)), c.
      cbn [t_job t_phase t_wid]. split; [|auto]. opn. unfold get in H. rewrite (assoc_put _ _ _ _ _ H), Z.eqb_refl. reflexivity.
  - (* completed by a message *)
    destruct W as [W1 W2]. split.
    + intros w0 Hw E. opn_in Hw. apply filter_In in Hw as [Hw _]. apply W1; assumption.
    + intros r0 Hr0. opn_in Hr0. unfold resulted, upd in Hr0. destruct (Z.eqb_spec i (w_id w)) as [->|]; [|eapply came_for_x; [exact X|apply W2, Hr0]].
      destruct (s_futs s (w_id w)) eqn:E; try discriminate Hr0; [|eapply came_for_x; [exact X|apply W2; congruence]].
      injection Hr0 as <-. eapply came_for_x; [exact X|]. split; [apply recent_received; assumption|]. left. rewrite <- (W1 w H eq_refl). exact H0.
Qed.

(** every task that stands for a wait *)
Definition Heard1 (s : st) (k : task) : Prop :=
  match t_phase k with
  | PReg i _ | PAwait i _ => exists m to, t_job k = JWaitFor m to /\ wait_ok s i m
  | PDone x => forall m to, t_job k = JWaitFor m to ->
      (exists e, x = OExn e /\ e <> AssertionError) \/ (exists r i, x = ORet (Some r) /\ came_for s m i r)
  | _ => True
  end.
Definition Heard (s : st) : Prop := forall t k, get s t = Some k -> Heard1 s k.
Lemma heard1_x s s' t k : xprim s s' -> Winv s -> get s t = Some k -> Heard1 s k -> Heard1 s' k.
Proof.
  intros X V G. unfold Heard1. destruct (t_phase k) as [| | | | | | | |i to|i d|x] eqn:P; auto.
  - intros (m & to' & J & W). exists m, to'. split; [exact J|]. eapply wait_ok_x; try eassumption. eapply (proj1 (V_own s V)); [exact G|rewrite P; left; reflexivity].
  - intros (m & to' & J & W). exists m, to'. split; [exact J|]. eapply wait_ok_x; try eassumption. eapply (proj1 (V_own s V)); [exact G|rewrite P; left; reflexivity].
  - intros H m to J. destruct (H m to J) as [E|(r & i & E & C)]; [left; exact E|right]. exists r, i. split; [exact E|eapply came_for_x; eassumption].
Qed.
Lemma heard_x s s' : xprim s s' -> Winv s -> Heard s -> Heard s'.
Proof.
  intros X V H. assert (X' := X). destruct X as [s s' P Hnt|s j Hj|s o wid|s m0 to q|s b|s b].
  2,3: (intros t k G; unfold called in *; opn_in G; look G; [eapply heard1_x; [exact X'|exact V|eassumption|apply (H t)]; eassumption|exact I]).
  2,3,4: (intros t k G; eapply heard1_x; [exact X'|exact V|exact G|apply (H t), G]).
  pose proof (V_tasks s V) as T.
  destruct P; try (opn_in Hnt; lia); revert X'; prim_nf; intros X' t' k' G;
    try (eapply heard1_x; [exact X'|exact V|exact G|apply (H t'), G]; fail);
    assert (G0 := G); opn_in G0; unfold get in H0; try (look G0; [|eapply heard1_x; [exact X'|exact V|exact G0|apply (H t'), G0]]);
    try exact I; try (eapply heard1_x; [exact X'|exact V|exact G0|apply (H t'), G0]; fail); unfold Heard1; fld.
  all: try (intros m1 to1 J1; exfalso; pose proof (T _ _ H0) as [_ Hk]; rewrite H1 in Hk; try contradiction; destruct Hk as (ob & _ & Hb); rewrite J1 in Hb; discriminate Hb).
  all: try (intros m1 to1 J1; left; eexists; split; [reflexivity|discriminate]; fail).
  all: try (exfalso; pose proof (T _ _ H0) as [Hu _]; eapply not_settles; eassumption).
  - intros m1 to1 J1. left. exists e. split; [reflexivity|]. intros ->. rewrite J1 in H2. destruct H2 as [H2|[H2|(ob & H2 & _)]]; discriminate H2.
  - exists m, to. split; [assumption|]. split.
    + intros w Hw E. opn_in Hw. apply in_app_or in Hw as [Hw|[<-|[]]]; [|reflexivity].
      destruct (V_ids s V) as (_ & _ & Hlt & _). specialize (Hlt w Hw). lia.
    + intros r Hr. opn_in Hr. rewrite upd_same in Hr. discriminate Hr.
  - pose proof (H t k H0) as Hk. unfold Heard1 in Hk. rewrite H1 in Hk. destruct Hk as (m1 & to1 & J1 & W1). exists m1, to1. split; [exact J1|].
    eapply wait_ok_x; [exact X'|exact V| |exact W1]. eapply (proj1 (V_own s V)); [exact H0|rewrite H1; left; reflexivity].
  - intros m1 to1 J1. right. exists r, i. split; [reflexivity|]. eapply came_for_x; [exact X'|].
    pose proof (H t k H0) as Hk. unfold Heard1 in Hk. rewrite H1 in Hk. destruct Hk as (m2 & to2 & J2 & _ & W1). rewrite J1 in J2. injection J2 as <- <-. apply W1, H2.
Qed.
Lemma heard_xs s s' : xprims s s' -> Winv s -> Heard s -> Heard s'.
Proof.
  induction 1 as [s|s1 s2 s3 X _ IH]; intros V H; [exact H|]. apply IH; [eapply winv_x; eassumption|eapply heard_x; eassumption].
Qed.
Lemma heard_new now : Heard (new_api now).
Proof. intros t k G. discriminate G. Qed.
