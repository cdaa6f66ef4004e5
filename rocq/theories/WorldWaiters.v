(** * WorldWaiters: whose each waiter is, across losses of the connection *)
From Coq Require Import ZifyBool ZifyNat.
From Verif Require Import Base Types Uart Buffalo CmdTable Zpi Api App Machine Life World SpecWire SpecCodec SpecApi SpecMachine SpecFirst SpecBlame SpecWorld SpecWorldBlame SpecMatch SpecWaiters
  UartProofs CodecProofs CodecProofs2 ApiProofs AppProofs MachineBase MachineInv MachineInv2 MachineInv3 MachineInv4 MachineInv5 DispatchProofs MachineProofs MachineProofs2
  MachineProofs3 MachineProofs4 MachineProofs6 MachineProofs11 MachineProofs12 MachineFair MachineFirst MachineBlame MachineProgress LifeProofs2 WorldInv WorldFace WorldBase
  WorldProofs WorldLife WorldOps WorldOwn WorldProgress2 WorldProofs4 WholeHost LinkBlame LinkBlame2 WorldBlame WorldBlame2 MatchProofs MachineWaiters.

Definition OwnedW (Sq : Z -> Prop) (s : st) (x : waiter) : Prop :=
  Owned s x \/ Sq (w_id x) /\ w_timeout x = 10000 /\ exists sq, wanted (w_matcher x) (w_seq x) sq.
Definition Kept (Sq : Z -> Prop) (s : st) : Prop := good_buffer (s_buf s) /\ forall x, In x (s_waiters s) -> OwnedW Sq s x.
Lemma ownedW_keep Sq s s' x : same_job s s' -> OwnedW Sq s x -> OwnedW Sq s' x.
Proof. intros J [H|H]; [left; eapply owned_keep; eassumption|right; exact H]. Qed.
Lemma winv_holds s : Winv s -> Holds s.
Proof. intros V t k o G Hp Ho. pose proof (V_tasks _ V _ _ G) as [_ Hk]. rewrite Hp in Hk. destruct Hk as (o' & Ho' & Hb). congruence. Qed.
Lemma new_prims s s' : prims s s' -> s_ntid s' = s_ntid s -> Winv s -> forall x, In x (s_waiters s') -> In x (s_waiters s) \/ Owned s' x.
Proof.
  induction 1 as [s|s1 s2 s3 H Hs IH]; intros E V x Hx; [left; exact Hx|].
  pose proof (proj1 (prims_work _ _ Hs)) as L. pose proof (proj1 (prims_work _ _ (prims_one _ _ H))) as L0.
  assert (E1 : s_ntid s2 = s_ntid s1) by lia.
  destruct (IH ltac:(lia) (winv_x _ _ (X_prim _ _ H E1) V) x Hx) as [K|K]; [|right; exact K].
  destruct (new_prim s1 s2 H (winv_holds _ V) x K) as [K'|K']; [left; exact K'|]. right. eapply owned_keep; [|exact K'].
  eapply job_xs, prims_x; [exact Hs|lia].
Qed.
Lemma kept_gentle Sq C s s' : gentle Sq C s s' -> Winv s -> Kept Sq s -> Kept Sq s'.
Proof.
  intros G V [B K]. pose proof (job_xs _ _ (gentle_x _ _ _ _ G V)) as J.
  assert (Old : forall x, In x (s_waiters s) -> OwnedW Sq s' x) by (intros x Hx; eapply ownedW_keep; [exact J|apply K, Hx]).
  destruct G as [s s' H1 H2 _ _ Eb _|s j Hj|s o wid|s m q sq H1 H2|s b Hb|s f r Hf Hb].
  - split; [rewrite Eb; exact B|]. intros x Hx. destruct (new_prims s s' H1 H2 V x Hx) as [X|X]; [apply Old, X|left; exact X].
  - split; [exact B|exact Old].
  - split; [exact B|exact Old].
  - split; [exact B|]. intros x Hx. opn_in Hx. apply in_app_or in Hx as [Hx|[<-|[]]]; [apply Old, Hx|]. right. cbn [w_id w_timeout w_matcher w_seq].
    split; [exact H1|]. split; [reflexivity|exists sq; exact H2].
  - split; [exact Hb|exact Old].
  - destruct (received_parts s r (V_ids _ V)) as (pre & post & o' & x0 & _ & _ & Ew & _ & _ & _ & _ & Eb). split.
    + rewrite Eb. exact B.
    + intros x Hx. rewrite Ew in Hx. apply filter_In in Hx. apply Old, Hx.
Qed.

(** ** along a run *)
Definition KeptW (w : world) : Prop := forall a s, nth_error (w_apis w) a = Some s -> Kept (Sqw w a) s.
Lemma kept_mono (P Q : Z -> Prop) s : (forall i, P i -> Q i) -> Kept P s -> Kept Q s.
Proof. intros H [B K]. split; [exact B|]. intros x Hx. destruct (K x Hx) as [X|[X Y]]; [left; exact X|right; split; [apply H, X|exact Y]]. Qed.
Lemma kept_q C w w' : wq C w w' -> Apis w -> KeptW w -> KeptW w'.
Proof.
  intros [v a s s' E G|v v' [E Lo]] A K b x Hb.
  - wfldin Hb. rewrite nth_set in Hb. destruct (Nat.eqb_spec b a) as [->|]; [|exact (K b x Hb)]. rewrite E in Hb. injection Hb as <-.
    eapply kept_gentle; [exact G|apply (A _ _ E)|exact (K a s E)].
  - rewrite E in Hb. eapply kept_mono; [|exact (K b x Hb)]. intro i. apply sqw_more, Lo.
Qed.
Lemma kept_qs C w w' : wqs C w w' -> Apis w -> KeptW w -> KeptW w'.
Proof. induction 1 as [|? ? ? H _ IH]; [auto|]. intros A K. apply IH; [eapply apis_q; eassumption|eapply kept_q; eassumption]. Qed.
Lemma kept_step e w : Apis w -> KeptW w -> KeptW (world_step e w).
Proof.
  intros A K.
  assert (Q : match e with VTick _ | VLife _ => False | _ => True end -> KeptW (world_step e w)).
  { intro H. eapply (kept_qs (fun _ _ => True)); [|exact A|exact K]. apply step_q; auto. intros a s E. apply (K a s E). }
  destruct e; try (apply Q; exact I).
  - cbn [world_step]. destruct (0 <=? ms); [|exact K]. intros a s' E'. wfldin E'. rewrite nth_map in E'. destruct (nth_error (w_apis w) a) as [s|] eqn:E; [|discriminate E'].
    injection E' as <-. exact (K a s E).
  - cbn [world_step]. intros a s' E'. unfold life_event_happens in E'. wfldin E'. rewrite sync_nth in E'. destruct (nth_error (y_apis _) a) as [x|]; [|discriminate E'].
    injection E' as <-. destruct (nth_error (w_apis w) a) as [s|] eqn:E; [exact (K a s E)|]. split; [apply good_nil|intros y []].
Qed.
Lemma wreach_kept w : wreachable w -> KeptW w.
Proof.
  intros (devs & es & ->). induction es as [|e es IH] using rev_ind; [intros a s E; destruct a; discriminate E|].
  rewrite world_run_snoc. apply kept_step; [|exact IH]. apply wreach_good. exists devs, es. reflexivity.
Qed.

(** ** what an operation's waiter waits for *)
Lemma waiters_x s s' : xprim s s' -> s_next s <= s_next s' /\ forall x, In x (s_waiters s') -> In x (s_waiters s) \/ s_next s <= w_id x.
Proof.
  intro H. start_x H; [|..].
  - start_prim H; (split; [lia|]); intros x Hx; opn_in Hx;
      first [left; exact Hx|apply filter_In in Hx; left; apply Hx|destruct (s_futs s i); first [left; exact Hx|apply filter_In in Hx; left; apply Hx]
            |apply in_app_or in Hx as [Hx|[<-|[]]]; [left; exact Hx|right; cbn [w_id]; lia]].
  - split; [opn; lia|]. intros x Hx. left. exact Hx.
  - split; [unfold called; opn; lia|]. intros x Hx. left. exact Hx.
  - split; [opn; lia|]. intros x Hx. opn_in Hx. apply in_app_or in Hx as [Hx|[<-|[]]]; [left; exact Hx|right; cbn [w_id]; lia].
  - split; [opn; lia|]. intros x Hx. left. exact Hx.
  - split; [opn; lia|]. intros x Hx. left. exact Hx.
Qed.
Lemma waiters_xs s s' : xprims s s' -> s_next s <= s_next s' /\ forall x, In x (s_waiters s') -> In x (s_waiters s) \/ s_next s <= w_id x.
Proof.
  induction 1 as [s|s1 s2 s3 H Hs [L IH]]; [split; [lia|auto]|]. apply waiters_x in H as [L1 H]. split; [lia|].
  intros x Hx. destruct (IH x Hx) as [X|X]; [apply H, X|right; lia].
Qed.

Definition Made (w : world) : Prop := forall n a i s x, In (WWaiter n a i) (w_log w) -> nth_error (w_apis w) a = Some s -> In x (s_waiters s) -> w_id x = i ->
  exists o, the_op w n = Some o /\ reply_number (op_job o) <> None /\ makes_waiter (op_job o) (w_matcher x) (w_seq x) (w_timeout x).
Lemma made_p w w' : Good w -> Linked w -> Marks w -> wprim w w' -> Made w -> Made w'.
Proof.
  intros G L [M1 _] H M. pose proof (ext_p w w' G H L) as E. pose proof (kept_p w w' H) as K.
  assert (OLD : forall n a i s x, In (WWaiter n a i) (w_log w) -> nth_error (w_apis w') a = Some s -> In x (s_waiters s) -> w_id x = i ->
    exists o, the_op w' n = Some o /\ reply_number (op_job o) <> None /\ makes_waiter (op_job o) (w_matcher x) (w_seq x) (w_timeout x)).
  { intros n a i s' x Hl A' Hx Hi. destruct (M1 n a i Hl) as (s & A & I0). destruct (E a s A) as (s1 & A1 & Xs). assert (s1 = s') as -> by congruence.
    destruct (waiters_xs s s' Xs) as [_ W]. destruct (W x Hx) as [X|X]; [|lia]. destruct (M n a i s x Hl A X Hi) as (o & O & R).
    destruct (K n o O) as (o' & O' & Ej). exists o'. split; [exact O'|]. rewrite Ej. exact R. }
  assert (KEEP : forall o, (forall n a i, o <> WWaiter n a i) -> (w_log w' = w_log w \/ w_log w' = w_log w ++ [o]) -> Made w').
  { intros o N Lg n a i s x Y. apply OLD. destruct Lg as [Lg|Lg]; rewrite Lg in Y; [exact Y|]. apply in_app_or in Y. destruct Y as [Y|[Y|[]]]; [exact Y|destruct (N _ _ _ Y)]. }
  destruct H; try (apply (KEEP (WCalled 0)); [discriminate|left; reflexivity]); try (eapply KEEP; [|right; reflexivity]; discriminate).
  - eapply KEEP; [|right; reflexivity]. intros n a i ->. discriminate.
  - intros n' a' i s' x Y A' Hx Hi. wfldin Y. apply in_app_or in Y. destruct Y as [Y|[[= <- <- <-]|[]]]; [eapply OLD; eassumption|].
    destruct (K n o H) as (o' & O' & Ej). exists o'. split; [exact O'|]. rewrite Ej. wfldin A'. rewrite nth_set, Nat.eqb_refl, H4 in A'. injection A' as <-.
    opn_in Hx. apply in_app_or in Hx as [Hx|[<-|[]]].
    + exfalso. pose proof (V_ids _ (proj2 (proj2 G) a s H4)) as (_ & _ & Hids & _). specialize (Hids x Hx). lia.
    + cbn [w_matcher w_seq w_timeout]. assert (reply_number (op_job o) = Some sq) as En by (destruct (op_job o); try discriminate H2; exact H2).
      split; [congruence|]. eapply rg_reply; [exact H1|exact En|apply reply_waiter_iff; exact H5].
Qed.
Lemma wreach_made w : wreachable w -> Made w.
Proof.
  intro R. enough (X : (Linked w /\ Marks w) /\ Made w) by apply X. revert w R. apply wreach_ind.
  - intro devs. split; [split; [apply linked_init|]; split; intros ? *; intros []|]. intros n a i s x [].
  - intros w w' G H [[L M] D]. split; [split; [eapply linked_p; eassumption|eapply marks_p; eassumption]|eapply made_p; eassumption].
Qed.
Theorem world_waiters w a s x : wreachable w -> nth_error (w_apis w) a = Some s -> In x (s_waiters s) ->
  (exists t k, get s t = Some k /\ makes_waiter (t_job k) (w_matcher x) (w_seq x) (w_timeout x)) \/
  (exists n o, In (WWaiter n a (w_id x)) (w_log w) /\ the_op w n = Some o /\ reply_number (op_job o) <> None /\ makes_waiter (op_job o) (w_matcher x) (w_seq x) (w_timeout x)).
Proof.
  intros R A Hx. destruct (proj2 (wreach_kept w R a s A) x Hx) as [X|[[n Hn] _]]; [left; exact X|]. right.
  destruct (wreach_made w R n a (w_id x) s x Hn A Hx eq_refl) as (o & O & Y). exists n, o. auto.
Qed.
