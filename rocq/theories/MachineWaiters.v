(** * MachineWaiters: whose each waiter is, what it waits for, and for how long *)
From Coq Require Import ZifyBool ZifyNat.
From Verif Require Import Base Types Uart Buffalo CmdTable Zpi Api App Machine SpecWire UartProofs UartProofs2 SpecCodec SpecApi SpecMachine SpecMatch SpecWaiters CodecProofs CodecProofs2 RequestProofs ApiProofs AppProofs
  MachineBase MachineInv MachineInv2 MachineInv3 MachineInv4 MachineInv5 DispatchProofs MachineProofs MachineProofs2 MachineProofs3 MachineProofs4 MachineProofs5 MachineProofs6 MatchProofs.

Definition Owned (s : st) (w : waiter) : Prop :=
  exists t k, get s t = Some k /\ makes_waiter (t_job k) (w_matcher w) (w_seq w) (w_timeout w).
Definition All_owned (s : st) : Prop := forall w, In w (s_waiters s) -> Owned s w.
Lemma owned_keep s s' w : same_job s s' -> Owned s w -> Owned s' w.
Proof. intros J (t & k & G & R). destruct (J t k G) as (k' & G' & Hj). exists t, k'. split; [exact G'|]. rewrite Hj. exact R. Qed.
Lemma awaited_makes j o m to : build j = Ok o -> awaited o = Some (m, to) -> makes_waiter j m None to.
Proof.
  intros Hb Ha. pose proof (awaited_limit o m to Ha) as ->. revert Ha. unfold awaited. destruct (z_type o) eqn:Ht; try discriminate.
  - intro H. injection H as <- _. apply rg_response; assumption.
  - destruct (is_reset_command o) eqn:Er; [|discriminate]. intro H. injection H as <- _.
    assert (limit o = 30000) as -> by (unfold limit; rewrite Ht; reflexivity). apply (rg_reset j o); [assumption|assumption|]. apply is_reset, Er.
Qed.
Lemma reply_makes j o m q : build j = Ok o -> response_waiter j o = Ok (Some (m, q)) -> makes_waiter j m q 10000.
Proof.
  intros Hb Hw. assert (exists n, reply_number j = Some n /\ create_response_waiter o (Some n) = Ok (Some (m, q))) as (n & En & Ec).
  { destruct j; try discriminate Hw; cbn [response_waiter] in Hw; cbn [reply_number].
    - destruct expect_reply; [|discriminate Hw]. eauto.
    - eauto. }
  apply (rg_reply j o n); [assumption|assumption|]. apply reply_waiter_iff, Ec.
Qed.
(** what a task at its turn sends is what its call asked for *)
Definition Holds (s : st) : Prop := forall t k o, get s t = Some k -> t_phase k = PHold -> t_obj k = Some o -> build (t_job k) = Ok o.
Lemma tasks_hold s : Tasks_ok s -> Holds s.
Proof. intros Hok t k o G Hp Ho. pose proof (Hok _ _ G) as Hk. unfold Task_ok in Hk. rewrite Hp in Hk. destruct Hk as (o' & Ho' & Hb & _). congruence. Qed.
(** the waiters that a step adds *)
Lemma new_prim s s' : prim s s' -> Holds s -> forall w, In w (s_waiters s') -> In w (s_waiters s) \/ Owned s' w.
Proof.
  intros H Hok. pose proof (job_prim s s' H) as J. revert J. destruct H; prim_nf; intro J;
    try (intros x Hx; opn_in Hx; left;
         first [exact Hx|apply filter_In in Hx; apply Hx|destruct (s_futs s i); first [exact Hx|apply filter_In in Hx; apply Hx]]; fail).
  all: intros x Hx; opn_in Hx; apply in_app_or in Hx as [Hx|[<-|[]]]; [left; exact Hx|right]; destruct (J t k H) as (k' & G' & Hj);
    exists t, k'; (split; [exact G'|]); cbn [w_matcher w_seq w_timeout]; rewrite Hj.
  - eapply reply_makes; eassumption.
  - apply rg_wait. assumption.
  - eapply awaited_makes; [eapply Hok; eassumption|eassumption].
  - eapply awaited_makes; [eapply Hok; eassumption|eassumption].
Qed.
Lemma owned_prim s s' : prim s s' -> Core s -> All_owned s -> All_owned s'.
Proof.
  intros H Hc O w Hin. destruct (new_prim s s' H) with (w := w) as [K|K]; [apply tasks_hold, Hc|exact Hin| |exact K].
  eapply owned_keep; [apply job_prim, H|apply O, K].
Qed.
Lemma owned_prims s s' : prims s s' -> Core s -> All_owned s -> All_owned s'.
Proof. induction 1 as [|? ? ? H _ IH]; [auto|]. intros Hc O. apply IH; [eapply core_prim; eassumption|]. eapply owned_prim; eassumption. Qed.
Theorem reachable_owned cap s : reachable cap s -> All_owned s.
Proof. intros (v & d & a & es & ->). eapply owned_prims; [apply run_prims, core_init|apply core_init|]. intros w []. Qed.
