(** * WorldLife: API objects of the world and those of Life.v are the same *)
From Coq Require Import ZifyBool ZifyNat.
From Verif Require Import Base Types Uart Buffalo CmdTable Zpi Api App Machine Life World SpecMachine SpecLife SpecWorld
  MachineBase MachineInv MachineInv2 MachineInv3 MachineInv4 MachineInv5 DispatchProofs MachineProofs MachineProofs4 MachineProgress
  LifeProofs2 WorldInv WorldFace WorldBase WorldProofs.

(** ** what a step of Life.v does to an API object: nothing, hand over its port, or close it *)
Definition api_moves (x y : api_obj) : Prop :=
  y = x \/ (x = mk_api_obj None false /\ exists g, y = mk_api_obj (Some g) true) \/ (y = mk_api_obj None (a_app x)).
Definition apis_move (l l' : list api_obj) : Prop :=
  forall a x, nth_error l a = Some x -> exists y, nth_error l' a = Some y /\ api_moves x y.
Lemma moves_refl l : apis_move l l.
Proof. intros a x G. exists x. split; [exact G|]. left. reflexivity. Qed.
Lemma apis_stage t x s : y_apis (at_stage t x s) = y_apis s.
Proof. unfold at_stage. destruct (nth_error (y_tasks s) t); reflexivity. Qed.
Lemma moves_close a s : apis_move (y_apis s) (y_apis (api_close a s)).
Proof.
  unfold api_close. destruct (nth_error (y_apis s) a) as [x|] eqn:A; [|apply moves_refl]. destruct (a_uart x) as [g|]; [|apply moves_refl].
  intros b y G. cbn [with_apis y_apis]. rewrite nth_set. destruct (Nat.eqb_spec b a) as [->|]; [|exists y; split; [exact G|left; reflexivity]].
  rewrite A. rewrite A in G. injection G as <-. eexists. split; [reflexivity|]. right. right. reflexivity.
Qed.
Lemma moves_app_close s : apis_move (y_apis s) (y_apis (app_close s)).
Proof. unfold app_close. destruct (y_cur s); [apply moves_close|apply moves_refl]. Qed.
Lemma moves_top t s : apis_move (y_apis s) (y_apis (loop_top t s)).
Proof. unfold loop_top. rewrite apis_stage. exact (moves_app_close s). Qed.
Lemma moves_ended t r s : apis_move (y_apis s) (y_apis (startup_ended t r s)).
Proof.
  unfold startup_ended. destruct (nth_error (y_tasks (log (LResult t r) s)) t) as [k|]; [|apply moves_refl].
  assert (X : apis_move (y_apis s) (y_apis (at_stage t (KEnd r) (log (LResult t r) s)))) by (rewrite apis_stage; apply moves_refl).
  assert (Y : apis_move (y_apis s) (y_apis (loop_top t (log (LResult t r) s)))) by apply (moves_top t (log (LResult t r) s)).
  destruct r as [u|e]; [exact X|]. destruct e; try exact X; (destruct (k_loop k); [exact Y|exact X]).
Qed.
Lemma moves_trans l1 l2 x : apis_move (l1 ++ [x]) l2 -> apis_move l1 l2.
Proof. intros H a y G. apply H. rewrite nth_error_app1; [exact G|]. apply nth_lt in G. exact G. Qed.
Lemma moves_begins t r s : apis_move (y_apis s) (y_apis (startup_begins t r s)).
Proof.
  unfold startup_begins. cbv zeta. destruct r as [u|e].
  - rewrite apis_stage. cbn [with_gws with_apis y_apis log]. apply (moves_trans _ _ (mk_api_obj None false)). apply moves_refl.
  - apply (moves_trans _ _ (mk_api_obj None false)). apply (moves_ended t (Err e) (with_apis (y_apis s ++ [mk_api_obj None false]) (log (LAttempt t) s))).
Qed.
Lemma moves_step e s : book s -> apis_move (y_apis s) (y_apis (life_step e s)).
Proof.
  intro B. destruct e as [r| |g|t r]; cbn [life_step].
  - apply (moves_begins _ r (with_tasks (y_tasks s ++ [mk_coroutine false KBegin]) s)).
  - destruct (y_cur s); [apply moves_close|apply moves_refl].
  - unfold lost. destruct (nth_error (y_gws s) g) as [x|]; [|apply moves_refl]. destruct (g_told x); [apply moves_refl|]. cbv zeta.
    destruct (g_open x); [|apply moves_refl]. destruct (nth_error _ (g_api x)) as [a|]; [|apply moves_refl]. destruct (a_app a); apply moves_refl.
  - unfold go_on. destruct (nth_error (y_tasks s) t) as [k|] eqn:T; [|apply moves_refl].
    destruct (k_stage k) as [| |a g| |r0] eqn:K; [| | | |apply moves_refl].
    + assert (Y := moves_top t s). destruct r as [u|[]]; try exact Y. rewrite apis_stage. apply moves_refl.
    + assert (Y := moves_begins t r s). destruct r as [u|[]]; try exact Y. rewrite apis_stage. apply moves_refl.
    + destruct (b_settle s B t k a g T K) as (y & _ & _ & A).
      assert (Y : apis_move (y_apis s) (set_nth a (mk_api_obj (Some g) true) (y_apis s))).
      { intros b z G. rewrite nth_set. destruct (Nat.eqb_spec b a) as [->|]; [|exists z; split; [exact G|left; reflexivity]].
        rewrite A. rewrite A in G. injection G as <-. eexists. split; [reflexivity|]. right. left. eauto. }
      assert (Z := moves_ended t r s). destruct r as [u|[]]; try exact Z; rewrite apis_stage; exact Y.
    + apply moves_ended.
Qed.

(** ** the two lists of API objects agree *)
Definition port_of (x : api_obj) : bool := match a_uart x with Some _ => true | None => false end.
Definition Linked (w : world) : Prop :=
  (exists es, w_life w = life_run es life_init) /\ length (w_apis w) = length (y_apis (w_life w)) /\
  forall a x s, nth_error (y_apis (w_life w)) a = Some x -> nth_error (w_apis w) a = Some s -> face s = (port_of x, a_app x, w_now w).
Lemma sync_len now l : forall ms, length (sync now l ms) = length l.
Proof. induction l as [|x l IH]; intros [|s ms]; cbn [sync length]; auto. Qed.
Lemma face_flags x s : face (flags x s) = (port_of x, a_app x, s_now s).
Proof. reflexivity. Qed.
Lemma linked_p w w' : wprim w w' -> Linked w -> Linked w'.
Proof.
  intros H (L1 & L2 & L3). destruct H; unfold Linked, got_version in *; wfld; rewrite ?len_set; try (split; [exact L1|split; [exact L2|exact L3]]).
  - split; [exact L1|]. split; [exact L2|]. intros b x s1 X. rewrite nth_set. destruct (Nat.eqb_spec b a) as [->|]; [|apply L3, X].
    rewrite H. intros [= <-]. rewrite H1. eapply L3; eassumption.
  - split; [exact L1|]. rewrite map_length. split; [exact L2|]. intros b x s1 X. rewrite nth_map. destruct (nth_error (w_apis w) b) as [s|] eqn:E; [|discriminate].
    intros [= <-]. specialize (L3 b x s X E). unfold face in *. fld. congruence.
  - destruct L1 as [es E]. unfold life_event_happens. wfld. split; [exists (es ++ [e]); rewrite life_run_snoc, E; reflexivity|]. split; [apply sync_len|].
    intros b x s1 X. rewrite sync_nth, X. intros [= <-]. rewrite face_flags. f_equal.
    destruct (nth_error (w_apis w) b) as [s|] eqn:B; [|reflexivity].
    destruct (nth_error (y_apis (w_life w)) b) as [y|] eqn:Y; [|apply nth_lt in B; apply nth_error_None in Y; lia].
    specialize (L3 b y s Y B). unfold face in L3. congruence.
  - split; [exact L1|]. split; [exact L2|]. intros b x s1 X. rewrite nth_set. destruct (Nat.eqb_spec b a) as [->|]; [|apply L3, X].
    rewrite H4. intros [= <-]. change (face (wait_for m Timeouts_default q s)) with (face s). eapply L3; eassumption.
  - split; [exact L1|]. split; [exact L2|]. intros b x s1 X. rewrite nth_set. destruct (Nat.eqb_spec b a) as [->|]; [|apply L3, X].
    rewrite H5. intros [= <-]. rewrite face_call_raw. eapply L3; eassumption.
Qed.
Lemma linked_init devs : Linked (world_init devs).
Proof. split; [exists []; reflexivity|]. split; [reflexivity|]. intros a x s G. destruct a; discriminate. Qed.
Lemma wreach_linked w : wreachable w -> Linked w.
Proof. revert w. apply wreach_ind; [apply linked_init|]. intros w w' _. apply linked_p. Qed.
Lemma linked_book w : Linked w -> book (w_life w).
Proof. intros ((es & ->) & _). apply book_run. Qed.
Lemma linked_cur w a : Linked w -> y_cur (w_life w) = Some a -> exists s, nth_error (w_apis w) a = Some s.
Proof.
  intros L C. destruct (b_cur _ (linked_book w L) a C) as [x X]. apply nth_lt in X. destruct L as (_ & L & _). rewrite <- L in X.
  destruct (nth_error (w_apis w) a) as [s|] eqn:E; [eauto|]. apply nth_error_None in E. lia.
Qed.

(** ** API objects only move on *)
Definition ext (w w' : world) : Prop := forall a s, nth_error (w_apis w) a = Some s -> exists s', nth_error (w_apis w') a = Some s' /\ xprims s s'.
Lemma ext_refl w w' : w_apis w' = w_apis w -> ext w w'.
Proof. intros E a s G. rewrite E. exists s. split; [exact G|constructor]. Qed.
Lemma ext_trans u v w : ext u v -> ext v w -> ext u w.
Proof. intros H1 H2 a s G. destruct (H1 a s G) as (s1 & G1 & X1). destruct (H2 a s1 G1) as (s2 & G2 & X2). exists s2. split; [exact G2|eapply xprims_app; eassumption]. Qed.
Lemma ext_set w w' a s s' : nth_error (w_apis w) a = Some s -> w_apis w' = set_nth a s' (w_apis w) -> xprims s s' -> ext w w'.
Proof.
  intros G E X b s1 G1. rewrite E, nth_set. destruct (Nat.eqb_spec b a) as [->|]; [|exists s1; split; [exact G1|constructor]].
  rewrite G in *. injection G1 as <-. eauto.
Qed.
Lemma ext_p w w' : Good w -> wprim w w' -> Linked w -> ext w w'.
Proof.
  intros G H L. destruct H; try (apply ext_refl; reflexivity).
  - eapply ext_set; [exact H|reflexivity|exact H0].
  - intros a s A. wfld. rewrite nth_map, A. eexists. split; [reflexivity|apply tick_x, H].
  - intros a s A. unfold life_event_happens. wfld. rewrite sync_nth.
    destruct (nth_error (y_apis (w_life w)) a) as [x|] eqn:X; [|apply nth_lt in A; apply nth_error_None in X; destruct L as (_ & L & _); lia].
    destruct (moves_step e (w_life w) (linked_book w L) a x X) as (y & Y & _). rewrite Y, A. eexists. split; [reflexivity|].
    unfold flags. eapply xprims_cons; [apply X_open|]. apply xprims_one, X_app.
  - eapply ext_set; [exact H4|reflexivity|apply xprims_one, X_wait].
  - eapply ext_set; [exact H5|reflexivity|apply call_raw_x, (proj2 (proj2 G) _ _ H5)].
Qed.
