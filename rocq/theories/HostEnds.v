(** * HostEnds: a program on the request machine comes to an end *)
From Coq Require Import ZifyBool ZifyNat.
From Verif Require Import Base Types Uart Buffalo CmdTable Zpi Api App Machine SpecWire SpecCodec SpecApi SpecMachine SpecProgress Nv StartZnp SpecStart Host SpecHost SpecEnds
  AppStart ApiProofs AppProofs MachineBase MachineInv MachineInv2 MachineInv3 MachineInv4 MachineInv5 DispatchProofs MachineProofs MachineProofs2 MachineProofs3 MachineProofs4 MachineProofs5
  MachineProofs11 MachineProgress MachineProgress2 StartProofs StartLink StartSend HostProofs.

(** ** the events of the machine behind those of the host *)
Lemma flat1_st {A} (h : host A) e : h_st (hstep e h) = run (flat1 h e) (h_st h).
Proof.
  destruct e; [|reflexivity]. cbn [hstep flat1]. unfold go.
  destruct (h_place h) as [[| | | |w k|]|t sub cmd d x k|t m k]; try reflexivity.
  - destruct (object w (h_waiters h)); reflexivity.
  - destruct (came_back (h_st h) t); reflexivity.
  - destruct (came_back (h_st h) t); reflexivity.
Qed.
Lemma hrun_app {A} a b (h : host A) : hrun (a ++ b) h = hrun b (hrun a h).
Proof. unfold hrun. apply fold_left_app. Qed.
Lemma flat_st {A} es : forall h : host A, h_st (hrun es h) = run (flat h es) (h_st h).
Proof.
  induction es as [|e es IH]; intro h; [reflexivity|]. change (hrun (e :: es) h) with (hrun es (hstep e h)). cbn [flat].
  rewrite run_app, IH, flat1_st. reflexivity.
Qed.
Lemma flat_app {A} a b : forall h : host A, flat h (a ++ b) = flat h a ++ flat (hrun a h) b.
Proof.
  induction a as [|e a IH]; intro h; [reflexivity|]. cbn [flat app]. rewrite IH, <- app_assoc. reflexivity.
Qed.
Lemma elapsed_app a b : elapsed (a ++ b) = elapsed a + elapsed b.
Proof. induction a as [|e a IH]; [reflexivity|]. cbn [app elapsed fold_right]. fold (elapsed (a ++ b)) (elapsed a). destruct e; lia. Qed.
Lemma elapsed_flat {A} es : forall h : host A, elapsed (flat h es) = elapsed (env_of es).
Proof.
  induction es as [|e es IH]; intro h; [reflexivity|]. cbn [flat]. unfold env_of. cbn [flat_map]. fold (env_of es). rewrite !elapsed_app, IH. f_equal.
  destruct e; [|reflexivity]. cbn [flat1]. destruct (h_place h) as [[| | | |w k|]|t sub cmd d x k|t m k]; try reflexivity. destruct (object w (h_waiters h)); reflexivity.
Qed.
Lemma flat_cons {A} (h : host A) e es : flat h (HEnv e :: es) = e :: flat (hstep (HEnv e) h) es.
Proof. reflexivity. Qed.
Lemma flat_serving {A} T ids r (h : host A) : host_serving T ids r -> serving T ids (flat h r).
Proof.
  intros (_ & a & b & -> & Hel & Hb). exists (flat h a), (flat (hrun a h) b). split; [apply flat_app|]. split; [rewrite elapsed_flat; exact Hel|].
  intros t Ht. destruct (Hb t Ht) as (b1 & b2 & b3 & ->). set (h1 := hrun a h). rewrite flat_app, flat_cons, flat_app, flat_cons.
  eexists _, _, _. reflexivity.
Qed.
Fixpoint flats {A} (h : host A) (rs : list (list hevent)) : list (list event) :=
  match rs with [] => [] | r :: rest => flat h r :: flats (hrun r h) rest end.
Lemma flats_length {A} rs : forall h : host A, length (flats h rs) = length rs.
Proof. induction rs as [|r rs IH]; intro h; cbn [flats length]; [|rewrite IH]; reflexivity. Qed.
Lemma flats_concat {A} rs : forall h : host A, concat (flats h rs) = flat h (concat rs).
Proof. induction rs as [|r rs IH]; intro h; [reflexivity|]. cbn [flats concat]. rewrite flat_app, IH. reflexivity. Qed.
Lemma flats_serving {A} T rs : forall h : host A, host_rounds T h rs -> serving_rounds T (h_st h) (flats h rs).
Proof.
  induction rs as [|r rs IH]; intros h; [intros _; exact I|]. cbn [host_rounds flats serving_rounds]. intros [H1 H2]. split; [apply flat_serving, H1|].
  rewrite <- flat_st. apply IH, H2.
Qed.
Lemma host_rounds_app {A} T r1 r2 : forall h : host A, host_rounds T h (r1 ++ r2) -> host_rounds T h r1 /\ host_rounds T (hrun (concat r1) h) r2.
Proof.
  induction r1 as [|r r1 IH]; intros h; [intro H; split; [exact I|exact H]|]. cbn [app host_rounds concat]. intros [H1 H2]. apply IH in H2 as [H2 H3].
  rewrite hrun_app. auto.
Qed.

(** ** how many are unfinished *)
Definition wait_step (q : list Z) (x : obs) : list Z := match x with OCalled t => q ++ [t] | OEnded t _ => without t q | _ => q end.
Lemma without_length t q : (length (without t q) <= length q)%nat.
Proof. induction q as [|a q IH]; [cbn; lia|]. cbn [without filter]. destruct (negb (a =? t)); cbn [length]; unfold without in IH; lia. Qed.
Lemma pending_fold l : forall q, Z.of_nat (length (fold_left wait_step l q)) <= Z.of_nat (length q) + calls l.
Proof.
  induction l as [|x l IH]; intro q; [unfold calls; cbn; lia|]. cbn [fold_left]. specialize (IH (wait_step q x)).
  unfold calls in *. cbn [filter]. destruct x; cbn [wait_step length] in *; try lia.
  - rewrite app_length in IH. cbn [length] in IH. lia.
  - pose proof (without_length t q). lia.
Qed.
Lemma calls_app a b : calls (a ++ b) = calls a + calls b.
Proof. unfold calls. rewrite filter_app, app_length. lia. Qed.
Lemma calls_nonneg a : 0 <= calls a.
Proof. unfold calls. lia. Qed.
Definition unfinished (s : st) : Z := Z.of_nat (length (pending (s_log s))).
Definition called (s : st) : Z := calls (s_log s).
Lemma unfinished_run cap s es : 0 <= cap -> reachable cap s -> unfinished (run es s) <= unfinished s + (called (run es s) - called s) /\ called s <= called (run es s).
Proof.
  intros Hc Hr. destruct (grows_run cap s es Hc Hr) as (x & E). unfold unfinished, called. rewrite E, calls_app. pose proof (calls_nonneg x) as Hx. split; [|lia].
  unfold pending. rewrite fold_left_app. pose proof (pending_fold x (pending (s_log s))) as H. unfold wait_step, pending in H. lia.
Qed.

(** ** what the program still has to do *)
Definition knows {A} (h : host A) (ws : list (matcher * Z)) : Prop := forall w, In w ws -> object w (h_waiters h) <> None.
Definition left_to_do {A} (h : host A) (m : nat) : Prop :=
  exists ws, knows h ws /\
  match h_place h with
  | Ready p => exists n, fits ws n p /\ (2 * n <= m)%nat
  | Requesting _ _ _ _ _ k => exists n, (forall r, fits ws n (k r)) /\ (2 * n + 1 <= m)%nat
  | Awaiting _ _ k => exists n, (forall r, fits ws n (k r)) /\ (2 * n + 1 <= m)%nat
  end.
Definition over {A} (h : host A) : Prop := ending h <> Interrupted.
Lemma left_weaken {A} (h : host A) m m' : (m <= m')%nat -> left_to_do h m -> left_to_do h m'.
Proof.
  intros Hm (ws & K & H). exists ws. split; [exact K|]. destruct (h_place h); destruct H as (n & H & L); exists n; (split; [exact H|lia]).
Qed.
Lemma object_app w l l' : object w (l ++ l') = match object w l' with Some u => Some u | None => object w l end.
Proof.
  induction l as [|[w' t] l IH]; [cbn [app object]; destruct (object w l'); reflexivity|]. cbn [app object]. rewrite IH. destruct (object w l'); reflexivity.
Qed.
Lemma over_stays {A} es : forall h : host A, over h -> over (hrun es h) /\ h_place (hrun es h) = h_place h.
Proof.
  induction es as [|e es IH]; intros h H; [auto|]. change (hrun (e :: es) h) with (hrun es (hstep e h)).
  assert (E : h_place (hstep e h) = h_place h).
  { destruct e; [|reflexivity]. cbn [hstep]. unfold go. unfold over, ending in H. destruct (h_place h) as [[| | | | |]|t sub cmd d x k|t m k] eqn:Ep; try reflexivity; try (exfalso; apply H; reflexivity); rewrite Ep; reflexivity. }
  destruct (IH (hstep e h)) as [O P]; [unfold over, ending in *; rewrite E; exact H|]. rewrite P. auto.
Qed.
Definition can_go {A} (h : host A) : Prop :=
  match h_place h with
  | Ready _ => True
  | Requesting t _ _ _ _ _ | Awaiting t _ _ => came_back (h_st h) t <> None
  end.
(** a step of the program gets on if it can, or leaves everything as it was *)
Lemma go_on {A} (h : host A) m : left_to_do h m ->
  over h \/ (go h = h /\ ~ can_go h) \/ exists m', (m' < m)%nat /\ left_to_do (go h) m'.
Proof.
  intros (ws & K & H). unfold go, over, ending, can_go. destruct (h_place h) as [[a|e|sub cmd d x k|mm to k|w k|sub cmd d k]|t sub cmd d x k|t mm k] eqn:Ep; try (left; discriminate).
  - right. right. destruct H as (n & H & L). inversion H; subst. exists (2 * n0 + 1)%nat. split; [lia|]. exists ws. split; [exact K|]. exists n0. split; [assumption|lia].
  - right. right. destruct H as (n & H & L). inversion H; subst. exists (2 * n0)%nat. split; [lia|]. exists ((mm, to) :: ws). split.
    + intros w [<-|Hw]; cbn [h_waiters]; rewrite object_app; cbn [object].
      * destruct (same_waiter (mm, to) (mm, to)); congruence.
      * destruct (same_waiter (mm, to) w); [discriminate|apply K, Hw].
    + exists n0. split; [assumption|lia].
  - destruct H as (n & H & L). inversion H; subst. destruct (object w (h_waiters h)) as [t|] eqn:Eo; [|exfalso; eapply K; eassumption]. right. right.
    exists (2 * n0 + 1)%nat. split; [lia|]. exists ws. split; [exact K|]. exists n0. split; [assumption|lia].
  - right. right. destruct H as (n & H & L). inversion H; subst. exists (2 * n0)%nat. split; [lia|]. exists ws. split; [exact K|]. exists n0. split; [assumption|lia].
  - destruct (came_back (h_st h) t) as [r|]; [|right; left; split; [reflexivity|congruence]]. right. right. destruct H as (n & H & L). exists (2 * n)%nat. split; [lia|]. exists ws. split; [exact K|]. exists n. split; [apply H|lia].
  - destruct (came_back (h_st h) t) as [r|]; [|right; left; split; [reflexivity|congruence]]. right. right. destruct H as (n & H & L). exists (2 * n)%nat. split; [lia|]. exists ws. split; [exact K|]. exists n. split; [apply H|lia].
Qed.
Lemma env_left {A} e (h : host A) m : left_to_do h m -> left_to_do (hstep (HEnv e) h) m.
Proof. intro H. exact H. Qed.
Lemma any_hrun {A} es : forall (h : host A) m, left_to_do h m ->
  over (hrun es h) \/ (exists m', (m' < m)%nat /\ left_to_do (hrun es h) m') \/
  h_place (hrun es h) = h_place h /\ h_waiters (hrun es h) = h_waiters h /\ left_to_do (hrun es h) m.
Proof.
  induction es as [|e es IH]; intros h m H; [right; right; auto|]. change (hrun (e :: es) h) with (hrun es (hstep e h)).
  destruct e as [|e].
  - cbn [hstep]. destruct (go_on h m H) as [O|[[E _]|(m' & L & H')]].
    + left. apply (over_stays (HGo :: es) h O).
    + rewrite E. apply IH, H.
    + destruct (IH _ _ H') as [O|[(m2 & L2 & H2)|(_ & _ & H2)]]; [left; exact O|right; left; exists m2; split; [lia|exact H2]|right; left; exists m'; auto].
  - apply (IH (hstep (HEnv e) h) m), env_left, H.
Qed.


(** ** an operation that has ended *)
Lemma came_back_stays cap s es t : 0 <= cap -> reachable cap s -> came_back s t <> None -> came_back (run es s) t <> None.
Proof.
  intros Hc Hr. unfold came_back. destruct (get s t) as [k|] eqn:G; [|congruence]. intro E.
  assert (D : ended (t_phase k) = true) by (destruct (t_phase k); try (exfalso; apply E; reflexivity); reflexivity).
  rewrite (done_prims _ _ t k (run_prims es s (I_core _ _ (reachable_inv cap s Hc Hr))) G D). exact E.
Qed.
Lemma back_outcome cap s t r o : 0 <= cap -> reachable cap s -> In (OEnded t o) (s_log s) -> o = outcome_for r -> came_back s t <> None.
Proof.
  intros Hc Hr Hin ->. destruct (ended_reason cap s t _ Hc Hr Hin) as (k & G & Hp & _). unfold came_back. rewrite G, Hp. destruct r; discriminate.
Qed.
Definition waits_for {A} (h : host A) (t : Z) : Prop :=
  match h_place h with Ready _ => False | Requesting u _ _ _ _ _ | Awaiting u _ _ => t = u end.
Lemma ended_back cap {A} (p : prog A) h t r : 0 <= cap -> expects_answers p -> HInv cap p h -> waits_for h t -> In (OEnded t r) (s_log (h_st h)) -> can_go h.
Proof.
  intros Hc Ha [R P _ _ _ _] Hw Hin. unfold follows_path in P. unfold waits_for in Hw. unfold can_go.
  destruct (h_place h) as [q|u sub cmd d x k|u m k]; [exact I| |]; subst u.
  - destruct P as [(kk & G & Hj) P]. destruct (answers_possible cap _ t kk sub cmd d x r Hc R G Hj Hin) as [(r' & E & _)|(_ & z & Hz & Ht & Hn)].
    + eapply back_outcome; eassumption.
    + exfalso. specialize (P _ _ (runs_lost sub cmd d x k)).
      destruct (Ha _ _ sub cmd d x None P) with (z := z) as [H|[_ H]]; [apply in_or_app; right; left; reflexivity|exact Hz|congruence|contradiction].
  - destruct P as (to & (kk & G & Hj) & _). destruct (indications_possible cap _ t kk m to r Hc R G Hj Hin) as (r' & E & _). eapply back_outcome; eassumption.
Qed.
(** the operation that the program waits for has been called *)
Lemma awaited_known cap {A} (p : prog A) h t : 0 <= cap -> HInv cap p h -> waits_for h t -> exists k, get (h_st h) t = Some k.
Proof.
  intros Hc [R P _ _ _ _] Hw. unfold follows_path in P. unfold waits_for in Hw.
  destruct (h_place h) as [q|u sub cmd d x k|u m k]; [contradiction| |]; subst u.
  - destruct P as [(kk & G & _) _]. eauto.
  - destruct P as (to & (kk & G & _) & _). eauto.
Qed.

(** ** a round in which the program can go on *)
Lemma round_moves cap {A} (p : prog A) (h : host A) m T ids r : 0 <= cap -> HInv cap p h -> left_to_do h m -> can_go h -> host_serving T ids r ->
  over (hrun r h) \/ exists m', (m' < m)%nat /\ left_to_do (hrun r h) m'.
Proof.
  intros Hc HI H C [Hg _]. apply in_split in Hg as (r1 & r2 & ->). rewrite hrun_app. change (hrun (HGo :: r2) (hrun r1 h)) with (hrun r2 (go (hrun r1 h))).
  destruct (any_hrun r1 h m H) as [O|[(m' & L & H')|(E & Ew & H')]].
  - left. apply (over_stays (HGo :: r2) _ O).
  - destruct (any_hrun (HGo :: r2) _ _ H') as [O|[(m2 & L2 & H2)|(_ & _ & H2)]]; [left; exact O| |]; right; [exists m2; split; [lia|exact H2]|exists m'; auto].
  - assert (C' : can_go (hrun r1 h)).
    { unfold can_go in *. rewrite E, flat_st. destruct (h_place h); [exact I| |]; (eapply came_back_stays; [exact Hc|apply HI|exact C]). }
    destruct (go_on _ m H') as [O|[[_ N]|(m' & L & H2)]]; [left; apply (over_stays (HGo :: r2) _ O)|contradiction|].
    destruct (any_hrun r2 _ _ H2) as [O|[(m2 & L2 & H3)|(_ & _ & H3)]]; [left; exact O| |]; right; [exists m2; split; [lia|exact H3]|exists m'; auto].
Qed.
(** ** enough rounds for one step of the program *)
Lemma stage_moves cap {A} (p : prog A) (h : host A) m T rs r : 0 < cap -> expects_answers p -> HInv cap p h -> left_to_do h m -> 30000 <= T ->
  waits_at_most T (h_st (hrun (concat rs) h)) -> host_rounds T h (rs ++ [r]) ->
  7 * (unfinished (h_st h) + (called (h_st (hrun (concat rs) h)) - called (h_st h))) <= Z.of_nat (length rs) ->
  over (hrun (concat (rs ++ [r])) h) \/ exists m', (m' < m)%nat /\ left_to_do (hrun (concat (rs ++ [r])) h) m'.
Proof.
  intros Hc Ha HI H HT Hw HF Hlen. assert (Hc' : 0 <= cap) by lia. apply host_rounds_app in HF as [F1 [F2 _]].
  rewrite concat_app, hrun_app. cbn [concat]. rewrite app_nil_r. set (h1 := hrun (concat rs) h) in *.
  assert (HI1 : HInv cap p h1) by (apply hinv_run; assumption).
  pose proof (any_hrun (concat rs) h m H) as D0. fold h1 in D0. destruct D0 as [O|[(m' & L & H')|(E & Ew & H')]].
  - left. apply (over_stays r h1 O).
  - destruct (any_hrun r _ _ H') as [O|[(m2 & L2 & H2)|(_ & _ & H2)]]; [left; exact O| |]; right; [exists m2; split; [lia|exact H2]|exists m'; auto].
  - eapply round_moves; [exact Hc'|exact HI1|exact H'| |exact F2].
    assert (D : can_go h1 \/ exists t, waits_for h1 t).
    { unfold can_go, waits_for. destruct (h_place h1); [left; exact I|right; eauto..]. }
    destruct D as [D|(t & Wt)]; [exact D|].
    assert (Wt0 : waits_for h t) by (unfold waits_for in *; rewrite <- E; exact Wt).
    assert (X : exists r, In (OEnded t r) (s_log (h_st h1))).
    { pose proof (flats_serving T rs h F1) as F1'. unfold unfinished, called in Hlen.
      destruct (all_come_to_an_end cap (h_st h) T (flats h rs) Hc (H_reach _ _ _ HI) HT) as [_ Hall].
      - rewrite flats_concat, <- flat_st. exact Hw.
      - exact F1'.
      - rewrite flats_concat, <- flat_st, flats_length. exact Hlen.
      - rewrite flats_concat, <- flat_st in Hall. fold h1 in Hall.
        destruct (awaited_known cap p h t Hc' HI Wt0) as (k & G). destruct (ended (t_phase k)) eqn:Ee.
        + destruct (t_phase k) eqn:Hp; try discriminate Ee. exists r0. unfold h1. rewrite flat_st.
          eapply grows_in; [eapply grows_run; [exact Hc'|apply HI]|]. eapply done_in_log; [exact Hc'|apply HI|exact G|exact Hp].
        + apply Hall. destruct (reachable_pend cap _ (H_reach _ _ _ HI)) as (_ & Hi & _). apply Hi. exists k. auto. }
    destruct X as (x & X). eapply ended_back; eassumption.
Qed.
(** ** and for the whole program *)
Lemma nothing_left {A} (h : host A) : left_to_do h 0 -> over h.
Proof.
  intros (ws & _ & H). unfold over, ending. destruct (h_place h) as [q|t sub cmd d x k|t m k]; destruct H as (n & H & L); try lia.
  assert (n = 0)%nat by lia. subst n. inversion H; discriminate.
Qed.
Lemma program_ends cap {A} (p : prog A) T B m : 0 < cap -> expects_answers p -> 30000 <= T -> forall rs (h : host A),
  HInv cap p h -> left_to_do h m ->
  waits_at_most T (h_st (hrun (concat rs) h)) -> host_rounds T h rs ->
  7 * (unfinished (h_st h) + (called (h_st (hrun (concat rs) h)) - called (h_st h))) <= Z.of_nat B ->
  (m * S B <= length rs)%nat -> over (hrun (concat rs) h).
Proof.
  intros Hc Ha HT. assert (Hc' : 0 <= cap) by lia. induction m as [m IH] using lt_wf_ind. intros rs h HI H Hw HF HB Hlen.
  destruct m as [|m]; [apply over_stays, nothing_left, H|].
  assert (S1 : exists r1 r r2, rs = r1 ++ [r] ++ r2 /\ length r1 = B).
  { pose proof (firstn_skipn B rs) as E. assert (L1 : length (firstn B rs) = B) by (rewrite firstn_length; lia).
    assert (L2 : length (skipn B rs) = (length rs - B)%nat) by apply skipn_length.
    destruct (skipn B rs) as [|r r2]; [cbn [length] in L2; lia|]. exists (firstn B rs), r, r2. split; [symmetry; exact E|exact L1]. }
  destruct S1 as (r1 & r & r2 & -> & L1). rewrite app_assoc in *. set (q := r1 ++ [r]) in *.
  pose proof HF as HF0. apply host_rounds_app in HF as [F1 F2]. rewrite concat_app, hrun_app in Hw, HB |- *.
  assert (HI1 : HInv cap p (hrun (concat q) h)) by (apply hinv_run; assumption).
  assert (HI0 : HInv cap p (hrun (concat r1) h)) by (apply hinv_run; assumption).
  set (h1 := hrun (concat q) h) in *. set (h0 := hrun (concat r1) h) in *.
  assert (E10 : h_st h1 = run (flat h0 r) (h_st h0)).
  { unfold h1, q. rewrite concat_app, hrun_app. cbn [concat]. rewrite app_nil_r. fold h0. apply flat_st. }
  assert (E2 : h_st (hrun (concat r2) h1) = run (flat h1 (concat r2)) (h_st h1)) by apply flat_st.
  assert (E0 : h_st h0 = run (flat h (concat r1)) (h_st h)) by apply flat_st.
  destruct (unfinished_run cap (h_st h) (flat h (concat r1)) Hc' (H_reach _ _ _ HI)) as [U1 V1]. rewrite <- E0 in U1, V1.
  destruct (unfinished_run cap (h_st h0) (flat h0 r) Hc' (H_reach _ _ _ HI0)) as [U2 V2]. rewrite <- E10 in U2, V2.
  destruct (unfinished_run cap (h_st h1) (flat h1 (concat r2)) Hc' (H_reach _ _ _ HI1)) as [U3 V3]. rewrite <- E2 in U3, V3.
  assert (W1 : waits_at_most T (h_st h1)) by (rewrite E2 in Hw; eapply waits_before; [exact Hc'|apply HI1|exact Hw]).
  assert (W0 : waits_at_most T (h_st h0)) by (rewrite E10 in W1; eapply waits_before; [exact Hc'|apply HI0|exact W1]).
  assert (D : over h1 \/ exists m', (m' < S m)%nat /\ left_to_do h1 m').
  { eapply (stage_moves cap p h (S m) T r1 r); try eassumption. fold h0. lia. }
  destruct D as [D|(m' & L & D)]; [apply over_stays, D|].
  apply (IH m' L r2 h1 HI1 D Hw F2).
  - lia.
  - rewrite app_length in Hlen. unfold q in Hlen. rewrite app_length in Hlen. cbn [length] in Hlen.
    assert (m' * S B <= m * S B)%nat by (apply Nat.mul_le_mono_r; lia). cbn [Nat.mul] in Hlen. lia.
Qed.
Lemma hosted_left {A} (p : prog A) s n : fits [] n p -> left_to_do (hosted p s) (2 * n).
Proof. intro H. exists []. split; [intros w []|]. exists n. split; [exact H|lia]. Qed.
Lemma hosted_ends cap {A} (p : prog A) n s T rs : 0 < cap -> reachable cap s -> fits [] n p -> expects_answers p -> 30000 <= T ->
  let h := hosted p s in let h' := hrun (concat rs) h in
  waits_at_most T (h_st h') -> host_rounds T h rs ->
  2 * Z.of_nat n * (1 + 7 * (unfinished s + (called (h_st h') - called s))) <= Z.of_nat (length rs) -> ending h' <> Interrupted.
Proof.
  intros Hc Hr Hf Ha HT h h' Hw HF Hlen. assert (Hc' : 0 <= cap) by lia.
  assert (Hn : 0 <= called (h_st h') - called s).
  { unfold h'. rewrite flat_st. change (h_st h) with s. pose proof (proj2 (unfinished_run cap s (flat h (concat rs)) Hc' Hr)). lia. }
  assert (Hu : 0 <= unfinished s) by (unfold unfinished; lia).
  set (B := Z.to_nat (7 * (unfinished s + (called (h_st h') - called s)))).
  apply (program_ends cap p T B (2 * n) Hc Ha HT rs h); try assumption.
  - apply hinv_start, Hr.
  - apply hosted_left, Hf.
  - fold h'. change (h_st h) with s. lia.
  - apply Nat2Z.inj_le. rewrite Nat2Z.inj_mul. replace (Z.of_nat (2 * n)) with (2 * Z.of_nat n) by lia.
    replace (Z.of_nat (S B)) with (1 + 7 * (unfinished s + (called (h_st h') - called s))) by (unfold B; lia). exact Hlen.
Qed.

(** ** the start-up programs fit *)
Lemma fits_weaken {A} ws n (p : prog A) : fits ws n p -> forall ws' n', incl ws ws' -> (n <= n')%nat -> fits ws' n' p.
Proof.
  induction 1 as [| |ws n sub cmd d x k _ IH|ws n m t k _ IH|ws n w k Hw _ IH|ws n sub cmd d k _ IH]; intros ws' n' Hi Hn; try constructor;
    (destruct n' as [|n']; [lia|]); constructor; try (intro r); try (apply IH; [|lia]); auto.
  intros y [<-|Hy]; [left; reflexivity|right; apply Hi, Hy].
Qed.
Lemma fits_seq {A B} ws n m (p : prog A) (g : A -> prog B) : fits ws n p -> (forall a ws', incl ws ws' -> fits ws' m (g a)) -> fits ws (n + m) (seq p g).
Proof.
  induction 1 as [| |ws n sub cmd d x k _ IH|ws n mm t k _ IH|ws n w k Hw _ IH|ws n sub cmd d k _ IH]; intro Hg; cbn [seq Nat.add].
  - eapply fits_weaken; [apply Hg, incl_refl|apply incl_refl|lia].
  - constructor.
  - constructor. intro r. apply IH, Hg.
  - constructor. apply IH. intros a ws' Hi. apply Hg. intros y Hy. apply Hi. right. exact Hy.
  - constructor; [exact Hw|]. intro r. apply IH, Hg.
  - constructor. apply IH, Hg.
Qed.
Lemma fits_attempt {A} ws n m (p : prog A) h : fits ws n p -> (forall e q ws', incl ws ws' -> h e = Some q -> fits ws' m q) -> fits ws (n + m) (attempt p h).
Proof.
  induction 1 as [| |ws n sub cmd d x k _ IH|ws n mm t k _ IH|ws n w k Hw _ IH|ws n sub cmd d k _ IH]; intro Hg; cbn [attempt Nat.add].
  - constructor.
  - destruct (h e) as [q|] eqn:E; [|constructor]. eapply fits_weaken; [eapply Hg; [apply incl_refl|exact E]|apply incl_refl|lia].
  - constructor. intro r. apply IH, Hg.
  - constructor. apply IH. intros a q ws' Hi. apply Hg. intros y Hy. apply Hi. right. exact Hy.
  - constructor; [exact Hw|]. intro r. apply IH, Hg.
  - constructor. apply IH, Hg.
Qed.
Lemma fits_of_result {A} ws n (r : result A) : fits ws n (of_result r).
Proof. destruct r; constructor. Qed.
Lemma fits_req ws sub cmd d x : fits ws 1 (request sub cmd d x).
Proof. constructor. intro r. apply fits_of_result. Qed.
Lemma fits_aw ws w : In w ws -> fits ws 1 (await w).
Proof. constructor; [assumption|]. intro r. apply fits_of_result. Qed.
Lemma fits_field ws n r name : fits ws n (field r name).
Proof. unfold field. destruct (dict_get _ _); constructor. Qed.
Lemma fits_if {A} ws n (b : bool) (p q : prog A) : fits ws n p -> fits ws n q -> fits ws n (if b then p else q).
Proof. destruct b; auto. Qed.
Lemma fits_listening {A} ws n m t (g : matcher * Z -> prog A) : fits ((m, t) :: ws) n (g (m, t)) -> fits ws (S n) (seq (listen m t) g).
Proof. intro H. constructor. exact H. Qed.
Lemma fits_sp ws sub cmd d : fits ws 1 (spawn sub cmd d).
Proof. repeat constructor. Qed.
Lemma fits_validate ws item sub cmd x : fits ws 1 (validate_item item sub cmd x).
Proof. apply (fits_seq ws 1 0); [apply fits_req|]. intros a w _. apply (fits_seq w 0 0); [apply fits_field|]. intros. apply fits_if; constructor. Qed.

Lemma some_eq {A} (a b : A) : Some a = Some b -> b = a.
Proof. congruence. Qed.
Ltac fit n := match goal with
  | |- fits _ ?m (seq _ _) => replace m with (n + (m - n))%nat by lia; apply (fits_seq _ n (m - n)); [|intros]; cbn [Nat.sub]
  | |- fits _ ?m (attempt _ _) => replace m with (n + (m - n))%nat by lia; apply (fits_attempt _ n (m - n)); [|intros]; cbn [Nat.sub]
  end.
Ltac heard := apply fits_aw; match goal with H : incl (_ :: _) ?w |- In _ ?w => apply H; left; reflexivity end.
Ltac fit1 := first [apply fits_ret|apply fits_raise|apply fits_req|apply fits_sp|apply fits_field|apply fits_validate|apply fits_of_result].
Lemma fits_has_configured ws v : fits ws 1 (has_configured v).
Proof. unfold has_configured. fit 1%nat; [fit 1%nat; fit1|]. destruct e; try discriminate; apply some_eq in H0; subst q; fit1. Qed.
Lemma fits_validate_pan ws v o : fits ws 3 (validate_pan v o).
Proof.
  unfold validate_pan. fit 2%nat; [fit 1%nat; fit1|]. destruct (is_assertion e); [|discriminate]. apply some_eq in H0; subst q.
  apply fits_if; [|fit1]. fit 1%nat; [fit1|]. fit 0%nat; [fit1|]. apply fits_if; fit1.
Qed.
Lemma fits_needs_init ws v o : fits ws 7 (needs_init v o).
Proof.
  unfold needs_init. fit 7%nat; [|destruct (is_assertion e); [|discriminate]; apply some_eq in H0; subst q; fit1].
  fit 1%nat; [fit1|]. fit 1%nat; [fit1|]. fit 1%nat; [fit1|]. fit 1%nat; [apply fits_if; fit1|]. fit 3%nat; [apply fits_validate_pan|fit1].
Qed.
Lemma fits_initialise ws v o : fits ws 18 (initialise v o).
Proof.
  unfold initialise, soft_reset, nv_write. do 9 (fit 1%nat; [fit1|]). fit 7%nat.
  - apply fits_if.
    + do 3 (fit 1%nat; [fit1|]). apply fits_listening. fit 1%nat; [fit1|]. fit 1%nat; [|eapply fits_weaken; [apply fits_req|apply incl_refl|lia]].
      unfold await_started. fit 1%nat; [heard|]. destruct e; try discriminate; match goal with E : Some _ = Some _ |- _ => apply some_eq in E; subst q end; fit1.
    + fit 1%nat; [fit1|]. eapply fits_weaken; [apply fits_req|apply incl_refl|lia].
  - do 2 (fit 1%nat; [fit1|]). fit1.
Qed.
Lemma fits_boot ws : fits ws 4 boot.
Proof.
  unfold boot. fit 1%nat; [fit1|]. fit 0%nat; [fit1|]. apply fits_if; [fit1|]. apply fits_listening. fit 1%nat; [fit1|].
  fit 1%nat; [heard|fit1].
Qed.
Lemma fits_register_loop active es : forall ws, fits ws (length es) (register_loop active es).
Proof.
  induction es as [|e es IH]; intro ws; [constructor|]. cbn [register_loop length]. fit 0%nat; [fit1|]. fit 1%nat; [|rewrite ?Nat.sub_0_r; apply IH].
  apply fits_if; [fit1|]. fit 1%nat; fit1.
Qed.
Lemma fits_register ws : fits ws 16 register_endpoints.
Proof.
  unfold register_endpoints. apply fits_listening. fit 1%nat; [fit1|]. fit 1%nat; [heard|]. apply (fits_register_loop _ endpoints).
Qed.
Lemma fits_add_to_group ws ep g : fits ws 2 (add_to_group ep g).
Proof. unfold add_to_group. fit 1%nat; [fit1|]. fit 0%nat; [fit1|]. apply fits_if; [|fit1]. fit 1%nat; fit1. Qed.
Lemma fits_start ws v o g b : fits ws 49 (start_znp v o g b).
Proof.
  unfold start_znp. fit 1%nat; [apply fits_has_configured|]. fit 25%nat.
  { unfold configure. apply fits_if; [fit1|]. fit 7%nat; [apply fits_needs_init|]. apply fits_if; [|fit1]. fit 18%nat; [apply fits_initialise|fit1]. }
  fit 4%nat; [apply fits_boot|]. fit 16%nat; [apply fits_register|]. fit 2%nat; [apply fits_add_to_group|]. fit 1%nat; [|fit1].
  destruct a0; try fit1. unfold nv_write. fit 1%nat; fit1.
Qed.
Lemma fits_app auto c devs : fits [] 53 (app_startup auto c devs).
Proof.
  unfold app_startup. fit 1%nat.
  { unfold ping. fit 1%nat; [fit1|]. destruct e; try discriminate; apply some_eq in H0; subst q; fit1. }
  fit 1%nat; [unfold ask_version; fit1|]. fit 0%nat; [fit1|]. fit 0%nat; [unfold check_product; destruct a1; try fit1; apply fits_if; fit1|]. fit 50%nat.
  - apply fits_if; [|fit1]. fit 50%nat; [|fit1]. unfold form_network. fit 49%nat; [apply fits_start|]. fit 1%nat; [|fit1]. unfold switch_led. apply fits_if; fit1.
  - fit 1%nat; [|destruct a4 as [[ieee nwk] devs']; fit1]. unfold coordinator. fit 1%nat; [fit1|]. do 2 (fit 0%nat; [fit1|]). destruct a5; try fit1; destruct a6; fit1.
Qed.
Lemma sendable_expects {A} (p : prog A) : only act_sendable p -> expects_answers p.
Proof.
  intros Ho tr f sub cmd d x r R K z E. pose proof (Ho tr f R) as F. rewrite Forall_forall in F.
  destruct (F _ K) as (o' & f' & E' & A' & _). rewrite E in E'. injection E' as <-. unfold answered_kind in A'.
  destruct (z_type z); try discriminate A'; auto. right. split; [reflexivity|].
  unfold is_reset_command in A'. rewrite orb_true_iff, !andb_true_iff, !String.eqb_eq in A'. unfold resets.
  destruct A' as [[A' B]|[A' B]]; destruct (z_sub z); try discriminate B; auto.
Qed.
