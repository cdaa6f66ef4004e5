(** * MachineInv: invariants of the machine, preserved by every primitive transition *)
From Coq Require Import ZifyBool ZifyNat.
From Verif Require Import Base Types Uart Buffalo CmdTable Zpi Api App Machine MachineBase.

(** [look H]: [H] says what a task looks like after a transition; split into "this task" and "others" *)
Lemma assoc_put {A} (l : list (Z * A)) t v v0 t' : assoc t l = Some v0 ->
  assoc t' (assoc_set t v l) = if t =? t' then Some v else assoc t' l.
Proof. intro H. rewrite assoc_set_get, H. reflexivity. Qed.
Ltac look H :=
  match type of H with
  | assoc _ (assoc_set ?t _ ?l) = Some _ =>
      match goal with G : assoc t l = Some _ |- _ => rewrite (assoc_put l t _ _ _ G) in H end;
      match type of H with (if ?a =? ?b then _ else _) = _ =>
        destruct (Z.eqb_spec a b) as [?E|?E]; [subst b; injection H as <-|] end
  | assoc ?t (?l ++ _) = Some _ =>
      rewrite assoc_snoc in H; destruct (assoc t l) eqn:?E; [injection H as ->|];
      try match type of H with (if ?a =? ?b then _ else _) = _ =>
        destruct (Z.eqb_spec a b) as [?E|?E]; [subst b; injection H as <-|discriminate H] end
  | _ => idtac
  end.
Ltac start_prim H := destruct H; prim_nf; opn_all.

(** ** task ids *)
Definition Tids (s : st) : Prop := 0 <= s_ntid s /\ forall t k, get s t = Some k -> 0 <= t < s_ntid s.
Lemma tids_prim s s' : prim s s' -> Tids s -> Tids s'.
Proof.
  intros H [Hn Ht]. unfold Tids. start_prim H; (split; [lia|]); intros t' k' G; look G; try (eapply Ht; eassumption);
    try lia; match goal with E : assoc _ _ = Some _ |- _ => specialize (Ht _ _ E); lia end.
Qed.

(** ** tasks: object and response waiter *)
Definition Task_ok (k : task) : Prop :=
  match t_phase k with
  | PStart => t_obj k = None /\ t_wid k = None
  | PReg _ _ | PAwait _ _ => t_wid k = None /\ exists m to, t_job k = JWaitFor m to
  | PSem | PAdm | PLock | PHold | PWait _ _ | PSleep _ =>
      exists o, t_obj k = Some o /\ build (t_job k) = Ok o /\
        (t_wid k = None -> response_waiter (t_job k) o = Ok None) /\
        (t_wid k <> None -> exists m q, response_waiter (t_job k) o = Ok (Some (m, q)))
  | PRel => False
  | PDone _ => True
  end.
Definition Tasks_ok (s : st) : Prop := forall t k, get s t = Some k -> Task_ok k.
Lemma tasks_prim s s' : prim s s' -> Tasks_ok s -> Tasks_ok s'.
Proof.
  intros H Ht. unfold Tasks_ok. start_prim H; intros t' k' G; look G; try (eapply Ht; eassumption);
    try (match goal with Hg : assoc _ _ = Some ?k |- _ => pose proof (Ht _ _ Hg) as Hk end;
         unfold Task_ok in *; flda;
         match goal with Hp : t_phase ?k = _ |- _ => rewrite Hp in * end; try exact I; try tauto; try assumption; fail).
  - split; reflexivity.
  - exists o. repeat split; try assumption; flda; intros; congruence.
  - exists o. repeat split; try assumption; flda; intros; [congruence|eauto].
  - unfold Task_ok. flda. pose proof (Ht _ _ H) as Hk. unfold Task_ok in Hk. rewrite H0 in Hk. split; [tauto|eauto].
Qed.

(** ** waiter ids: in order, fresh, owned by at most one task *)
Definition phase_id (p : phase) : list Z := match p with PWait i _ | PReg i _ | PAwait i _ => [i] | _ => [] end.
Definition own (k : task) : list Z := phase_id (t_phase k) ++ match t_wid k with Some i => [i] | None => [] end.
Definition Own (s : st) : Prop :=
  (forall t k i, get s t = Some k -> In i (own k) -> 0 <= i < s_next s) /\
  (forall t1 t2 k1 k2 i, get s t1 = Some k1 -> get s t2 = Some k2 -> In i (own k1) -> In i (own k2) -> t1 = t2) /\
  (forall t k, get s t = Some k -> NoDup (own k)).

Lemma own_change s s' : Own s -> 0 <= s_next s <= s_next s' ->
  (forall t k', get s' t = Some k' ->
     own k' = [] \/
     (exists k, get s t = Some k /\ (own k' = own k \/ t_wid k' = t_wid k /\ phase_id (t_phase k') = []) ) \/
     (exists k, get s t = Some k /\ s_next s < s_next s' /\ own k' = s_next s :: own k /\
        (forall t2 k2, get s' t2 = Some k2 -> In (s_next s) (own k2) -> t2 = t))) -> Own s'.
Proof.
  intros (H1 & H2 & H3) Hn Hc.
  assert (Hold : forall t k' i, get s' t = Some k' -> In i (own k') ->
    (exists k, get s t = Some k /\ In i (own k)) \/ i = s_next s /\ s_next s < s_next s' /\
      (forall t2 k2, get s' t2 = Some k2 -> In (s_next s) (own k2) -> t2 = t)).
  { intros t k' i G Hi. destruct (Hc t k' G) as [E|[(k & Gk & [E|[E1 E2]])|(k & Gk & Hlt & E & Hu)]].
    - rewrite E in Hi. destruct Hi.
    - left. exists k. rewrite <- E. auto.
    - left. exists k. split; [exact Gk|]. unfold own in *. rewrite E2 in Hi. cbn [app] in Hi. rewrite E1 in Hi. apply in_or_app. auto.
    - rewrite E in Hi. destruct Hi as [<-|Hi]; [right; auto|left; eauto]. }
  split; [|split].
  - intros t k i G Hi. destruct (Hold t k i G Hi) as [(k0 & G0 & Hi0)|[-> [Hlt _]]]; [specialize (H1 _ _ _ G0 Hi0); lia|lia].
  - intros t1 t2 k1 k2 i G1 G2 Hi1 Hi2.
    destruct (Hold t1 k1 i G1 Hi1) as [(k & G & Hi)|[-> [Hlt Hu]]].
    + destruct (Hold t2 k2 i G2 Hi2) as [(k' & G' & Hi')|[-> _]]; [eapply H2; eassumption|].
      specialize (H1 _ _ _ G Hi). lia.
    + symmetry. eapply Hu; eassumption.
  - intros t k' G. destruct (Hc t k' G) as [E|[(k & Gk & [E|[E1 E2]])|(k & Gk & Hlt & E & Hu)]].
    + rewrite E. constructor.
    + rewrite E. eapply H3, Gk.
    + unfold own. rewrite E2, E1. cbn [app]. destruct (t_wid k); repeat constructor. intros [].
    + rewrite E. constructor; [|eapply H3, Gk]. intro C. specialize (H1 _ _ _ Gk C). lia.
Qed.

Lemma own_prim s s' : prim s s' -> Ids s -> Tasks_ok s -> Own s -> Own s'.
Proof.
  intros H (Hn & _) Ht Ho. pose proof (proj1 Ho) as H1. unfold get in H1.
  assert (Hstart : forall t k, assoc t (s_tasks s) = Some k -> t_phase k = PStart -> own k = [] /\ t_wid k = None).
  { intros t k G Hp. pose proof (Ht t k G) as Hk. unfold Task_ok in Hk. unfold own. rewrite Hp in *. destruct Hk as [_ ->]. split; reflexivity. }
  assert (Hhold : forall t k, assoc t (s_tasks s) = Some k -> t_phase k = PHold ->
    own k = match t_wid k with Some i => [i] | None => [] end).
  { intros t k G Hp. unfold own. rewrite Hp. reflexivity. }
  start_prim H; apply (own_change s); try exact Ho; opn; try lia;
    intros t' k' G; look G; try (right; left; eexists; split; [eassumption|left; reflexivity]; fail);
    try (right; left; eexists; split; [eassumption|right; split; reflexivity]; fail);
    try (right; right; exists k; split; [assumption|]; split; [lia|]; split;
         [first [rewrite (proj1 (Hstart _ _ H H0)) | rewrite (Hhold _ _ H H0)]; unfold own; fld;
          try rewrite (proj2 (Hstart _ _ H H0)); reflexivity|];
         intros t2 k2 G2 Hi; look G2; [reflexivity|]; specialize (H1 _ _ _ G2 Hi); lia).
  - right. left. exists k'. split; [reflexivity|left; reflexivity].
  - left. reflexivity.
  - left. reflexivity.
  - right. left. exists k. split; [exact H|]. left. unfold own. rewrite H0. reflexivity.
Qed.

Lemma upd_other f i v j : j <> i -> upd f i v j = f j.
Proof. intro H. unfold upd. destruct (Z.eqb_spec j i); [contradiction|reflexivity]. Qed.
Lemma upd_same f i v : upd f i v i = v.
Proof. unfold upd. rewrite Z.eqb_refl. reflexivity. Qed.

Lemma ids_prim s s' : prim s s' -> Own s -> Ids s -> Ids s'.
Proof.
  intros H Ho (Hn & Hi & Hw & Hf). pose proof (proj1 Ho) as H1. unfold get in H1.
  assert (Hnew : forall w, w_id w = s_next s -> increasing (map w_id (s_waiters s ++ [w])) /\
     forall x, In x (s_waiters s ++ [w]) -> 0 <= w_id x < s_next s + 1).
  { intros w E. split.
    - rewrite map_app. apply increasing_app_one; [exact Hi|]. intros y Hy. apply in_map_iff in Hy as (x & <- & Hx).
      rewrite E. apply Hw, Hx.
    - intros x Hx. apply in_app_or in Hx as [Hx|[<-|[]]]; [specialize (Hw x Hx)|]; lia. }
  assert (Hfil : forall i, increasing (map w_id (filter (fun w => negb (w_id w =? i)) (s_waiters s))) /\
     forall x, In x (filter (fun w => negb (w_id w =? i)) (s_waiters s)) -> 0 <= w_id x < s_next s).
  { intro i. split; [apply increasing_filter, Hi|]. intros x Hx. apply filter_In in Hx as [Hx _]. apply Hw, Hx. }
  assert (Hown : forall t k i, assoc t (s_tasks s) = Some k -> In i (own k) -> i < s_next s) by (intros t k i G Hin; specialize (H1 _ _ _ G Hin); lia).
  assert (Hca : forall i, i < s_next s -> forall j, s_next s <= j -> cancelled (s_futs s) i j = FPending).
  { intros i Hlt j Hj. rewrite cancelled_other by lia. apply Hf, Hj. }
  assert (Hre : forall i o, i < s_next s -> forall j, s_next s <= j -> resulted (s_futs s) i o j = FPending).
  { intros i o Hlt j Hj. rewrite resulted_other by lia. apply Hf, Hj. }
  start_prim H; unfold Ids; opn; try exact (conj Hn (conj Hi (conj Hw Hf)));
    try (split; [lia|]; split; [apply Hnew; reflexivity|]; split; [apply Hnew; reflexivity|];
         intros j Hj; rewrite upd_other by lia; apply Hf; lia);
    try (split; [exact Hn|]; split; [exact Hi|]; split; [exact Hw|]; apply Hca; eapply Hown; [eassumption|];
         unfold own; rewrite H0; left; reflexivity).
  - split; [exact Hn|]. split; [apply Hfil|]. split; [apply Hfil|]. apply Hre. eapply Hown; [exact H|].
    unfold own. match goal with Hw : t_wid _ = Some _ |- _ => rewrite Hw end. apply in_or_app. right. left. reflexivity.
  - split; [exact Hn|]. destruct (s_futs s i); (split; [first [apply Hfil|exact Hi]|]; split; [first [apply Hfil|exact Hw]|exact Hf]).
  - split; [exact Hn|]. split; [apply Hfil|]. split; [apply Hfil|]. apply Hre, Hw, H.
Qed.

(** ** the invariants needed to decompose a step *)
Definition Core (s : st) : Prop := Tids s /\ Tasks_ok s /\ Own s /\ Ids s.
Lemma core_prim s s' : prim s s' -> Core s -> Core s'.
Proof.
  intros H (A & B & C & D). split; [eapply tids_prim; eassumption|]. split; [eapply tasks_prim; eassumption|].
  split; [eapply own_prim; eassumption|eapply ids_prim; eassumption].
Qed.
Lemma core_prims s s' : prims s s' -> Core s -> Core s'.
Proof. apply prims_inv, core_prim. Qed.
Lemma core_init cap v d a : Core (init cap v d a).
Proof.
  split; [split; [cbn; lia|discriminate]|]. split; [discriminate|]. split.
  - split; [|split]; discriminate.
  - split; [cbn; lia|]. split; [exact I|]. split; [intros w []|reflexivity].
Qed.

Lemma recent_note o s : recent o (s_log (note (OReceived o) s)).
Proof. exists (s_log s), []. split; [reflexivity|constructor]. Qed.
Lemma data_received_prims s f : Core s -> prims s (fst (data_received s f)).
Proof.
  intro Hc. unfold data_received. destruct (from_unpi_frame f) as [o|e] eqn:Hf; [|constructor].
  pose proof (dispatch_prims (s_waiters (note (OReceived o) s)) o (note (OReceived o) s) (recent_note o s)) as Hd.
  destruct (dispatch (s_waiters (note (OReceived o) s)) o (note (OReceived o) s)) as [[s1 o1] r]. cbn [fst] in Hd.
  assert (H1 : prims s s1).
  { eapply prims_cons; [eapply P_received, Hf|]. apply Hd; [apply increasing_nodup, Hc|auto]. }
  destruct r; [|exact H1]. eapply prims_app; [exact H1|]. apply app_handle_prims.
Qed.
Lemma gw_prims bs : forall s b, Core s -> prims s (snd (fst (gw_data_received data_received b s bs))).
Proof.
  induction bs as [|x bs IH]; intros s b Hc; cbn [gw_data_received]; [constructor|].
  destruct (parser_write b x) as [b1 [[f|]|e]]; [|apply IH, Hc|constructor].
  pose proof (data_received_prims s f Hc) as Hd. destruct (data_received s f) as [s1 [[]|e]]; cbn [fst] in Hd.
  - eapply prims_app; [exact Hd|]. apply IH. eapply core_prims; eassumption.
  - exact Hd.
Qed.
Lemma receive_prims s bs : Core s -> prims s (receive bs s).
Proof.
  intro Hc. unfold receive. pose proof (gw_prims bs s (s_buf s) Hc) as Hg.
  destruct (gw_data_received data_received (s_buf s) s bs) as [[b s1] r]. cbn [fst snd] in Hg.
  eapply prims_app; [exact Hg|]. destruct r; [apply prims_one, P_buf|].
  eapply prims_cons; [apply P_buf|apply prims_one, P_raised].
Qed.
Lemma step_prims e s : Core s -> prims s (step e s).
Proof.
  intro Hc. destruct e; cbn [step].
  - apply prims_one, P_spawn.
  - apply resume_prims.
  - apply wait_timeout_prims.
  - apply cancel_prims.
  - apply prims_one, P_cleanup.
  - destruct (Z.leb_spec 0 ms); [|constructor]. apply prims_one, P_tick. assumption.
  - apply receive_prims, Hc.
  - apply prims_one, P_open.
  - apply prims_one, P_version.
Qed.
Lemma run_prims es : forall s, Core s -> prims s (run es s).
Proof.
  unfold run. induction es as [|e es IH]; intros s Hc; cbn [fold_left]; [constructor|].
  pose proof (step_prims e s Hc) as He. eapply prims_app; [exact He|]. apply IH. eapply core_prims; eassumption.
Qed.
Lemma run_core es s : Core s -> Core (run es s).
Proof. intro Hc. eapply core_prims; [apply run_prims, Hc|exact Hc]. Qed.

(** an invariant preserved by primitive transitions from [Core] states holds after every run *)
Lemma prims_core_inv (P : st -> Prop) : (forall s s', prim s s' -> Core s -> P s -> P s') ->
  forall s s', prims s s' -> Core s -> P s -> P s'.
Proof. intros H s s'. induction 1 as [|? ? ? Hp Hps IH]; [auto|]. intros Hc HP. apply IH; [eapply core_prim; eassumption|eauto]. Qed.
