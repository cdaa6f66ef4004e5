(** * MachineInv3: what the history says about the link, the queue and each task *)
From Coq Require Import ZifyBool ZifyNat.
From Verif Require Import Base Types Uart Buffalo CmdTable Zpi Api App Machine SpecMachine MachineBase MachineInv MachineInv2.

Lemma always_snoc P l x : always P l -> P l x -> always P (l ++ [x]).
Proof.
  intros H Hx a y b E. destruct b as [|z b] using rev_ind.
  - apply app_inj_tail in E as [-> ->]. exact Hx.
  - clear IHb. change (a ++ y :: b ++ [z]) with (a ++ (y :: b) ++ [z]) in E. rewrite app_assoc in E.
    apply app_inj_tail in E as [E _]. eapply H. exact E.
Qed.
Lemma always_nil P : always P [].
Proof. intros a x b E. destruct a; discriminate. Qed.

Lemma holder_snoc l x : holder (l ++ [x]) = match x with OGranted t => Some t | OFreed _ => None | _ => holder l end.
Proof. unfold holder. rewrite fold_left_app. reflexivity. Qed.
Lemma waiting_snoc l x : waiting (l ++ [x]) =
  match x with OQueued t => waiting l ++ [t] | OGranted t | OEnded t _ => without t (waiting l) | _ => waiting l end.
Proof. unfold waiting. rewrite fold_left_app. reflexivity. Qed.
Lemma active_snoc l x : active (l ++ [x]) =
  match x with OAdmitted t => active l ++ [t] | OEnded t _ => without t (active l) | _ => active l end.
Proof. unfold active. rewrite fold_left_app. reflexivity. Qed.
Lemma trace_snoc t l x : trace t (l ++ [x]) = trace t l ++ (if about t x then [x] else []).
Proof. unfold trace. rewrite filter_app. cbn [filter]. reflexivity. Qed.

(** ** the link *)
Definition link_ok (a : list obs) (x : obs) : Prop :=
  match x with
  | OGranted t => holder a = None
  | OWritten t _ _ | OFreed t => holder a = Some t
  | OEnded t _ | OQueued t | OAdmitted t | OCalled t => holder a <> Some t
  | _ => True
  end.
Definition Link (s : st) : Prop := holder (s_log s) = s_lock s /\ always link_ok (s_log s).

Lemma not_holder s t k : LockP (s_lock s) (s_tasks s) -> assoc t (s_tasks s) = Some k -> holds (t_phase k) = false -> s_lock s <> Some t.
Proof. intros [L1 _] G Hh E. destruct (L1 t E) as (k' & G' & Hh'). congruence. Qed.
Lemma is_holder s t k : LockP (s_lock s) (s_tasks s) -> assoc t (s_tasks s) = Some k -> holds (t_phase k) = true -> s_lock s = Some t.
Proof. intros [_ L2] G Hh. eapply L2; eassumption. Qed.

Ltac snocs := repeat rewrite <- app_assoc; repeat rewrite app_assoc.
Lemma link_prim_tids s s' : prim s s' -> Tids s -> Lock s -> Link s -> Link s'.
Proof.
  intros H Hc L [E A].
  assert (Hnew : s_lock s <> Some (s_ntid s)).
  { destruct L as [L1 _]. intro C. destruct (L1 _ C) as (k & G & _). pose proof (proj2 Hc _ _ G). lia. }
  unfold Lock in L.
  start_prim H; unfold Link in *; opn; repeat rewrite holder_snoc; try (split; [assumption|]); try (split; [reflexivity|]);
    repeat (apply always_snoc); cbn [link_ok]; repeat rewrite holder_snoc; try exact A; try exact I;
    try rewrite E; try assumption; try reflexivity;
    try (eapply is_holder; [exact L|eassumption|phases; reflexivity]);
    try (eapply not_holder; [exact L|eassumption|phases; reflexivity]); try discriminate.
Qed.
Lemma link_prim s s' : prim s s' -> Core s -> Lock s -> Link s -> Link s'.
Proof. intros H Hc. apply link_prim_tids; [exact H|apply Hc]. Qed.

(** ** the queue *)
Definition queue_ok (a : list obs) (x : obs) : Prop :=
  match x with OGranted t => waiting a = [] \/ exists q, waiting a = t :: q | _ => True end.
Definition Waiting (s : st) : Prop := waiting (s_log s) = s_queue s /\ always queue_ok (s_log s).
Lemma without_not t q : ~ In t q -> without t q = q.
Proof.
  induction q as [|a q IH]; cbn [without filter]; [reflexivity|]. intro H.
  destruct (Z.eqb_spec a t) as [->|]; cbn [negb]; [exfalso; apply H; left; reflexivity|].
  f_equal. apply IH. intro C. apply H. right. exact C.
Qed.
Lemma not_queued s t k : QueueP (s_queue s) (s_tasks s) -> assoc t (s_tasks s) = Some k -> queued (t_phase k) = false -> without t (s_queue s) = s_queue s.
Proof.
  intros (_ & Q1 & _) G Hq. apply without_not. intro C. destruct (Q1 t C) as (k' & G' & Hq'). congruence.
Qed.
Lemma waiting_prim s s' : prim s s' -> Queue s -> Waiting s -> Waiting s'.
Proof.
  intros H Q [E A]. unfold Queue in Q.
  start_prim H; unfold Waiting in *; opn; repeat rewrite waiting_snoc; try (split; [assumption|]);
    repeat (apply always_snoc); cbn [queue_ok]; repeat rewrite waiting_snoc; try exact A; try exact I;
    try rewrite E; 
    try (split; [eapply not_queued; [exact Q|eassumption|phases; reflexivity]|repeat (apply always_snoc); try exact A; exact I]).
  - split; [reflexivity|]. apply always_snoc; [exact A|exact I].
  - split; [eapply not_queued; [exact Q|eassumption|phases; reflexivity]|]. apply always_snoc; [exact A|].
    left. rewrite E. assumption.
  - destruct Q as (Nd & _). split.
    + rewrite H2 in *. inversion Nd; subst. cbn [without filter]. rewrite Z.eqb_refl. cbn [negb]. apply without_not. assumption.
    + apply always_snoc; [exact A|]. right. exists q. rewrite E. exact H2.
  - split; [reflexivity|]. apply always_snoc; [exact A|exact I].
Qed.

(** ** what each task did so far *)
Definition adm (j : job) (t : Z) : list obs := if uses_sem j then [OAdmitted t] else [].
Definition came (j : job) (t : Z) (l : list obs) : Prop :=
  exists q, (q = [] \/ q = [OQueued t]) /\ l = OCalled t :: adm j t ++ q ++ [OGranted t].
Definition life (j : job) (t : Z) (p : phase) (l : list obs) : Prop :=
  match p with
  | PStart | PSem | PReg _ _ | PAwait _ _ => l = [OCalled t]
  | PAdm => l = OCalled t :: adm j t
  | PLock => l = OCalled t :: adm j t ++ [OQueued t]
  | PHold => came j t l
  | PWait _ _ => exists l0 at_ bs, came j t l0 /\ l = l0 ++ [OWritten t at_ bs]
  | PSleep _ => exists l0 at_ bs, came j t l0 /\ l = l0 ++ [OWritten t at_ bs; OFreed t] /\ settles j = true
  | PRel => False
  | PDone r =>
      l = [OCalled t; OEnded t r] \/
      l = OCalled t :: adm j t ++ [OQueued t; OEnded t r] \/
      (exists l0, came j t l0 /\ l = l0 ++ [OFreed t; OEnded t r]) \/
      (exists l0 at_ bs, came j t l0 /\ l = l0 ++ [OWritten t at_ bs; OFreed t; OEnded t r])
  end.
Definition Life (s : st) : Prop :=
  (forall t k, get s t = Some k -> life (t_job k) t (t_phase k) (trace t (s_log s))) /\
  (forall t, get s t = None -> trace t (s_log s) = []).

Lemma about_other t u x : about t x = true -> t <> u -> about u x = false.
Proof. destruct x; cbn [about]; intros H Hn; try discriminate; apply Z.eqb_eq in H as ->; apply Z.eqb_neq; exact Hn. Qed.

Lemma end_early j t p l r : life j t p l -> match p with PStart | PSem | PReg _ _ | PAwait _ _ => True | _ => False end ->
  life j t (PDone r) (l ++ [OEnded t r]).
Proof. destruct p; intros H []; cbn [life] in *; subst; left; reflexivity. Qed.
Lemma end_lock j t l r : life j t PLock l -> life j t (PDone r) (l ++ [OEnded t r]).
Proof. cbn [life]. intros ->. right. left. cbn [app]. rewrite <- app_assoc. reflexivity. Qed.
Lemma end_hold j t l r : life j t PHold l -> life j t (PDone r) ((l ++ [OFreed t]) ++ [OEnded t r]).
Proof. cbn [life]. intro H. right. right. left. exists l. rewrite <- app_assoc. auto. Qed.
Lemma end_wait j t i d l r : life j t (PWait i d) l -> life j t (PDone r) ((l ++ [OFreed t]) ++ [OEnded t r]).
Proof.
  cbn [life]. intros (l0 & a & bs & H & ->). right. right. right. exists l0, a, bs. split; [exact H|].
  repeat rewrite <- app_assoc. reflexivity.
Qed.
Lemma end_sleep j t u l r : life j t (PSleep u) l -> life j t (PDone r) (l ++ [OEnded t r]).
Proof.
  cbn [life]. intros (l0 & a & bs & H & -> & _). right. right. right. exists l0, a, bs. split; [exact H|].
  repeat rewrite <- app_assoc. reflexivity.
Qed.
Lemma go_sleep j t i d u l : life j t (PWait i d) l -> settles j = true -> life j t (PSleep u) (l ++ [OFreed t]).
Proof.
  cbn [life]. intros (l0 & a & bs & H & ->) Hs. exists l0, a, bs. split; [exact H|].
  repeat rewrite <- app_assoc. auto.
Qed.
Lemma go_write j t i d a bs l : life j t PHold l -> life j t (PWait i d) (l ++ [OWritten t a bs]).
Proof. cbn [life]. intro H. exists l, a, bs. auto. Qed.
Lemma go_granted j t l : life j t PLock l -> life j t PHold (l ++ [OGranted t]).
Proof. cbn [life]. intros ->. exists [OQueued t]. split; [auto|]. cbn [app]. rewrite <- app_assoc. reflexivity. Qed.
Lemma go_grab j t l : life j t PAdm l -> life j t PHold (l ++ [OGranted t]).
Proof. cbn [life]. intros ->. exists []. split; [auto|]. reflexivity. Qed.
Lemma go_queue j t l : life j t PAdm l -> life j t PLock (l ++ [OQueued t]).
Proof. cbn [life]. intros ->. reflexivity. Qed.

Lemma life_prim_tids s s' : prim s s' -> Tids s -> Life s -> Life s'.
Proof.
  intros H Hc [L1 L2]. unfold Life, get in *.
  assert (Hnew : assoc (s_ntid s) (s_tasks s) = None).
  { destruct (assoc (s_ntid s) (s_tasks s)) eqn:E; [|reflexivity]. pose proof (proj2 Hc _ _ E). lia. }
  start_prim H; split;
    try (intros t' G; try match goal with Hg : assoc ?t (s_tasks s) = Some _ |- _ => 
           match type of G with context [assoc_set t _ _] => rewrite (assoc_put _ _ _ _ _ Hg) in G;
           destruct (Z.eqb_spec t t') as [->|]; [discriminate|] end end;
         repeat rewrite trace_snoc; cbn [about];
         repeat match goal with Hn : ?a <> ?b |- context [?a =? ?b] => rewrite (proj2 (Z.eqb_neq a b) Hn) end;
         cbn [app]; repeat rewrite app_nil_r; apply L2; assumption).
  all: try (intros t' k' G; look G;
    try (repeat rewrite trace_snoc; cbn [about];
         repeat match goal with Hn : ?a <> ?b |- context [?a =? ?b] => rewrite (proj2 (Z.eqb_neq a b) Hn) end;
         cbn [app]; repeat rewrite app_nil_r; apply L1; assumption)).
  all: try (repeat rewrite trace_snoc; cbn [about]; rewrite ?Z.eqb_refl; cbn [app]; repeat rewrite app_nil_r;
     pose proof (L1 _ _ H) as Hl; repeat match goal with Hp : t_phase ?k = _ |- _ => rewrite Hp in Hl end; fld;
     first [eapply end_early; [exact Hl|exact I] | eapply end_lock, Hl | eapply end_hold, Hl | eapply end_wait, Hl | eapply end_sleep, Hl
           | eapply go_sleep; [exact Hl|assumption] | eapply go_write, Hl | eapply go_granted, Hl | eapply go_grab, Hl | eapply go_queue, Hl
           | eapply end_wait, (go_write _ _ 0 0), Hl | eapply go_sleep; [apply (go_write _ _ 0 0), Hl|assumption]
           | cbn [life] in *; unfold adm; match goal with Hu : uses_sem _ = _ |- _ => rewrite Hu end; rewrite Hl; reflexivity
           | exact Hl ]).
  - rewrite trace_snoc. cbn [about]. destruct (Z.eqb_spec (s_ntid s) t') as [<-|]; [congruence|]. rewrite app_nil_r. apply L1. assumption.
  - rewrite trace_snoc. cbn [about]. rewrite Z.eqb_refl. rewrite (L2 _ Hnew). reflexivity.
  - intros t G. rewrite assoc_snoc in G. destruct (assoc t (s_tasks s)) eqn:E; [discriminate|].
    rewrite trace_snoc. cbn [about]. destruct (s_ntid s =? t); [discriminate|]. rewrite app_nil_r. apply L2, E.
Qed.
Lemma life_prim s s' : prim s s' -> Core s -> Life s -> Life s'.
Proof. intros H [Hc _]. apply life_prim_tids; assumption. Qed.

(** ** slots *)
Definition Active (cap : Z) (s : st) : Prop :=
  NoDup (active (s_log s)) /\
  (forall t, In t (active (s_log s)) <-> exists k, get s t = Some k /\ uses_sem (t_job k) && inside (t_phase k) = true) /\
  Z.of_nat (length (active (s_log s))) + s_sem s = cap.
Lemma without_in t q x : In x (without t q) <-> In x q /\ x <> t.
Proof. unfold without. rewrite filter_In. rewrite negb_true_iff, Z.eqb_neq. reflexivity. Qed.
Lemma without_nodup t q : NoDup q -> NoDup (without t q).
Proof. apply NoDup_filter. Qed.
Lemma without_length t q : NoDup q -> In t q -> S (length (without t q)) = length q.
Proof.
  induction q as [|a q IH]; intros Nd Hi; [destruct Hi|]. inversion Nd; subst. cbn [without filter].
  destruct (Z.eqb_spec a t) as [->|Hne]; cbn [negb length].
  - f_equal. fold (without t q). rewrite without_not by assumption. reflexivity.
  - f_equal. apply IH; [assumption|]. destruct Hi as [C|Hi]; [contradiction|exact Hi].
Qed.
Lemma nodup_snoc (q : list Z) t : NoDup q -> ~ In t q -> NoDup (q ++ [t]).
Proof.
  intros Nd Hn. rewrite <- (rev_involutive (q ++ [t])), rev_app_distr. apply NoDup_rev. cbn [rev app].
  constructor; [|apply NoDup_rev, Nd]. intro C. apply Hn, in_rev, C.
Qed.
Definition ActiveP (cap : Z) (q : list Z) (sem : Z) (ts : list (Z * task)) : Prop :=
  NoDup q /\ (forall t, In t q <-> exists k, assoc t ts = Some k /\ uses_sem (t_job k) && inside (t_phase k) = true) /\
  Z.of_nat (length q) + sem = cap.
Lemma active_same cap q sem ts t k k' : ActiveP cap q sem ts -> assoc t ts = Some k ->
  uses_sem (t_job k') && inside (t_phase k') = uses_sem (t_job k) && inside (t_phase k) -> ActiveP cap q sem (assoc_set t k' ts).
Proof.
  intros (Nd & Hi & Hl) G E. split; [exact Nd|]. split; [|exact Hl]. intro u. rewrite Hi, (assoc_put _ _ _ _ _ G).
  destruct (Z.eqb_spec t u) as [->|]; [|reflexivity]. rewrite G. split; intros (x & [= <-] & Hx); eexists; (split; [reflexivity|congruence]).
Qed.
Lemma active_in cap q sem ts t k k' : ActiveP cap q sem ts -> assoc t ts = Some k ->
  uses_sem (t_job k) && inside (t_phase k) = false -> uses_sem (t_job k') && inside (t_phase k') = true ->
  ActiveP cap (q ++ [t]) (sem - 1) (assoc_set t k' ts).
Proof.
  intros (Nd & Hi & Hl) G E E'. assert (Hn : ~ In t q) by (rewrite Hi; intros (x & Gx & Hx); congruence).
  split; [apply nodup_snoc; assumption|]. split; [|rewrite app_length; cbn [length]; lia].
  intro u. rewrite in_app_iff, Hi, (assoc_put _ _ _ _ _ G). destruct (Z.eqb_spec t u) as [->|Hne].
  - split; [intros _; eauto|]. intros _. right. left. reflexivity.
  - split; [intros [H|[H|[]]]; [exact H|contradiction]|auto].
Qed.
Lemma active_out cap q sem ts t k k' : ActiveP cap q sem ts -> assoc t ts = Some k ->
  uses_sem (t_job k') && inside (t_phase k') = false ->
  ActiveP cap (without t q) (sem + if uses_sem (t_job k) && inside (t_phase k) then 1 else 0) (assoc_set t k' ts).
Proof.
  intros (Nd & Hi & Hl) G E'.
  split; [apply without_nodup, Nd|]. split.
  - intro u. rewrite without_in, Hi, (assoc_put _ _ _ _ _ G). destruct (Z.eqb_spec t u) as [->|Hne].
    + split; [intros [_ C]; congruence|]. intros (x & [= <-] & Hx). congruence.
    + split; [intros [H _]; exact H|]. intro H. split; [exact H|congruence].
  - destruct (uses_sem (t_job k) && inside (t_phase k)) eqn:E.
    + assert (Hin : In t q) by (rewrite Hi; eauto). pose proof (without_length t q Nd Hin). lia.
    + rewrite without_not; [lia|]. rewrite Hi. intros (x & Gx & Hx). congruence.
Qed.
Lemma active_prim cap s s' : prim s s' -> Core s -> Active cap s -> Active cap s'.
Proof.
  intros H Hc A. change (ActiveP cap (active (s_log s)) (s_sem s) (s_tasks s)) in A.
  unfold Active. change (ActiveP cap (active (s_log s')) (s_sem s') (s_tasks s')).
  assert (Hnew : assoc (s_ntid s) (s_tasks s) = None).
  { destruct (assoc (s_ntid s) (s_tasks s)) eqn:E; [|reflexivity]. pose proof (proj2 (proj1 Hc) _ _ E). lia. }
  start_prim H; repeat rewrite active_snoc; try exact A;
    try (eapply active_same; [exact A|eassumption|phases; cbn [inside]; repeat rewrite andb_false_r; reflexivity]);
    try (eapply active_in; [exact A|eassumption|phases; cbn [inside]; apply andb_false_r|phases; cbn [inside];
         match goal with Hu : uses_sem _ = _ |- _ => rewrite Hu end; reflexivity]).
  all: try (match goal with |- ActiveP _ _ ?x _ => match type of A with ActiveP _ _ ?y _ =>
      replace x with (y + if uses_sem (t_job k) && inside (t_phase k) then 1 else 0) by (phases; cbn [inside]; destruct (uses_sem (t_job k)); cbn [andb]; lia) end end;
     eapply active_out; [exact A|eassumption|fld; cbn [inside]; apply andb_false_r]).
  - destruct A as (Nd & Hi & Hl). split; [exact Nd|]. split; [|exact Hl]. intro t. rewrite Hi. split.
    + intros (x & G & Hx). exists x. rewrite assoc_snoc, G. auto.
    + intros (x & G & Hx). rewrite assoc_snoc in G. destruct (assoc t (s_tasks s)); [eauto|].
      destruct (s_ntid s =? t); [|discriminate]. injection G as <-. cbn [inside t_phase] in Hx. rewrite andb_false_r in Hx. discriminate.
  - eapply active_same; [exact A|eassumption|]. fld. rewrite H1. reflexivity.
Qed.
