(** * StartExec: a concrete stick to run the start-up program against (for examples and refutations), shown to
    produce executions in the sense of SpecStart *)
From Verif Require Import Base Types Buffalo Zpi Api SpecCodec SpecMachine Nv StartZnp SpecStart.

(** answers of commands that do not concern stored items, and indications for waiters *)
Record device := mk_device { dv_answer : subsystem -> string -> payload -> payload; dv_indication : matcher -> option zpi }.
Definition reply (sub : subsystem) (cmd : string) (d : payload) : zpi := mk_zpi SRSP sub cmd 0 d [] None.
Definition checked (x : list Z) (m : zpi) : result zpi :=
  match status_of m with
  | Some (VInt c) => if existsb (Z.eqb c) x then Ok m else Err (CommandError c)
  | _ => Ok m
  end.
Definition respond (dv : device) (s : store) (sub : subsystem) (cmd : string) (d : payload) (x : list Z) : result zpi * store :=
  match storage_of sub cmd d with
  | Reads i => (checked x (reply sub cmd [("status", VInt match s i with Some _ => 0 | None => 2 end); ("value", VBytes (stored s i))]), s)
  | Writes i b => (checked x (reply sub cmd [("status", VInt 0)]), put s i b)
  | Creates i b => match s i with
                   | Some _ => (checked x (reply sub cmd [("status", VInt 0)]), s)
                   | None => (checked x (reply sub cmd [("status", VInt 9)]), put s i b)
                   end
  | ResetsStick => (Ok (reply sub "resetInd" []), s)
  | NoStorage => (checked x (reply sub cmd (dv_answer dv sub cmd d)), s)
  end.
(** run [p] for at most [n] acts *)
Fixpoint exec {A} (dv : device) (n : nat) (p : prog A) (s : store) {struct p} : list act * fin A * store :=
  match p with
  | DRet a => ([], Returned a, s)
  | DRaise e => ([], Raised e, s)
  | DRequest sub cmd d x k =>
    match n with
    | O => ([], Interrupted, s)
    | S n' => let '(r, s1) := respond dv s sub cmd d x in
              let '(tr, f, s2) := exec dv n' (k r) s1 in (ARequest sub cmd d x (Some r) :: tr, f, s2)
    end
  | DListen m t k =>
    match n with O => ([], Interrupted, s) | S n' => let '(tr, f, s2) := exec dv n' (k (m, t)) s in (AListen m t :: tr, f, s2) end
  | DAwait w k =>
    match n with
    | O => ([], Interrupted, s)
    | S n' =>
      let r := match dv_indication dv (fst w) with
               | Some i => match waiter_match (fst w) i with Ok true => Ok i | _ => Err TimeoutError end
               | None => Err TimeoutError end in
      let '(tr, f, s2) := exec dv n' (k r) s in (AAwait (fst w) r :: tr, f, s2)
    end
  | DSpawn sub cmd d k =>
    match n with O => ([], Interrupted, s) | S n' => let '(tr, f, s2) := exec dv n' k s in (ASpawn sub cmd d :: tr, f, s2) end
  end.

Lemma checked_possible x m : answer_possible x (checked x m).
Proof.
  unfold checked. destruct (status_of m) as [[c| | | |]|] eqn:E; try (intros c' E'; congruence).
  destruct (existsb (Z.eqb c) x) eqn:Ex; [|discriminate]. intros c' E'. rewrite E in E'. injection E' as <-.
  apply existsb_exists in Ex as (y & Hy & Ey). apply Z.eqb_eq in Ey. subst y. exact Hy.
Qed.
Lemma checked_ok x m r : checked x m = Ok r -> r = m.
Proof. unfold checked. destruct (status_of m) as [[c| | | |]|]; try congruence. destruct (existsb _ _); congruence. Qed.
Lemma respond_sound dv s sub cmd d x r s1 : respond dv s sub cmd d x = (r, s1) ->
  answer_possible x r /\ stick_act s (ARequest sub cmd d x (Some r)) s1.
Proof.
  unfold respond. cbn [stick_act]. destruct (storage_of sub cmd d) as [i|i b|i b| |].
  - intro E. injection E as <- <-. split; [apply checked_possible|]. split; [reflexivity|].
    destruct (checked _ _) as [m|] eqn:Ec; [|exact I]. apply checked_ok in Ec as ->. split; reflexivity.
  - intro E. injection E as <- <-. split; [apply checked_possible|]. destruct (checked _ _); [reflexivity|right; reflexivity].
  - destruct (s i); intro E; injection E as <- <-; (split; [apply checked_possible|]); [reflexivity|]. destruct (checked _ _); [reflexivity|right; reflexivity].
  - intro E. injection E as <- <-. split; [intros c E; discriminate E|]. intro v. left. reflexivity.
  - intro E. injection E as <- <-. split; [apply checked_possible|reflexivity].
Qed.
Lemma exec_sound {A} dv (p : prog A) : forall n s tr f s', exec dv n p s = (tr, f, s') -> runs p tr f /\ stick s tr s'.
Proof.
  induction p as [a|e|sub cmd d x k IH|m t k IH|w k IH|sub cmd d k IH]; intros n s tr f s' H; cbn [exec] in H.
  - injection H as <- <- <-. split; constructor.
  - injection H as <- <- <-. split; constructor.
  - destruct n; [injection H as <- <- <-; split; constructor|].
    destruct (respond dv s sub cmd d x) as [r s1] eqn:Er. destruct (exec dv n (k r) s1) as [[tr1 f1] s2] eqn:Ee. injection H as <- <- <-.
    apply respond_sound in Er as [P Q]. apply IH in Ee as [R S]. split; [constructor; assumption|econstructor; eassumption].
  - destruct n; [injection H as <- <- <-; split; constructor|].
    destruct (exec dv n (k (m, t)) s) as [[tr1 f1] s2] eqn:Ee. injection H as <- <- <-. apply IH in Ee as [R S].
    split; [constructor; assumption|econstructor; [reflexivity|eassumption]].
  - destruct n; [injection H as <- <- <-; split; constructor|]. destruct w as [m t]. cbn [fst] in H.
    match type of H with context [exec dv n (k ?r) s] => set (r0 := r) in *; destruct (exec dv n (k r0) s) as [[tr1 f1] s2] eqn:Ee end.
    injection H as <- <- <-. apply IH in Ee as [R S]. split; [|econstructor; [reflexivity|eassumption]].
    constructor; [|exact R]. unfold r0. destruct (dv_indication dv m) as [i|]; [|discriminate].
    destruct (waiter_match m i) as [[]|] eqn:Em; [exact Em|discriminate|discriminate].
  - destruct n; [injection H as <- <- <-; split; constructor|].
    destruct (exec dv n k s) as [[tr1 f1] s2] eqn:Ee. injection H as <- <- <-. apply IH in Ee as [R S].
    split; [constructor; assumption|econstructor; [reflexivity|eassumption]].
Qed.

(** ** Running to the end *)
Fixpoint serve {A} (dv : device) (p : prog A) (s : store) {struct p} : list act * result A * store :=
  match p with
  | DRet a => ([], Ok a, s)
  | DRaise e => ([], Err e, s)
  | DRequest sub cmd d x k =>
      let '(r, s1) := respond dv s sub cmd d x in
      let '(tr, f, s2) := serve dv (k r) s1 in (ARequest sub cmd d x (Some r) :: tr, f, s2)
  | DListen m t k => let '(tr, f, s2) := serve dv (k (m, t)) s in (AListen m t :: tr, f, s2)
  | DAwait w k =>
      let r := match dv_indication dv (fst w) with
               | Some i => match waiter_match (fst w) i with Ok true => Ok i | _ => Err TimeoutError end
               | None => Err TimeoutError end in
      let '(tr, f, s2) := serve dv (k r) s in (AAwait (fst w) r :: tr, f, s2)
  | DSpawn sub cmd d k => let '(tr, f, s2) := serve dv k s in (ASpawn sub cmd d :: tr, f, s2)
  end.
Definition fin_for {A} (r : result A) : fin A := match r with Ok a => Returned a | Err e => Raised e end.
Lemma serve_sound {A} dv (p : prog A) : forall s tr f s', serve dv p s = (tr, f, s') -> runs p tr (fin_for f) /\ stick s tr s'.
Proof.
  induction p as [a|e|sub cmd d x k IH|m t k IH|w k IH|sub cmd d k IH]; intros s tr f s' H; cbn [serve] in H.
  - injection H as <- <- <-. split; constructor.
  - injection H as <- <- <-. split; constructor.
  - destruct (respond dv s sub cmd d x) as [r s1] eqn:Er. destruct (serve dv (k r) s1) as [[tr1 f1] s2] eqn:Ee. injection H as <- <- <-.
    apply respond_sound in Er as [P Q]. apply IH in Ee as [R S]. split; [constructor; assumption|econstructor; eassumption].
  - destruct (serve dv (k (m, t)) s) as [[tr1 f1] s2] eqn:Ee. injection H as <- <- <-. apply IH in Ee as [R S].
    split; [constructor; assumption|econstructor; [reflexivity|eassumption]].
  - destruct w as [m t]. cbn [fst] in H.
    match type of H with context [serve dv (k ?r) s] => set (r0 := r) in *; destruct (serve dv (k r0) s) as [[tr1 f1] s2] eqn:Ee end.
    injection H as <- <- <-. apply IH in Ee as [R S]. split; [|econstructor; [reflexivity|eassumption]].
    constructor; [|exact R]. unfold r0. destruct (dv_indication dv m) as [i|]; [|discriminate].
    destruct (waiter_match m i) as [[]|] eqn:Em; [exact Em|discriminate|discriminate].
  - destruct (serve dv k s) as [[tr1 f1] s2] eqn:Ee. injection H as <- <- <-. apply IH in Ee as [R S].
    split; [constructor; assumption|econstructor; [reflexivity|eassumption]].
Qed.

Definition ends {A} (dv : device) (p : prog A) (s : store) (Q : result A -> store -> Prop) : Prop :=
  Q (snd (fst (serve dv p s))) (snd (serve dv p s)).
Lemma ends_ret {A} dv (a : A) s (Q : result A -> store -> Prop) : Q (Ok a) s -> ends dv (DRet a) s Q.
Proof. intro H. exact H. Qed.
Lemma ends_raise {A} dv e s (Q : result A -> store -> Prop) : Q (Err e) s -> ends dv (DRaise e) s Q.
Proof. intro H. exact H. Qed.
Lemma ends_seq {A B} dv (p : prog A) (g : A -> prog B) : forall s Q,
  ends dv p s (fun r s' => match r with Ok a => ends dv (g a) s' Q | Err e => Q (Err e) s' end) -> ends dv (seq p g) s Q.
Proof.
  unfold ends. induction p as [a|e|sub cmd d x k IH|m t k IH|w k IH|sub cmd d k IH]; intros s Q H; cbn [seq serve] in *; try exact H.
  - destruct (respond dv s sub cmd d x) as [r s1]. specialize (IH r s1 Q).
    destruct (serve dv (k r) s1) as [[? ?] ?], (serve dv (seq (k r) g) s1) as [[? ?] ?]. auto.
  - specialize (IH (m, t) s Q). destruct (serve dv (k (m, t)) s) as [[? ?] ?], (serve dv (seq (k (m, t)) g) s) as [[? ?] ?]. auto.
  - match goal with |- context [serve dv (seq (k ?r) g) s] => specialize (IH r s Q); destruct (serve dv (k r) s) as [[? ?] ?], (serve dv (seq (k r) g) s) as [[? ?] ?] end. auto.
  - specialize (IH s Q). destruct (serve dv k s) as [[? ?] ?], (serve dv (seq k g) s) as [[? ?] ?]. auto.
Qed.
Lemma ends_attempt {A} dv (p : prog A) h : forall s Q,
  ends dv p s (fun r s' => match r with Err e => match h e with Some q => ends dv q s' Q | None => Q (Err e) s' end | Ok a => Q (Ok a) s' end) ->
  ends dv (attempt p h) s Q.
Proof.
  unfold ends. induction p as [a|e|sub cmd d x k IH|m t k IH|w k IH|sub cmd d k IH]; intros s Q H; cbn [attempt serve fst snd] in *; try exact H.
  - destruct (h e); exact H.
  - destruct (respond dv s sub cmd d x) as [r s1]. specialize (IH r s1 Q).
    destruct (serve dv (k r) s1) as [[? ?] ?], (serve dv (attempt (k r) h) s1) as [[? ?] ?]. auto.
  - specialize (IH (m, t) s Q). destruct (serve dv (k (m, t)) s) as [[? ?] ?], (serve dv (attempt (k (m, t)) h) s) as [[? ?] ?]. auto.
  - match goal with |- context [serve dv (attempt (k ?r) h) s] => specialize (IH r s Q); destruct (serve dv (k r) s) as [[? ?] ?], (serve dv (attempt (k r) h) s) as [[? ?] ?] end. auto.
  - specialize (IH s Q). destruct (serve dv k s) as [[? ?] ?], (serve dv (attempt k h) s) as [[? ?] ?]. auto.
Qed.
Lemma ends_request dv sub cmd d x s r s1 (Q : result zpi -> store -> Prop) : respond dv s sub cmd d x = (r, s1) -> Q r s1 -> ends dv (request sub cmd d x) s Q.
Proof. unfold ends, request. cbn [serve]. intros -> H. destruct r; exact H. Qed.
Lemma ends_weaken {A} dv (p : prog A) s (Q Q' : result A -> store -> Prop) : (forall r s', Q r s' -> Q' r s') -> ends dv p s Q -> ends dv p s Q'.
Proof. intros H K. apply H, K. Qed.

(** A device that does what it is asked to: every request succeeds (a group may be unknown) and every awaited
    indication comes.  Of the SYS commands start makes only those about stored items, answered by [respond]. *)
Definition works (dv : device) : Prop :=
  (forall sub cmd d, sub <> SYS -> exists c, dict_get (dv_answer dv sub cmd d) "status" = Some (VInt c) /\ (c = 0 \/ c = 1 /\ sub = ZDO /\ (cmd = "extFindGroup" \/ cmd = "startupFromApp"))) /\
  (forall d, exists st, dict_get (dv_answer dv UTIL "getDeviceInfo" d) "devicestate" = Some st) /\
  (forall m, m = mk_matcher AREQ ZDO "stateChangeInd" [("state", VInt 9)] \/ m = mk_matcher AREQ ZDO "activeEpRsp" [] ->
     exists i, dv_indication dv m = Some i /\ waiter_match m i = Ok true /\ (m_cmd m = "activeEpRsp" -> exists l, dict_get (z_payload i) "activeeplist" = Some (VList l))).
(** All compared items exist *)
Definition items_exist (s : store) : Prop := forall i, In i [132; 99; 98; 131; 45] -> s i <> None.
