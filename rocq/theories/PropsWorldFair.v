(** * PropsWorldFair: whoever waits for a link waits only for those ahead, also when connections are lost (C139) *)
From Verif Require Import Base Types Uart Buffalo CmdTable Zpi Api App Machine Life World SpecMachine SpecProgress SpecWorld SpecWorldProgress
  PropsApp PropsMachine PropsWorld WorldProgress2 WorldFair PropsWorldEnd.

(** ** C139.  Rounds as in C123.  However many operations are called, requests made, connections lost and API objects made
    meanwhile: on each API object, closed or open, whoever holds the link has ended after two rounds; whoever waits for
    it after four and two for each one ahead; whoever is there at all after three and two for each one that waits for
    this link when the first round is over; and an operation that has a slot and talks to this API object one round
    later. *)
Theorem C139_only_those_ahead : forall T w rs a s, wreachable w -> nth_error (w_apis w) a = Some s -> 30000 <= T -> wserving_rounds T w rs ->
  let e := world_run (concat rs) w in
  let over t := exists s' x, nth_error (w_apis e) a = Some s' /\ In (OEnded t x) (s_log s') in
  let n := Z.of_nat (length rs) in
  (forall t, holder (s_log s) = Some t -> 2 <= n -> over t) /\
  (forall t q1 q2, waiting (s_log s) = q1 ++ t :: q2 -> 4 + 2 * Z.of_nat (length q1) <= n -> over t) /\
  forall r rest s1, rs = r :: rest -> nth_error (w_apis (world_run r w)) a = Some s1 ->
    (forall t k, get s t = Some k -> (forall m to, t_job k = JWaitFor m to -> to <= T) -> 3 + 2 * Z.of_nat (length (waiting (s_log s1))) <= n -> over t) /\
    (forall m q, In (m, q, a) (working (w_log w)) -> 4 + 2 * Z.of_nat (length (waiting (s_log s1))) <= n -> exists x, In (WEnded m x) (w_log e)).
Proof.
  intros T w rs a s R A HT HF e over n. split; [|split].
  - intros t H Hn. eapply wholding_ends; eassumption.
  - intros t q1 q2 H Hn. eapply wwaiting_ends; eassumption.
  - intros r rest s1 E A1. subst over e n. rewrite E in *. cbn [length]. split.
    + intros t k G J Hn. destruct (wtask_ends T r rest w a s s1 t k R A HT G J HF A1) as (s' & k' & A' & G' & E'); [lia|].
      destruct (task_ended_log _ a s' t k' (wreach_run w _ R) A' G' E') as (x & Hx). eauto.
    + intros m q Hw Hn. eapply wworking_ends; try eassumption. lia.
Qed.
Print Assumptions C139_only_those_ahead.

(** Two requests wait for answers when the stick is lost; then two more operations are called in every round, which begin
    and, once start-up succeeds again, talk to the new API object.  Nobody answers.  The two requests end. *)
Definition turns (ops : list nat) (tasks : list (nat * Z)) : list wevent :=
  map VRun ops ++ flat_map (fun x => [VTimeout (fst x) (snd x); VTask (fst x) (snd x)]) tasks.
Definition named (ops : list nat) (tasks : list (nat * Z)) (w : world) : bool :=
  forallb (fun n => existsb (Nat.eqb n) ops) (unfinished_ops (w_log w)) &&
  forallb (fun x => forallb (fun t => existsb (fun y => Nat.eqb (fst y) (fst x) && (snd y =? t)) tasks) (pending (s_log (snd x))))
    (combine (seq 0 (length (w_apis w))) (w_apis w)).
Lemma combine_nth {A} (l : list A) : forall k i x, nth_error l i = Some x -> In ((k + i)%nat, x) (combine (seq k (length l)) l).
Proof.
  induction l as [|y l IH]; intros k [|i] x H; try discriminate; cbn [length seq combine].
  - injection H as <-. left. rewrite Nat.add_0_r. reflexivity.
  - right. rewrite Nat.add_succ_r. apply (IH (S k)), H.
Qed.
Lemma turns_serve ops tasks T w b : named ops tasks w = true -> T <= passing b -> wserving T w (b ++ turns ops tasks).
Proof.
  unfold named. intros H P. apply andb_prop in H as [H1 H2]. rewrite forallb_forall in H1, H2. exists b, (turns ops tasks). split; [reflexivity|]. split; [exact P|]. split.
  - intros n Hn. specialize (H1 n Hn). apply existsb_exists in H1 as (m & Hm & E). apply Nat.eqb_eq in E as <-. unfold turns. apply in_or_app. left. apply in_map, Hm.
  - intros c s t G Ht. specialize (H2 _ (combine_nth _ 0 c s G)). cbn [fst snd] in H2. rewrite forallb_forall in H2. specialize (H2 t Ht).
    apply existsb_exists in H2 as ([c' t'] & Hy & E). cbn [fst snd] in E. apply andb_prop in E as [E1 E2]. apply Nat.eqb_eq in E1. apply Z.eqb_eq in E2. subst c' t'.
    apply in_split in Hy as (l1 & l2 & ->). unfold turns. rewrite flat_map_app. cbn [flat_map app fst snd].
    exists (map VRun ops ++ flat_map (fun x => [VTimeout (fst x) (snd x); VTask (fst x) (snd x)]) l1), [], (flat_map (fun x => [VTimeout (fst x) (snd x); VTask (fst x) (snd x)]) l2).
    rewrite <- app_assoc. reflexivity.
Qed.
Definition lit_ops : list nat := seq 0 16.
Definition lit_tasks : list (nat * Z) := map (fun t => (0%nat, Z.of_nat t)) (seq 0 2) ++ map (fun t => (1%nat, Z.of_nat t)) (seq 0 12).
Definition lit_more : list wevent := [VCall (lit_send 4); VCall (lit_send 5); VTick 30000] ++ turns lit_ops lit_tasks.
Definition lit_crowd : list (list wevent) := (lit_back ++ VTick 30000 :: turns lit_ops lit_tasks) :: repeat lit_more 5.
Fixpoint rounds_named (w : world) (rs : list (list wevent)) : bool :=
  match rs with [] => true | r :: rest => named lit_ops lit_tasks w && rounds_named (world_run r w) rest end.
Lemma crowd_served rs : forall w, (forall r, In r rs -> exists a, r = a ++ turns lit_ops lit_tasks /\ 30000 <= passing a) -> rounds_named w rs = true ->
  wserving_rounds 30000 w rs.
Proof.
  induction rs as [|r rs IH]; intros w H E; cbn [wserving_rounds rounds_named] in *; [exact I|]. apply andb_prop in E as [E1 E2].
  destruct (H r ltac:(left; reflexivity)) as (a & -> & P). split; [apply turns_serve; assumption|]. apply IH; [intros r' Hr; apply H; right; exact Hr|exact E2].
Qed.
Example C139_inhabited :
  wserving_rounds 30000 lit_lost lit_crowd /\ length lit_crowd = 6%nat /\
  map (fun s => (holder (s_log s), waiting (s_log s))) (w_apis lit_lost) = [(Some 0, [1])] /\ working (w_log lit_lost) = [(0, 0, 0); (1, 0, 0)]%nat /\
  map (fun s => waiting (s_log s)) (w_apis (world_run (concat (firstn 1 lit_crowd)) lit_lost)) = [[]; []] /\
  length (unfinished_ops (w_log (world_run (concat lit_crowd) lit_lost))) = 7%nat /\
  existsb (fun o => match o with WEnded 0 _ => true | _ => false end) (w_log (world_run (concat lit_crowd) lit_lost)) = true /\
  existsb (fun o => match o with WEnded 1 _ => true | _ => false end) (w_log (world_run (concat lit_crowd) lit_lost)) = true.
Proof.
  split; [apply crowd_served; [|vm_compute; reflexivity]|repeat apply conj; vm_compute; reflexivity].
  intros r [<-|Hr]; [exists (lit_back ++ [VTick 30000])|exists [VCall (lit_send 4); VCall (lit_send 5); VTick 30000]; apply repeat_spec in Hr; subst r]; (split; [reflexivity|vm_compute; discriminate]).
Qed.
