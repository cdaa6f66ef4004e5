(** * PropsWorldEnd: nothing hangs across lost connections (C123) *)
From Verif Require Import Base Types Uart Buffalo CmdTable Zpi Api App Machine Life World SpecMachine SpecProgress SpecWorld SpecWorldProgress
  PropsApp PropsMachine PropsWorld WorldProgress2.

(** ** C123 *)
(** In rounds of at least T ms in which every unfinished operation and every unfinished coroutine of every API object
    gets a turn, whatever else happens meanwhile: after at most nine rounds per operation and seven per other request
    and coroutine there was a moment at which nobody was unfinished; so everybody who was unfinished at the beginning
    has ended. *)
Theorem C123_nothing_hangs : forall T w rs, wreachable w -> 30000 <= T ->
  (forall a s t k m to, nth_error (w_apis (world_run (concat rs) w)) a = Some s -> get s t = Some k -> t_job k = JWaitFor m to -> to <= T) ->
  wserving_rounds T w rs ->
  let e := world_run (concat rs) w in
  9 * (Z.of_nat (length (unfinished_ops (w_log w))) + (Z.of_nat (length (called_ops (w_log e))) - Z.of_nat (length (called_ops (w_log w)))))
    + 7 * (waiting_tasks w + (other_calls e - other_calls w)) <= Z.of_nat (length rs) ->
  (exists r1 r2, rs = r1 ++ r2 /\ all_over (world_run (concat r1) w)) /\
  (forall n, In n (unfinished_ops (w_log w)) -> exists r, In (WEnded n r) (w_log e)) /\
  (forall a s t, nth_error (w_apis w) a = Some s -> In t (pending (s_log s)) ->
     exists s' r, nth_error (w_apis e) a = Some s' /\ In (OEnded t r) (s_log s')).
Proof. exact world_comes_to_an_end. Qed.
Print Assumptions C123_nothing_hangs.

(** Two requests wait for answers and a third for a slot when the stick is lost; in the first round start-up succeeds
    again, so the third is admitted to the new API object, which receives nothing either. *)
Definition lit_lost : world := lit_world (lit_up ++ [VCall (lit_send 1); VCall (lit_send 2); VCall (lit_send 3); VRun 0; VRun 1; VRun 2] ++ lit_down).
Definition lit_turns : list wevent := VRun 0 :: VRun 1 :: VRun 2 :: flat_map (fun x => [VTimeout (fst x) (snd x); VTask (fst x) (snd x)]) [(0%nat, 0); (0%nat, 1); (1%nat, 0)].
Definition lit_rounds : list (list wevent) := (lit_back ++ VTick 30000 :: lit_turns) :: repeat (VTick 30000 :: lit_turns) 40.
Definition all_named (w : world) : bool :=
  forallb (fun n => Nat.ltb n 3) (unfinished_ops (w_log w)) &&
  match w_apis w with
  | [] => true
  | s :: l => forallb (fun t => (t =? 0) || (t =? 1)) (pending (s_log s)) &&
      match l with [] => true | s :: l => forallb (fun t => t =? 0) (pending (s_log s)) && match l with [] => true | _ => false end end
  end.
Lemma named_served w a : all_named w = true -> 30000 <= passing a -> wserving 30000 w (a ++ lit_turns).
Proof.
  unfold all_named. intros H P. apply andb_prop in H as [H1 H2]. exists a, lit_turns. split; [reflexivity|]. split; [exact P|]. split.
  - intros n Hn. rewrite forallb_forall in H1. specialize (H1 n Hn). destruct n as [|[|[|n]]]; try discriminate H1; unfold lit_turns; member.
  - intros c s t G Ht. destruct (w_apis w) as [|s0 l]; [destruct c; discriminate|]. apply andb_prop in H2 as [H2 H3]. rewrite forallb_forall in H2.
    destruct c as [|c]; cbn [nth_error] in G.
    + injection G as <-. specialize (H2 t Ht). apply orb_prop in H2 as [H2|H2]; apply Z.eqb_eq in H2 as ->;
        [exists [VRun 0; VRun 1; VRun 2], [], [VTimeout 0 1; VTask 0 1; VTimeout 1 0; VTask 1 0]
        |exists [VRun 0; VRun 1; VRun 2; VTimeout 0 0; VTask 0 0], [], [VTimeout 1 0; VTask 1 0]]; reflexivity.
    + destruct l as [|s1 l]; [destruct c; discriminate|]. apply andb_prop in H3 as [H3 H4]. rewrite forallb_forall in H3.
      destruct l; [|discriminate]. destruct c as [|[|c]]; try discriminate. injection G as <-. specialize (H3 t Ht). apply Z.eqb_eq in H3 as ->.
      exists [VRun 0; VRun 1; VRun 2; VTimeout 0 0; VTask 0 0; VTimeout 0 1; VTask 0 1], [], []. reflexivity.
Qed.
Fixpoint all_rounds_named (w : world) (rs : list (list wevent)) : bool :=
  match rs with [] => true | r :: rest => all_named w && all_rounds_named (world_run r w) rest end.
Lemma rounds_served rs : forall w, (forall r, In r rs -> exists a, r = a ++ lit_turns /\ 30000 <= passing a) -> all_rounds_named w rs = true ->
  wserving_rounds 30000 w rs.
Proof.
  induction rs as [|r rs IH]; intros w H E; cbn [wserving_rounds all_rounds_named] in *; [exact I|]. apply andb_prop in E as [E1 E2].
  destruct (H r ltac:(left; reflexivity)) as (a & -> & P). split; [apply named_served; assumption|]. apply IH; [intros r' Hr; apply H; right; exact Hr|exact E2].
Qed.
Example C123_inhabited :
  wserving_rounds 30000 lit_lost lit_rounds /\ length lit_rounds = 41%nat /\
  unfinished_ops (w_log lit_lost) = [0; 1; 2]%nat /\ waiting_tasks lit_lost = 2 /\ called_ops (w_log (world_run (concat lit_rounds) lit_lost)) = called_ops (w_log lit_lost) /\
  other_calls (world_run (concat lit_rounds) lit_lost) = other_calls lit_lost /\
  In (WAdmitted 2 0 1) (w_log (world_run (concat lit_rounds) lit_lost)) /\
  ended_ops (w_log (world_run (concat lit_rounds) lit_lost)) = [0; 1; 2]%nat.
Proof.
  split; [apply rounds_served|vm_compute; shown]; [|vm_compute; reflexivity].
  intros r [<-|Hr]; [exists (lit_back ++ [VTick 30000])|exists [VTick 30000]; apply repeat_spec in Hr; subst r]; (split; [reflexivity|vm_compute; discriminate]).
Qed.
