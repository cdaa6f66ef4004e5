(** * PropsProgress: nothing hangs, whatever else goes on (C99) *)
From Verif Require Import Base Types Uart Buffalo CmdTable Zpi Api App Machine SpecMachine SpecProgress
  MachineProgress2 PropsMachine PropsMachine4.

(** ** C99.  In each of the rounds at least [T] ms pass, [T] being at least every time limit, and then everybody who was
    unfinished at the beginning of the round gets the chance to notice that its time is up and to go on.  Anything else
    may happen meanwhile.  After seven rounds for each operation, those called meanwhile counted, everything that
    was unfinished in the beginning has ended; and there was a moment when nothing was unfinished. *)
Theorem C99_nothing_hangs_meanwhile : forall cap s T rs, 0 < cap -> reachable cap s -> 30000 <= T ->
  (forall t k m to, get (run (concat rs) s) t = Some k -> t_job k = JWaitFor m to -> to <= T) ->
  serving_rounds T s rs ->
  7 * (Z.of_nat (length (pending (s_log s))) + (calls (s_log (run (concat rs) s)) - calls (s_log s))) <= Z.of_nat (length rs) ->
  (exists r1 r2, rs = r1 ++ r2 /\ pending (s_log (run (concat r1) s)) = []) /\
  forall t, In t (pending (s_log s)) -> exists r, In (OEnded t r) (s_log (run (concat rs) s)).
Proof. exact all_come_to_an_end. Qed.
Print Assumptions C99_nothing_hangs_meanwhile.

(** The busy stick of C88.  In the first round another request is made and the response to the first one comes;
    later rounds receive indications. *)
Definition lit_turns (ts : list Z) : list event := flat_map (fun t => [ETimeout t; ERun t]) ts.
Definition lit_first : list event := [ECall (lit_desc_req 9); ERun 4; lit_got lit_accepted; ETick 30000] ++ lit_turns [0; 1; 2; 3].
Definition lit_later : list event := [lit_got lit_desc; ETick 30000] ++ lit_turns [4; 3; 2; 1; 0].
Definition lit_rounds : list (list event) := lit_first :: repeat lit_later 34.
Lemma lit_turns_serve ts t : In t ts -> served t (lit_turns ts).
Proof.
  intro H. apply in_split in H as (l1 & l2 & ->). exists (lit_turns l1), [], (lit_turns l2).
  unfold lit_turns. rewrite flat_map_app. reflexivity.
Qed.
Definition among (ids : list Z) (l : list Z) : bool := forallb (fun t => existsb (Z.eqb t) ids) l.
Lemma among_in ids l t : among ids l = true -> In t l -> In t ids.
Proof.
  intros H Hi. unfold among in H. rewrite forallb_forall in H. apply H in Hi. apply existsb_exists in Hi as (x & Hx & E). apply Z.eqb_eq in E as ->. exact Hx.
Qed.
Fixpoint always_among (n : nat) (s : st) : bool :=
  match n with O => true | S n => among [4; 3; 2; 1; 0] (pending (s_log s)) && always_among n (run lit_later s) end.
Lemma lit_later_serves n : forall s, always_among n s = true -> serving_rounds 30000 s (repeat lit_later n).
Proof.
  induction n as [|n IH]; intros s H; [exact I|]. cbn [always_among] in H. apply andb_prop in H as [H1 H2]. split; [|apply IH, H2].
  exists [lit_got lit_desc; ETick 30000], (lit_turns [4; 3; 2; 1; 0]). split; [reflexivity|]. split; [vm_compute; discriminate|].
  intros t Ht. apply lit_turns_serve. eapply among_in; eassumption.
Qed.
Example C99_inhabited : pending (s_log lit_busy) = [0; 1; 2; 3] /\ serving_rounds 30000 lit_busy lit_rounds /\
  calls (s_log (run (concat lit_rounds) lit_busy)) - calls (s_log lit_busy) = 1 /\
  pending (s_log (run lit_first lit_busy)) = [1; 2; 3; 4] /\ pending (s_log (run (concat lit_rounds) lit_busy)) = [].
Proof.
  split; [vm_compute; reflexivity|]. split; [|split; [|split]; vm_compute; reflexivity].
  split.
  - exists [ECall (lit_desc_req 9); ERun 4; lit_got lit_accepted; ETick 30000], (lit_turns [0; 1; 2; 3]). split; [reflexivity|].
    split; [vm_compute; discriminate|]. intros t Ht. apply lit_turns_serve. revert Ht. apply among_in. vm_compute. reflexivity.
  - apply lit_later_serves. vm_compute. reflexivity.
Qed.
