(** * PropsFair: whoever waits for the link waits only for those ahead (C138) *)
From Verif Require Import Base Types Uart Buffalo CmdTable Zpi Api App Machine SpecMachine SpecProgress
  MachineFair2 PropsMachine PropsMachine4 PropsProgress.

(** ** C138.  Rounds as in C99.  However many further calls are made meanwhile: whoever holds the link has ended
    after two rounds; whoever waits for it after four and two for each one ahead; an operation that was admitted
    after two and two for each one waiting; and a request or wait of its own (which needs no slot) one round later
    than this, those counted who wait after its first round. *)
Theorem C138_only_those_ahead : forall cap s T rs t, 0 <= cap -> reachable cap s -> 30000 <= T -> serving_rounds T s rs ->
  let over := exists x, In (OEnded t x) (s_log (run (concat rs) s)) in
  let n := Z.of_nat (length rs) in
  (holder (s_log s) = Some t -> 2 <= n -> over) /\
  (forall q1 q2, waiting (s_log s) = q1 ++ t :: q2 -> 4 + 2 * Z.of_nat (length q1) <= n -> over) /\
  (In (OAdmitted t) (s_log s) -> 2 + 2 * Z.of_nat (length (waiting (s_log s))) <= n -> over) /\
  (forall k r rest, get s t = Some k -> In t (pending (s_log s)) -> uses_sem (t_job k) = false ->
     (forall m to, t_job k = JWaitFor m to -> to <= T) -> rs = r :: rest ->
     3 + 2 * Z.of_nat (length (waiting (s_log (run r s)))) <= n -> over).
Proof.
  intros cap s T rs t Hc Hr HT HF over n. repeat apply conj.
  - intros H Hn. eapply holding_ends; try eassumption. subst n. lia.
  - intros q1 q2 H Hn. eapply waiting_ends; eassumption.
  - intros H Hn. eapply admitted_ends; eassumption.
  - intros k r rest G P U J E Hn. subst over n. rewrite E in *. eapply unslotted_ends; try eassumption. cbn [length] in Hn. lia.
Qed.
Print Assumptions C138_only_those_ahead.

(** The busy stick of C88: the first request waits for its answer, another one and a ping wait for the link.  In every
    round another ping is called, so that there is never a moment when nothing is unfinished; the first ping ends. *)
Definition lit_more : list event := [ECall lit_ping; ETick 30000] ++ lit_turns [0; 1; 2; 3; 4; 5; 6; 7; 8; 9; 10; 11].
Fixpoint upto_among (ids : list Z) (r : list event) (n : nat) (s : st) : bool :=
  match n with O => true | S n => among ids (pending (s_log s)) && negb (among [] (pending (s_log s))) && upto_among ids r n (run r s) end.
Lemma more_serves n : forall s, upto_among [0; 1; 2; 3; 4; 5; 6; 7; 8; 9; 10; 11] lit_more n s = true -> serving_rounds 30000 s (repeat lit_more n).
Proof.
  induction n as [|n IH]; intros s H; [exact I|]. cbn [upto_among] in H. apply andb_prop in H as [H H2]. apply andb_prop in H as [H1 _]. split; [|apply IH, H2].
  exists [ECall lit_ping; ETick 30000], (lit_turns [0; 1; 2; 3; 4; 5; 6; 7; 8; 9; 10; 11]). split; [reflexivity|]. split; [vm_compute; discriminate|].
  intros t Ht. apply lit_turns_serve. eapply among_in; eassumption.
Qed.
Example C138_inhabited : waiting (s_log lit_busy) = [1] ++ 3 :: [] /\ holder (s_log lit_busy) = Some 0 /\
  upto_among [0; 1; 2; 3; 4; 5; 6; 7; 8; 9; 10; 11] lit_more 7 lit_busy = true /\ serving_rounds 30000 lit_busy (repeat lit_more 6) /\
  existsb (fun x => match x with OEnded 3 _ => true | _ => false end) (s_log (run (concat (repeat lit_more 6)) lit_busy)) = true.
Proof.
  split; [vm_compute; reflexivity|]. split; [vm_compute; reflexivity|]. split; [vm_compute; reflexivity|]. split; [|vm_compute; reflexivity].
  apply more_serves. vm_compute. reflexivity.
Qed.
