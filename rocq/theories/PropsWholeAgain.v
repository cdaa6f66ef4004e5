(** * PropsWholeAgain: a reconnect loop tries again until it succeeds (C135) *)
From Verif Require Import Base Types Uart Buffalo CmdTable Zpi Api App Machine Life World SpecWire SpecMachine SpecProgress SpecWorld SpecWorldProgress
  Nv StartZnp AppStart SpecStart Host Whole SpecWhole SpecWholeEnds PropsApp PropsWorld PropsAppStart PropsWhole PropsWholeEnd WholeAgain.

(** ** C135 *)
(** In rounds of at least T ms (T at least a minute) in which every unfinished operation, every unfinished coroutine of
    every API object, every start-up and every coroutine that sleeps gets its turn, whatever else happens meanwhile: a
    reconnect loop that has not ended opens the port again after a bounded number of rounds, or it has ended, and then
    because a start-up succeeded or somebody cancelled it. *)
Theorem C135_reconnect_tries_again : forall c x T rs t, valid_config c -> xreachable c x -> reconnecting x t -> 60000 <= T -> xfair_rounds c T x rs ->
  let e := whole_run c (concat rs) x in
  108 * (1 + (9 * (Z.of_nat (length (unfinished_ops (w_log (x_world x)))) + (operations (x_world e) - operations (x_world x))) +
              7 * (waiting_tasks (x_world x) + (exchanges (x_world e) - exchanges (x_world x))))) + 2 <= Z.of_nat (length rs) ->
  (exists l at_, x_log e = x_log x ++ l /\ In (XTries t at_) l) \/ gave e t (Ok tt) \/ gave e t (Err CancelledError).
Proof. exact tries_again. Qed.
Print Assumptions C135_reconnect_tries_again.

(** The first start-up fails because nothing answers, then the connection is lost; the port cannot be opened again. *)
Definition lit_failing : whole := lit_whole (lit_opened ++ [XGo 0; XWorld (VTask 0 0)] ++ lit_again ++ lit_again ++ [XWorld (VLife (VLost 0))]).
Definition lit_try : list xevent := [XWorld (VTick 60000); XWorld (VLife (VGo 1 (Err SerialException)))].
Definition one_rests (x : whole) : bool :=
  match y_tasks (w_life (x_world x)) with
  | k0 :: k1 :: l => match k_stage k0 with KEnd _ => true | _ => false end && match k_stage k1 with KBegin | KSleep => true | _ => false end && match l with [] => true | _ => false end
  | _ => false
  end &&
  match unfinished_ops (w_log (x_world x)) with [] => true | _ => false end &&
  forallb (fun s => match pending (s_log s) with [] => true | _ => false end) (w_apis (x_world x)).
Lemma one_woken x : one_rests x = true -> xserving 60000 x lit_try /\ xwaking 60000 x lit_try.
Proof.
  unfold one_rests. intro H. apply andb_prop in H as [H H3]. apply andb_prop in H as [H1 H2].
  assert (K : forall t k, nth_error (y_tasks (w_life (x_world x))) t = Some k -> k_stage k <> KRequests /\ (t = 1%nat \/ exists r, k_stage k = KEnd r)).
  { intros t k G. destruct (y_tasks (w_life (x_world x))) as [|k0 [|k1 [|k2 l]]]; try discriminate H1; [|rewrite andb_false_r in H1; discriminate H1]. apply andb_prop in H1 as [H1 _]. apply andb_prop in H1 as [H0 H1].
    destruct t as [|[|t]]; [| |destruct t; discriminate G]; injection G as <-.
    - destruct (k_stage k0); try discriminate H0. split; [discriminate|eauto].
    - split; [|auto]. intro S. rewrite S in H1. discriminate H1. }
  split; [split|].
  - intros t (k & G & S). destruct (K t k G) as [N _]. contradiction.
  - exists [XWorld (VTick 60000)], (skipn 1 lit_try). split; [reflexivity|]. split; [discriminate|]. split; [intros n Hn; destruct (unfinished_ops _); [contradiction|discriminate H2]|].
    intros i s u G Hu. apply nth_error_In in G. rewrite forallb_forall in H3. specialize (H3 s G). destruct (pending (s_log s)); [contradiction|discriminate H3].
  - exists [XWorld (VTick 60000)], (skipn 1 lit_try). split; [reflexivity|]. split; [discriminate|]. intros t (k & G & S). destruct (K t k G) as [_ [->|(r & E)]]; [|rewrite E in S; contradiction].
    exists (Err SerialException). left. reflexivity.
Qed.
Fixpoint all_one_rests (n : nat) (x : whole) : bool := match n with O => true | S n => one_rests x && all_one_rests n (whole_run lit_net lit_try x) end.
Lemma rounds_woken n : forall x, all_one_rests n x = true -> xfair_rounds lit_net 60000 x (repeat lit_try n).
Proof.
  induction n as [|n IH]; intros x E; cbn [xfair_rounds all_one_rests repeat] in *; [exact I|]. apply andb_prop in E as [E1 E2]. destruct (one_woken x E1). auto.
Qed.
Example C135_inhabited : valid_config lit_net /\ xreachable lit_net lit_failing /\ reconnecting lit_failing 1 /\ xfair_rounds lit_net 60000 lit_failing (repeat lit_try 110) /\
  unfinished_ops (w_log (x_world lit_failing)) = [] /\ waiting_tasks (x_world lit_failing) = 0 /\
  let e := whole_run lit_net (concat (repeat lit_try 110)) lit_failing in
  operations (x_world e) = operations (x_world lit_failing) /\ exchanges (x_world e) = exchanges (x_world lit_failing) /\
  map told (x_log lit_failing) = [(0%nat, 0, [], None); (0%nat, 121000, [(0%nat, 0, "ping")], Some (Err TimeoutError))] /\
  map told (firstn 3 (skipn 2 (x_log e))) = [(1%nat, 241000, [], None); (1%nat, 301000, [], None); (1%nat, 361000, [], None)] /\ length (x_log e) = 111%nat.
Proof.
  split; [exact lit_net_valid|]. split; [apply lit_whole_reachable|]. split; [eexists; split; [vm_compute; reflexivity|split; [reflexivity|discriminate]]|]. split; [apply rounds_woken; vm_compute; reflexivity|].
  vm_compute. repeat split; reflexivity.
Qed.
