(** * PropsWholeFair: start-ups and reconnect loops go on however much others do (C140, C141) *)
From Verif Require Import Base Types Uart Buffalo CmdTable Zpi Api App Machine Life World SpecWire SpecMachine SpecProgress SpecWorld SpecWorldProgress
  Nv StartZnp AppStart SpecStart Host Whole SpecWhole SpecWholeEnds SpecFair PropsApp PropsWorld PropsAppStart PropsWhole WholeFair.

(** ** C140.  Rounds as in C134.  If never more than M wait for a link when a round begins, an attempt at a start-up that
    makes its requests has ended after 108 times 4 + 2M rounds, however many operations are called, requests made,
    connections lost and other start-ups begun meanwhile. *)
Theorem C140_startups_end_soon : forall c x T M rs t, valid_config c -> xreachable c x -> asking x t -> 60000 <= T -> 0 <= M ->
  xserving_rounds c T x rs -> uncrowded c M x rs -> 108 * (4 + 2 * M) <= Z.of_nat (length rs) ->
  exists l auto ds r at_, x_log (whole_run c (concat rs) x) = x_log x ++ l /\ In (XOver t auto ds r at_) l.
Proof. exact start_ups_end_soon. Qed.
Print Assumptions C140_startups_end_soon.

(** ** C141.  Rounds as in C135.  If never more than M wait for a link when a round begins, a reconnect loop that has not
    ended opens the port again within 108 times 4 + 2M rounds and two more, or has ended because a start-up succeeded or
    somebody cancelled it, whatever others do meanwhile. *)
Theorem C141_reconnect_tries_soon : forall c x T M rs t, valid_config c -> xreachable c x -> reconnecting x t -> 60000 <= T -> 0 <= M ->
  xfair_rounds c T x rs -> uncrowded c M x rs -> let e := whole_run c (concat rs) x in 108 * (4 + 2 * M) + 2 <= Z.of_nat (length rs) ->
  (exists l at_, x_log e = x_log x ++ l /\ In (XTries t at_) l) \/ gave e t (Ok tt) \/ gave e t (Err CancelledError).
Proof. exact tries_again_soon. Qed.
Print Assumptions C141_reconnect_tries_soon.

(** rounds made for the state they begin in: [extra] happens, a minute passes, everybody gets a turn; the port cannot be
    opened *)
Definition those (f : stage -> bool) (x : whole) : list nat :=
  flat_map (fun p => if f (k_stage (snd p)) then [fst p] else []) (combine (List.seq 0%nat (length (y_tasks (w_life (x_world x))))) (y_tasks (w_life (x_world x)))).
Definition all_turns (x : whole) : list xevent :=
  map (fun n => XWorld (VRun n)) (unfinished_ops (w_log (x_world x))) ++
  flat_map (fun p => flat_map (fun u => [XWorld (VTimeout (fst p) u); XWorld (VTask (fst p) u)]) (pending (s_log (snd p))))
    (combine (List.seq 0%nat (length (w_apis (x_world x)))) (w_apis (x_world x))) ++
  map XGo (those (fun s => match s with KRequests => true | _ => false end) x) ++
  map (fun t => XWorld (VLife (VGo t (Err SerialException)))) (those (fun s => match s with KBegin | KSleep | KSettle _ _ => true | _ => false end) x).
Definition a_round (extra : list xevent) (x : whole) : list xevent := (extra ++ [XWorld (VTick 60000)]) ++ all_turns x.
Fixpoint played (c : nwk_config) (extras : list (list xevent)) (x : whole) : list (list xevent) :=
  match extras with [] => [] | e :: rest => a_round e x :: played c rest (whole_run c (a_round e x) x) end.
Lemma with_index {A} (l : list A) : forall k i x, nth_error l i = Some x -> In ((k + i)%nat, x) (combine (List.seq k (length l)) l).
Proof.
  induction l as [|y l IH]; intros k [|i] x H; try discriminate; cbn [length List.seq combine].
  - injection H as <-. left. rewrite Nat.add_0_r. reflexivity.
  - right. rewrite Nat.add_succ_r. apply (IH (S k)), H.
Qed.
Lemma those_in f x t k : nth_error (y_tasks (w_life (x_world x))) t = Some k -> f (k_stage k) = true -> In t (those f x).
Proof. intros G H. apply in_flat_map. exists (t, k). split; [apply (with_index _ 0%nat), G|]. cbn [fst snd]. rewrite H. left. reflexivity. Qed.
Lemma minute extra : 60000 <= xpassing (extra ++ [XWorld (VTick 60000)]).
Proof.
  unfold xpassing. rewrite fold_right_app. cbn [fold_right]. change (Z.max 0 60000 + 0) with 60000.
  induction extra as [|e a IH]; [apply Z.le_refl|]. cbn [fold_right]. destruct e as [| |[]]; try exact IH.
  eapply Z.le_trans; [exact IH|]. rewrite <- (Z.add_0_l (fold_right _ _ _)) at 1. apply Z.add_le_mono_r, Z.le_max_l.
Qed.
Lemma round_serves extra x : xserving 60000 x (a_round extra x) /\ xwaking 60000 x (a_round extra x).
Proof.
  split; [split|].
  - intros t (k & G & S). unfold a_round, all_turns. apply in_or_app. right. do 2 (apply in_or_app; right). apply in_or_app. left. apply in_map, (those_in _ x t k G). rewrite S. reflexivity.
  - exists (extra ++ [XWorld (VTick 60000)]), (all_turns x). split; [reflexivity|]. split; [apply minute|]. split.
    + intros n Hn. apply in_or_app. left. apply (in_map (fun n => XWorld (VRun n))), Hn.
    + intros i s u G Hu. apply (with_index _ 0%nat) in G. apply in_split in G as (l1 & l2 & E). apply in_split in Hu as (q1 & q2 & Eq).
      unfold all_turns. rewrite E, flat_map_app. cbn [flat_map fst snd Nat.add]. rewrite Eq, flat_map_app. cbn [flat_map app]. rewrite <- !app_assoc. cbn [app].
      match goal with |- xturn i u (?a ++ ?b ++ ?c ++ _ :: _ :: ?d) => exists (a ++ b ++ c), [], d end. rewrite <- !app_assoc. reflexivity.
  - exists (extra ++ [XWorld (VTick 60000)]), (all_turns x). split; [reflexivity|]. split; [apply minute|]. intros t (k & G & S). exists (Err SerialException).
    unfold all_turns. do 3 (apply in_or_app; right). apply (in_map (fun t => XWorld (VLife (VGo t (Err SerialException))))), (those_in _ x t k G). destruct (k_stage k); try contradiction; reflexivity.
Qed.
Lemma played_fair c extras : forall x, xserving_rounds c 60000 x (played c extras x) /\ xfair_rounds c 60000 x (played c extras x).
Proof. induction extras as [|e rest IH]; intro x; cbn [played xserving_rounds xfair_rounds]; [split; exact I|]. destruct (IH (whole_run c (a_round e x) x)), (round_serves e x). auto. Qed.
Lemma played_length c extras : forall x, length (played c extras x) = length extras.
Proof. induction extras as [|e rest IH]; intro x; cbn [played length]; [|rewrite IH]; reflexivity. Qed.

(** The connection was lost and made again, and the start-up that follows is about to send its ping, which nobody
    answers.  In each of 40 rounds somebody makes a request to a device.  The port cannot be opened a third time, and in
    the end the reconnect loop is cancelled. *)
Definition lit_lonely : whole := lit_whole (lit_well ++ lit_lost).
Definition lit_call : xevent := XWorld (VCall (lit_send 5)).
Definition lit_extras : list (list xevent) :=
  repeat [lit_call] 12 ++ [[lit_call; XWorld (VLife (VGo 1 (Err CancelledError)))]] ++ repeat [lit_call] 27 ++ repeat [] 826.
Definition lit_busy : list (list xevent) := played lit_net lit_extras lit_lonely.
Fixpoint room (c : nwk_config) (M : nat) (extras : list (list xevent)) (x : whole) : bool :=
  match extras with
  | [] => true
  | e :: rest => forallb (fun s => Nat.leb (length (waiting (s_log s))) M) (w_apis (x_world x)) && room c M rest (whole_run c (a_round e x) x)
  end.
Lemma room_enough c M extras : forall x, room c M extras x = true -> uncrowded c (Z.of_nat M) x (played c extras x).
Proof.
  induction extras as [|e rest IH]; intros x H; cbn [played uncrowded room] in *; [exact I|]. apply andb_prop in H as [H1 H2]. split; [|apply IH, H2].
  intros a s A. apply nth_error_In in A. rewrite forallb_forall in H1. apply H1, Nat.leb_le in A. apply Nat2Z.inj_le, A.
Qed.
Definition made_calls (x : whole) : nat := length (called_ops (w_log (x_world x))).
Lemma lit_busy_facts : room lit_net 2 lit_extras lit_lonely = true /\
  let e := whole_run lit_net (concat lit_busy) lit_lonely in
  made_calls lit_lonely = 0%nat /\ made_calls e = 40%nat /\ map told (skipn 2 (x_log lit_lonely)) = [(1%nat, 6000, [], None)] /\
  map told (firstn 3 (skipn 3 (x_log e))) = [(1%nat, 367000, [(1%nat, 0, "ping")], Some (Err TimeoutError)); (1%nat, 427000, [], None); (1%nat, 487000, [], None)].
Proof. vm_compute. repeat split; reflexivity. Qed.
Example C140_inhabited : valid_config lit_net /\ xreachable lit_net lit_lonely /\ asking lit_lonely 1 /\
  xserving_rounds lit_net 60000 lit_lonely lit_busy /\ uncrowded lit_net 2 lit_lonely lit_busy /\ Z.of_nat (length lit_busy) = 108 * (4 + 2 * 2) + 2.
Proof.
  split; [exact lit_net_valid|]. split; [apply lit_whole_reachable|]. split; [eexists; split; vm_compute; reflexivity|]. split; [apply played_fair|].
  split; [apply (room_enough lit_net 2), lit_busy_facts|]. unfold lit_busy. rewrite played_length. reflexivity.
Qed.
Example C141_inhabited : reconnecting lit_lonely 1 /\ xfair_rounds lit_net 60000 lit_lonely lit_busy.
Proof. split; [eexists; split; [vm_compute; reflexivity|split; [reflexivity|discriminate]]|apply played_fair]. Qed.
