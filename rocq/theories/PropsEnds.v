(** * PropsEnds: start-up comes to an end (C100) *)
From Verif Require Import Base Types Uart Buffalo CmdTable Zpi Api App Machine SpecWire SpecMachine SpecProgress Nv StartZnp SpecStart Host SpecHost SpecEnds
  AppStart SpecAppStart StartSend AppStartProofs HostEnds PropsStart PropsProgress PropsHost.

(** ** C100.  A program that makes at most [n] steps and whose requests are answered comes to an end, whatever else goes
    on and whatever the stick says or does not say.  [T] is at least every time limit.  In each round at least [T] ms pass and
    then everybody unfinished and the program get the chance to go on.  The number of rounds depends on how many
    operations there are, those called meanwhile and those of the program included. *)
Theorem C100_program_ends : forall cap A (p : prog A) n s T rs, 0 < cap -> reachable cap s -> fits [] n p -> expects_answers p -> 30000 <= T ->
  let h := hosted p s in let h' := hrun (concat rs) h in
  (forall t k m to, get (h_st h') t = Some k -> t_job k = JWaitFor m to -> to <= T) -> host_rounds T h rs ->
  2 * Z.of_nat n * (1 + 7 * (Z.of_nat (length (pending (s_log s))) + (calls (s_log (h_st h')) - calls (s_log s)))) <= Z.of_nat (length rs) ->
  ending h' <> Interrupted.
Proof. intros cap A. exact (@hosted_ends cap A). Qed.
Print Assumptions C100_program_ends.
(** start_znp *)
Theorem C100_start_ends : forall cap v o group backup s T rs, 0 < cap -> reachable cap s -> wf_options o -> 0 <= group < 65536 -> 30000 <= T ->
  let h := hosted (start_znp (version_of v) o group backup) s in let h' := hrun (concat rs) h in
  (forall t k m to, get (h_st h') t = Some k -> t_job k = JWaitFor m to -> to <= T) -> host_rounds T h rs ->
  98 * (1 + 7 * (Z.of_nat (length (pending (s_log s))) + (calls (s_log (h_st h')) - calls (s_log s)))) <= Z.of_nat (length rs) ->
  ending h' <> Interrupted.
Proof.
  intros cap v o g b s T rs Hc Hr Hw Hg HT. apply (hosted_ends cap _ 49 s T rs Hc Hr); [apply fits_start|apply sendable_expects, start_sendable; assumption|exact HT].
Qed.
Print Assumptions C100_start_ends.
(** start-up of the application, once the port is open *)
Theorem C100_startup_ends : forall cap auto c devs s T rs, 0 < cap -> reachable cap s -> valid_config c -> 30000 <= T ->
  let h := hosted (app_startup auto c devs) s in let h' := hrun (concat rs) h in
  (forall t k m to, get (h_st h') t = Some k -> t_job k = JWaitFor m to -> to <= T) -> host_rounds T h rs ->
  106 * (1 + 7 * (Z.of_nat (length (pending (s_log s))) + (calls (s_log (h_st h')) - calls (s_log s)))) <= Z.of_nat (length rs) ->
  ending h' <> Interrupted.
Proof.
  intros cap auto c devs s T rs Hc Hr Hv HT. apply (hosted_ends cap _ 53 s T rs Hc Hr); [apply fits_app|apply sendable_expects, app_sendable; assumption|exact HT].
Qed.
Print Assumptions C100_startup_ends.

(** The stick answers the first request, then it is silent. *)
Definition lit_again : list hevent := [HEnv (ETick 60000); HEnv (ETimeout 0); HEnv (ERun 0); HEnv (ETimeout 1); HEnv (ERun 1); HGo].
Definition lit_silent : list (list hevent) :=
  ([HGo; HEnv (ERun 0); HEnv (ERecv (wire 3 1 8 [2; 0]))] ++ lit_again) :: repeat lit_again 1469.
Definition lit_host : host start_result := hosted (lit_start Stack12 lit_options) lit_link.
Fixpoint goes_among (n : nat) (h : host start_result) : bool :=
  match n with O => true | S n => among [0; 1] (pending (s_log (h_st h))) && goes_among n (hrun lit_again h) end.
Lemma lit_turns01 t : In t [0; 1] -> exists b1 b2 b3, skipn 1 lit_again = b1 ++ HEnv (ETimeout t) :: b2 ++ HEnv (ERun t) :: b3.
Proof.
  intros [<-|[<-|[]]].
  - exists [], [], [HEnv (ETimeout 1); HEnv (ERun 1); HGo]. reflexivity.
  - exists [HEnv (ETimeout 0); HEnv (ERun 0)], [], [HGo]. reflexivity.
Qed.
Lemma lit_again_serves n : forall h, goes_among n h = true -> host_rounds 60000 h (repeat lit_again n).
Proof.
  induction n as [|n IH]; intros h H; [exact I|]. cbn [goes_among] in H. apply andb_prop in H as [H1 H2]. split; [|apply IH, H2].
  split; [cbn; tauto|]. exists [HEnv (ETick 60000)], (skipn 1 lit_again). split; [reflexivity|]. split; [vm_compute; discriminate|].
  intros t Ht. apply lit_turns01. eapply among_in; eassumption.
Qed.
Example C100_inhabited :
  host_rounds 60000 lit_host lit_silent /\ pending (s_log lit_link) = [] /\
  (let h' := hrun (concat lit_silent) lit_host in
   calls (s_log (h_st h')) - calls (s_log lit_link) = 2 /\ commands (acts h') = ["osalNvRead"; "osalNvRead"] /\ ending h' = Raised TimeoutError) /\
  98 * (1 + 7 * (0 + 2)) <= Z.of_nat (length lit_silent).
Proof.
  split; [|split; [reflexivity|split; [vm_compute; auto|vm_compute; discriminate]]]. split.
  - split; [cbn; tauto|]. exists [HGo; HEnv (ERun 0); HEnv (ERecv (wire 3 1 8 [2; 0])); HEnv (ETick 60000)], (skipn 1 lit_again).
    split; [reflexivity|]. split; [vm_compute; discriminate|]. intros t Ht. vm_compute in Ht. contradiction.
  - apply lit_again_serves. vm_compute. reflexivity.
Qed.
