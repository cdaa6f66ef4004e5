(** * PropsHonest: the mark of a stick that only one configuration is applied to (C158), and how a stick comes to be locked out (C159) *)
From Verif Require Import Base Types Uart Buffalo Zpi Api App Machine World SpecWire SpecMachine Nv StartZnp SpecStart Host SpecHost
  AppStart SpecAppStart StartExec PropsStart PropsAppStart Whole SpecWhole PropsWhole SpecReal SpecLinkStart PropsLinkStart SpecHonest HonestProofs LockedProofs2.

(** ** C158.  A stick whose mark, if set, means that the requested configuration is stored - every stick without mark is such
    a stick - stays one whatever a start does and however it ends: completed, failed, or cut off anywhere, a write without
    answer stored or not. *)
Theorem C158_start_keeps_honest : forall v o group backup s tr f s', wf_options o -> honest v o s ->
  runs (start_znp (version_of v) o group backup) tr f -> stick s tr s' -> honest v o s'.
Proof. exact start_honest. Qed.
Print Assumptions C158_start_keeps_honest.
Theorem C158_startup_keeps_honest : forall auto c devs v tr f s s', valid_config c -> honest v (network_options c) s ->
  runs (app_startup auto c devs) tr f -> stick s tr s' -> (forall p, reports tr p -> p = version_of v) -> honest v (network_options c) s'.
Proof. exact app_honest. Qed.
Print Assumptions C158_startup_keeps_honest.
(** on the link, among whatever else goes on *)
Theorem C158_on_the_link : forall cap auto c devs v s0 es s s', 0 <= cap -> reachable cap s0 -> valid_config c ->
  let h := hrun es (hosted (app_startup auto c devs) s0) in
  (forall p, reports (acts h) p -> p = version_of v) -> honest v (network_options c) s -> stick s (acts h) s' -> honest v (network_options c) s'.
Proof. exact link_honest. Qed.
Print Assumptions C158_on_the_link.
(** Any number of start-ups, one after the other, across losses of the connection *)
Theorem C158_always_honest : forall c v s s', valid_config c -> serves c v s s' -> ~ marked v s -> marked v s' ->
  config_matches v (network_options c) s'.
Proof. intros c v s s' V H N. apply (serves_honest c v s s' V H). intro M. contradiction. Qed.
Print Assumptions C158_always_honest.
(** ... after each that formed the network and ended well, the whole configuration is stored (C72 and C128 say only: accepted) *)
Theorem C158_formed_completely : forall c v s s1 x t ds at_ s2, valid_config c -> ~ marked v s -> serves c v s s1 ->
  xreachable c x -> In (XOver t true ds (Ok tt) at_) (x_log x) -> stick s1 (map snd ds) s2 -> (forall p, reports (map snd ds) p -> p = version_of v) ->
  config_matches v (network_options c) s2.
Proof. intros c v s s1 x t ds at_ s2 V N. apply (served_formed c v s s1 x t ds at_ s2 V). intro M. contradiction. Qed.
Print Assumptions C158_formed_completely.
(** ... and it is never locked out in the sense of C157, so start-up can succeed (C156). *)
Theorem C158_never_locked_out : forall c v s s', valid_config c -> serves c v s s' -> ~ marked v s -> ~ locked_out v (network_options c) s'.
Proof. intros c v s s' V H N. apply honest_not_locked. apply (serves_honest c v s s' V H). intro M. contradiction. Qed.
Print Assumptions C158_never_locked_out.

(** An empty stick; the start is cut off right after the mark has been written. *)
Example C158_inhabited : let x := exec (lit_stick 0 0 []) 20 (lit_start Stack3x0 lit_options) lit_empty in
  honest Stack3x0 lit_options lit_empty /\ runs (lit_start Stack3x0 lit_options) (trace_of x) Interrupted /\ stick lit_empty (trace_of x) (store_of x) /\
  wf_options lit_options /\ marked Stack3x0 (store_of x).
Proof.
  split; [discriminate|]. assert (E : fin_of (exec (lit_stick 0 0 []) 20 (lit_start Stack3x0 lit_options) lit_empty) = Interrupted) by (vm_compute; reflexivity).
  apply exec_runs in E as [R S]. split; [exact R|]. split; [exact S|]. split; [exact lit_options_wf|vm_compute; reflexivity].
Qed.
(** An empty stick is set up by the user's start-up; then the connection is lost and the reconnect loop starts up again. *)
Lemma lit_first_over : attempted lit_twice 0 true (deeds_over lit_twice 0).
Proof. left. exists (Ok tt), 1000. vm_compute. right. left. reflexivity. Qed.
Example C158_serves_inhabited : exists s, serves lit_net Stack12 lit_empty s /\ marked Stack12 s /\ ~ marked Stack12 lit_empty /\
  In (XOver 1 true (deeds_over lit_twice 1) (Ok tt) 7000) (x_log lit_twice).
Proof.
  assert (E : exists l, map snd (deeds_over lit_twice 0) = l) by eauto. destruct E as [l E].
  assert (K : exists s, stick lit_empty l s /\ marked Stack12 s).
  { vm_compute in E. subst l. eexists. split.
    - repeat match goal with
      | |- stick ?s [] _ => apply stick_nil
      | |- stick ?s (?a :: _) _ => first [apply (stick_cons s a s); [first [reflexivity|intro; left; reflexivity|split; [reflexivity|vm_compute; auto]]|] | eapply stick_cons; [hnf; reflexivity|]]
      end.
    - vm_compute. reflexivity. }
  destruct K as (s & K & M). exists s. split.
  - eapply (serves_one lit_net Stack12 lit_empty lit_twice 0 true (deeds_over lit_twice 0) lit_empty); [constructor|apply lit_whole_reachable|exact lit_first_over|rewrite E; exact K|].
    rewrite E. vm_compute in E. subst l. intros p (d & y & m & H & D). cbn [In] in H.
    repeat (destruct H as [H|H]; [try discriminate H; injection H as <- <- <-; vm_compute in D; injection D as <-; reflexivity|]). contradiction.
  - split; [exact M|]. split; [discriminate|exact lit_twice_over].
Qed.

(** ** C159.  A start can lock a stick out (C157) exactly if the stick is marked and not accepted, i.e. to be set up again. *)
Theorem C159_locks_out_exactly : forall cap s v o g st, 0 <= cap -> reachable cap s -> at_rest s -> wf_options o -> 0 <= g < 65536 -> tellable st -> ~ locked_out v o st ->
  ((exists es st1, let h := hrun es (hosted (start_znp (version_of v) o g false) s) in Forall can_come (acts h) /\ stick st (acts h) st1 /\ locked_out v o st1) <->
   marked v st /\ ~ accepted v o st).
Proof. exact link_locks_out. Qed.
Print Assumptions C159_locks_out_exactly.
Theorem C159_startup_locks_out_only : forall auto c devs v tr f s s', valid_config c -> runs (app_startup auto c devs) tr f -> stick s tr s' ->
  (forall p, reports tr p -> p = version_of v) -> ~ locked_out v (network_options c) s -> locked_out v (network_options c) s' ->
  auto = true /\ marked v s /\ ~ accepted v (network_options c) s.
Proof. exact app_locks_out. Qed.
Print Assumptions C159_startup_locks_out_only.
(** a Z-Stack 3 stick that is marked and has another channel *)
Example C159_inhabited : at_rest (init 2 None [] true) /\ reachable 2 (init 2 None [] true) /\ wf_options lit_channel15 /\
  let st := lit_config Stack30x lit_options in tellable st /\ ~ locked_out Stack30x lit_channel15 st /\ marked Stack30x st /\ ~ accepted Stack30x lit_channel15 st.
Proof. destruct C156_inhabited as (A & B & _ & _ & _ & C & _ & _ & D). auto. Qed.
Example C159_witness : exists es st1, let h := hrun es (hosted (start_znp 2 lit_channel15 2948 false) (init 2 None [] true)) in
  stick (lit_config Stack30x lit_options) (acts h) st1 /\ locked_out Stack30x lit_channel15 st1.
Proof.
  destruct C159_inhabited as (A & B & C & D & E & M & N).
  destruct (proj2 (C159_locks_out_exactly 2 _ Stack30x lit_channel15 2948 _ ltac:(lia) B A C ltac:(lia) D E) (conj M N)) as (es & st1 & _ & S & L).
  exists es, st1. split; assumption.
Qed.
