(** * PropsChron: start-ups that come one by one never lock a stick out (C163) *)
From Verif Require Import Base Types Buffalo App Machine Life World Nv StartZnp AppStart SpecStart SpecAppStart Host SpecHost Whole SpecWhole PropsHost PropsStart PropsAppStart PropsWhole
  SpecReal SpecLinkStart PropsLinkStart SpecHonest HonestProofs PropsHonest SpecSerial SerialProofs PropsSerial SpecChron ChronProofs.

(** ** C163.  If start-ups and reconnect loops come one by one, then what they do happens attempt by attempt: first all that the
    attempts did that ended, in the order in which they ended, then what the one under way did so far. *)
Theorem C163_attempt_by_attempt : forall c es devs, one_by_one c es (whole_init devs) ->
  let x := whole_run c es (whole_init devs) in let l := chronicle c es (whole_init devs) in
  (forall t p, b_part (x_boots x t) = Some p -> l = by_attempt x ++ b_deeds (x_boots x t)) /\ ((forall t, b_part (x_boots x t) = None) -> l = by_attempt x).
Proof. exact chron_order. Qed.
Print Assumptions C163_attempt_by_attempt.
(** So a stick without mark that serves all of it, in the order in which it happened, has the whole configuration stored
    whenever it is marked, *)
Theorem C163_honest : forall c v es devs s s' l, valid_config c -> one_by_one c es (whole_init devs) ->
  let h := chronicle c es (whole_init devs) ++ l in
  under_way (whole_run c es (whole_init devs)) l -> stick s (map snd h) s' -> (forall p, reports (map snd h) p -> p = version_of v) ->
  ~ marked v s -> marked v s' -> config_matches v (network_options c) s'.
Proof. intros c v es devs s s' l V O h U S R. exact (C158_always_honest c v s s' V (chron_serves c v es devs s s' l O U S R)). Qed.
Print Assumptions C163_honest.
(** and is never locked out; C160 shows that this may fail if they overlap. *)
Theorem C163_never_locked_out : forall c v es devs s s' l, valid_config c -> one_by_one c es (whole_init devs) ->
  let h := chronicle c es (whole_init devs) ++ l in
  under_way (whole_run c es (whole_init devs)) l -> stick s (map snd h) s' -> (forall p, reports (map snd h) p -> p = version_of v) ->
  ~ marked v s -> ~ locked_out v (network_options c) s'.
Proof. intros c v es devs s s' l V O h U S R. exact (C158_never_locked_out c v s s' V (chron_serves c v es devs s s' l O U S R)). Qed.
Print Assumptions C163_never_locked_out.
(** An empty stick is set up, the connection is lost, and the loop has just asked for the first item. *)
Definition lit_again : list xevent := lit_well ++ PropsWhole.lit_lost ++ lit_asks 1 1 0 [lit_pinged; lit_version 0] ++ [XGo 1; XGo 1; XWorld (VTask 1 2)].
Definition lit_mark   := [("id", VInt 3840); ("offset", VInt 0); ("len", VInt 1); ("value", VBytes [85])].
Example C163_inhabited : exists s l, let h := chronicle lit_net lit_again (whole_init lit_known) ++ l in
  valid_config lit_net /\ one_by_one lit_net lit_again (whole_init lit_known) /\ under_way (lit_whole lit_again) l /\ stick lit_empty (map snd h) s /\
  (forall p, reports (map snd h) p -> p = version_of Stack12) /\ ~ marked Stack12 lit_empty /\ marked Stack12 s /\
  l <> [] /\ length (chronicle lit_net lit_again (whole_init lit_known)) = 27%nat /\ length (by_attempt (lit_whole lit_again)) = 25%nat.
Proof.
  assert (U : exists l, under_way (lit_whole lit_again) l /\ l = [(1%nat, 2, ARequest SYS "osalNvRead" lit_mark [0; 2] None)]).
  { eexists. split; [left; eexists 1%nat, _; split; [vm_compute; reflexivity|reflexivity]|]. vm_compute. reflexivity. }
  destruct U as (l & U & ->).
  assert (E : exists h, map snd (chronicle lit_net lit_again (whole_init lit_known)) = h) by eauto. destruct E as [h E].
  assert (K : exists s, stick lit_empty (h ++ [ARequest SYS "osalNvRead" lit_mark [0; 2] None]) s /\ marked Stack12 s).
  { vm_compute in E. subst h. cbn [app]. eexists. split.
    - repeat match goal with
      | |- stick ?s [] _ => apply stick_nil
      | |- stick ?s (?a :: _) _ => first [apply (stick_cons s a s); [first [reflexivity|intro; left; reflexivity|split; [reflexivity|vm_compute; auto]]|] | eapply stick_cons; [hnf; reflexivity|]]
      end.
    - vm_compute. reflexivity. }
  destruct K as (s & K & M). exists s, [(1%nat, 2, ARequest SYS "osalNvRead" lit_mark [0; 2] None)]. cbv zeta. rewrite map_app, E. cbn [map snd].
  split; [exact lit_net_valid|]. split; [apply check_serial_ok; vm_compute; reflexivity|]. split; [exact U|]. split; [exact K|].
  split; [|split; [discriminate|split; [exact M|split; [discriminate|split; vm_compute; reflexivity]]]].
  vm_compute in E. subst h. clear K U. intros p (d0 & y & m & H & D). cbn [app In] in H.
  repeat (destruct H as [H|H]; [try discriminate H; injection H as <- <- <-; vm_compute in D; injection D as <-; reflexivity|]). contradiction.
Qed.
