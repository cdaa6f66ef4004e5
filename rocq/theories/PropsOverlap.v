(** * PropsOverlap: start-ups that overlap can lock a stick out (C160) *)
From Verif Require Import Base Types Uart Buffalo Zpi Api App Machine Life World SpecWire SpecMachine Nv StartZnp SpecStart Host SpecHost
  AppStart SpecAppStart StartExec PropsMachine PropsHost PropsStart PropsAppStart Whole SpecWhole PropsWhole SpecReal SpecLinkStart PropsLinkStart SpecHonest SpecOverlap.

(** ** C160.  Two reconnect loops, and the user called start-up once.  The connection is lost while the first ping is under
    way; the loop that this starts loses its connection, too, shortly before its ping times out.  So two loops try again,
    within a second.  Each opens the port, and from then on both ask the API object that was opened last.  The one sets the
    stick up; before it writes the mark the other resets the stick, which loses all that was stored.  Then the connection is
    lost again. *)
Definition lit_loops : list xevent :=
  [XStartup true (Ok tt); XWorld (VTick 1000); XWorld (VLife (VGo 0 (Ok tt))); XGo 0; XWorld (VTask 0 0);
   XWorld (VLife (VLost 0)); XWorld (VLife (VGo 1 (Ok tt))); XWorld (VTick 5000); XWorld (VLife (VGo 1 (Ok tt))); XWorld (VTick 1000); XWorld (VLife (VGo 1 (Ok tt)));
   XWorld (VTimeout 0 0); XWorld (VTask 0 0); XGo 0; XGo 0; XGo 1; XWorld (VTask 1 0); XWorld (VTick 5500);
   XWorld (VLife (VLost 1)); XWorld (VLife (VGo 2 (Ok tt))); XWorld (VTick 500); XWorld (VTimeout 1 0); XWorld (VTask 1 0); XGo 1; XGo 1; XWorld (VTick 4500);
   XWorld (VLife (VGo 2 (Ok tt))); XWorld (VTick 500); XWorld (VLife (VGo 1 (Ok tt))); XWorld (VTick 500); XWorld (VLife (VGo 2 (Ok tt)));
   XGo 2; XWorld (VTask 2 0); XWorld (VTick 500); XWorld (VLife (VGo 1 (Ok tt))); XWorld (VReceive 2 lit_pinged); XWorld (VTask 2 0); XGo 2].
(** start-up [t] sets an empty stick up over [a]; before it writes the mark start-up [t'] resets the stick *)
Definition lit_two (t t' a : nat) : list xevent :=
  lit_asks t a 0 [lit_version 0; wire 3 1 8 [2; 0]; wire 3 1 8 [2; 0]; lit_reset; lit_written; lit_reset; lit_written; lit_written; lit_written;
                  lit_written; lit_written; lit_written; wire 3 6 5 [0]; lit_written; wire 3 1 7 [9]] ++
  lit_asks t' a 15 [lit_pinged; lit_version 0; wire 3 1 8 [0; 1; 0]; wire 3 1 8 [0; 1; 0]; lit_reset; lit_written; lit_reset] ++
  lit_ask t a 22 lit_written ++ lit_rest t a 23 [lit_written] ++ lit_end t a 28 ++ [XWorld (VLife (VLost a))].
Definition lit_race : whole := lit_whole (lit_loops ++ lit_two 2 1 3).
Definition lit_first : list deed := deeds_over lit_race 2.
Definition lit_second : list deed := b_deeds (x_boots lit_race 1).
(** what both did, in the order in which it happened *)
Definition lit_both : list deed := firstn 16 lit_first ++ lit_second ++ skipn 16 lit_first.

(** The first attempt, which did [p] and then [q], ended well; the other one did [ds] in between. *)
Theorem C160_overlap_locks_out : exists c v devs es t t' p q ds at_ s s',
  let x := whole_run c es (whole_init devs) in
  valid_config c /\ length (filter calls_startup es) = 1%nat /\
  t <> t' /\ In (XOver t true (p ++ q) (Ok tt) at_) (x_log x) /\ attempted x t' true ds /\
  let l := p ++ ds ++ q in
  wire_order x l /\ (forall r, reports (map snd l) r -> r = version_of v) /\
  ~ marked v s /\ stick s (map snd l) s' /\ locked_out v (network_options c) s'.
Proof.
  exists lit_net, Stack12, lit_known, (lit_loops ++ lit_two 2 1 3), 2%nat, 1%nat, (firstn 16 lit_first), (skipn 16 lit_first), lit_second, 19000, lit_empty.
  assert (E : exists l, map snd lit_both = l) by eauto. destruct E as [l E].
  assert (K : exists s', stick lit_empty l s' /\ locked_out Stack12 (network_options lit_net) s').
  { vm_compute in E. subst l. eexists. split.
    - repeat match goal with
      | |- stick ?s [] _ => apply stick_nil
      | |- stick ?s (ARequest SYS "resetReq" _ _ _ :: _) _ => apply (stick_cons s _ lit_empty); [intro; right; reflexivity|]
      | |- stick ?s (?a :: _) _ => first [apply (stick_cons s a s); [first [reflexivity|split; [reflexivity|vm_compute; auto]]|] | eapply stick_cons; [hnf; reflexivity|]]
      end.
    - split; [vm_compute; reflexivity|]. right. split; [vm_compute; reflexivity|]. left. vm_compute. reflexivity. }
  destruct K as (s' & K & L). exists s'. cbn zeta. change (whole_run lit_net (lit_loops ++ lit_two 2 1 3) (whole_init lit_known)) with lit_race.
  split; [exact lit_net_valid|]. split; [vm_compute; reflexivity|]. split; [discriminate|].
  split; [rewrite firstn_skipn; vm_compute; do 6 right; left; reflexivity|].
  split; [right; eexists; split; [vm_compute; reflexivity|]; split; vm_compute; reflexivity|].
  change (map snd (firstn 16 lit_first ++ lit_second ++ skipn 16 lit_first)) with (map snd lit_both). rewrite E.
  split; [intros [|[|[|[|[|a]]]]]; vm_compute; reflexivity|]. split; [|split; [discriminate|split; [exact K|exact L]]].
  vm_compute in E. subst l. intros r (d & y & m & H & D). cbn [In] in H.
  repeat (destruct H as [H|H]; [try discriminate H; injection H as <- <- <-; vm_compute in D; injection D as <-; reflexivity|]). contradiction.
Qed.
Print Assumptions C160_overlap_locks_out.
(** the order on the link tells these courses apart: one start-up after the other is another order *)
Example C160_order : wire_order lit_race lit_both /\ ~ wire_order lit_race (lit_first ++ lit_second) /\ ~ wire_order lit_race (lit_second ++ lit_first).
Proof.
  split; [intros [|[|[|[|[|a]]]]]; vm_compute; reflexivity|]. split; intro H; specialize (H 3%nat); vm_compute in H; discriminate H.
Qed.
