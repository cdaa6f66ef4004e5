(** * PropsDuel: two reconnect loops can keep each other from reconnecting (C161) *)
From Verif Require Import Base Types App Machine Life World Nv StartZnp AppStart SpecStart Host SpecHost Whole SpecWhole SpecOverlap SpecDuel PropsHost PropsAppStart PropsWhole DuelProofs.

(** ** C161.  However often: the user calls start-up once, the connection is lost twice, the port can always be opened, and yet
    all attempts of the two reconnect loops fail, because each closes the other's link as soon as something has been sent over it:
    an attempt that failed closes the API object that the application uses now, whosever it is, and six seconds later, when a
    request times out, this is the one that the other loop, after sleeping five seconds and one, has just begun to use. *)
Theorem C161_duel : forall c devs n, exists es, length (filter calls_startup es) = 1%nat /\ length (filter loses es) = 2%nat /\ Forall all_opens es /\
  no_time_to_answer c es (whole_init devs) /\
  let x := whole_run c es (whole_init devs) in filter succeeded (x_log x) = [] /\ (n <= length (filter failed (x_log x)))%nat.
Proof. exact duel_goes_on. Qed.
Print Assumptions C161_duel.
(** the first attempts of such a course *)
Example C161_inhabited : map (fun o => (fst (fst (fst (told o))), snd (fst (fst (told o))), snd (told o))) (x_log (whole_run lit_net (prelude ++ round 2 1 2 1 ++ round 1 2 3 2) (whole_init lit_known))) =
  [(0%nat, 0, None); (1%nat, 6000, None); (0%nat, 7000, Some (Err TimeoutError)); (2%nat, 12000, None); (1%nat, 13000, Some (Err TimeoutError));
   (1%nat, 18000, None); (2%nat, 19000, Some (Err TimeoutError))].
Proof. vm_compute. reflexivity. Qed.
(** that nobody has time to answer says something: it is not so if time passes after a ping *)
Example C161_time : ~ no_time_to_answer lit_net (firstn 5 prelude ++ [XWorld (VTick 1)]) (whole_init lit_known).
Proof.
  intro H. cbn [firstn prelude app no_time_to_answer] in H. destruct H as (_ & _ & _ & _ & _ & H & _).
  match type of H with cut_short ?X => assert (K : exists s, In s (w_apis (x_world X)) /\ s_wire s <> [] /\ s_open s = true) end.
  { eexists. split; [vm_compute; left; reflexivity|]. split; [discriminate|reflexivity]. }
  destruct K as (s & K1 & K2 & K3). specialize (H s K1 K2). congruence.
Qed.
