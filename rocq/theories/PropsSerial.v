(** * PropsSerial: start-ups that come one after the other (C162) *)
From Verif Require Import Base Types App Machine Life World Nv StartZnp AppStart SpecStart Host SpecHost Whole SpecWhole PropsHost PropsAppStart PropsWhole SpecSerial SerialProofs.

(** ** C162.  If start-up is called, and a reconnect loop started, only when all earlier ones have ended, then at any time at
    most one of them is at work ... *)
Theorem C162_one_at_work : forall c es devs t u, one_by_one c es (whole_init devs) ->
  let x := whole_run c es (whole_init devs) in at_work (x_world x) t -> at_work (x_world x) u -> t = u.
Proof. intros c es devs t u H. exact (serial_one c es devs H t u). Qed.
Print Assumptions C162_one_at_work.
(** ... and whatever one attempt did, over or under way, it did to one API object, *)
Theorem C162_one_link : forall c es devs t auto ds, one_by_one c es (whole_init devs) ->
  attempted (whole_run c es (whole_init devs)) t auto ds -> exists a l, ds = made_to a l.
Proof. exact serial_link. Qed.
Print Assumptions C162_one_link.
(** which is the one that the application uses while the attempt makes its requests. *)
Theorem C162_current : forall c es devs t p, one_by_one c es (whole_init devs) ->
  let x := whole_run c es (whole_init devs) in b_part (x_boots x t) = Some p -> y_cur (w_life (x_world x)) = Some (r_api p).
Proof. exact serial_current. Qed.
Print Assumptions C162_current.
(** start-up, a lost connection, and the loop that sets it up again: sixteen acts, all to the second API object *)
Lemma lit_twice_serial : one_by_one lit_net (lit_well ++ lit_lost ++ lit_same) (whole_init lit_known).
Proof. apply check_serial_ok. vm_compute. reflexivity. Qed.
Example C162_inhabited : one_by_one lit_net (lit_well ++ lit_lost ++ lit_same) (whole_init lit_known) /\
  attempted lit_twice 1 true (deeds_over lit_twice 1) /\ length (deeds_over lit_twice 1) = 16%nat /\ map (fun d => fst (fst d)) (deeds_over lit_twice 1) = repeat 1%nat 16.
Proof. split; [exact lit_twice_serial|]. split; [left; exists (Ok tt), 7000; exact lit_twice_over|]. vm_compute. split; reflexivity. Qed.
(** the loop at work, the start-up before it at its end *)
Example C162_at_work : one_by_one lit_net (lit_well ++ lit_lost ++ [XGo 1]) (whole_init lit_known) /\ let x := lit_whole (lit_well ++ lit_lost ++ [XGo 1]) in
  coroutines x = 2%nat /\ at_work (x_world x) 1 /\ ~ at_work (x_world x) 0 /\ exists p, b_part (x_boots x 1) = Some p /\ r_api p = 1%nat.
Proof.
  split; [apply check_serial_ok; vm_compute; reflexivity|]. cbv zeta. split; [vm_compute; reflexivity|].
  split; [eexists; split; [vm_compute; reflexivity|discriminate]|]. split; [|eexists; split; vm_compute; reflexivity].
  intros (k & G & N). vm_compute in G. injection G as <-. exact (N (Ok tt) eq_refl).
Qed.
(** the start-ups of C129's counterexample do not come one by one: the second is called while the first one waits for the port *)
Example C162_overlap : ~ one_by_one lit_net [XStartup true (Ok tt); XWorld (VTick 500); XStartup true (Ok tt)] (whole_init lit_known).
Proof.
  cbn [one_by_one]. intros (_ & _ & H & _). specialize (fun L => H L 0%nat). apply H; [apply Nat.ltb_lt; vm_compute; reflexivity|].
  eexists. split; [vm_compute; reflexivity|discriminate].
Qed.
