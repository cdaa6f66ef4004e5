(** * PropsUndisturbed: nobody closes the link of a start-up that is alone (C164) *)
From Verif Require Import Base Types App Machine Life World Nv StartZnp AppStart SpecStart Host SpecHost Whole SpecWhole PropsHost PropsAppStart PropsWhole
  SpecSerial SerialProofs PropsSerial SpecUndisturbed UndisturbedProofs.

(** ** C164.  If start-ups and reconnect loops come one by one and the user does not shut the application down, then whenever an
    attempt makes its requests, its API object is the application's and its port has not been closed.  (C161 is what happens
    otherwise.) *)
Theorem C164_undisturbed : forall c es devs t p, one_by_one c es (whole_init devs) -> Forall no_shutdown es ->
  let x := whole_run c es (whole_init devs) in b_part (x_boots x t) = Some p -> link_open (x_world x) (r_api p).
Proof. exact undisturbed. Qed.
Print Assumptions C164_undisturbed.
(** the loop that sets the connection up again, in the midst of its requests *)
Definition lit_midst : list xevent := lit_well ++ PropsWhole.lit_lost ++ lit_asks 1 1 0 [lit_pinged; lit_version 0] ++ [XGo 1; XGo 1; XWorld (VTask 1 2)].
Lemma lit_midst_calm : Forall no_shutdown lit_midst.
Proof.
  apply Forall_forall. intros e H E. subst e. assert (N : existsb (fun e => match e with XWorld (VLife VShutdown) => true | _ => false end) lit_midst = false) by (vm_compute; reflexivity).
  rewrite (proj2 (existsb_exists _ _)) in N; [discriminate N|]. eexists. split; [exact H|reflexivity].
Qed.
Example C164_inhabited : one_by_one lit_net lit_midst (whole_init lit_known) /\ Forall no_shutdown lit_midst /\
  (exists p, b_part (x_boots (lit_whole lit_midst) 1) = Some p /\ r_api p = 1%nat) /\ link_open (x_world (lit_whole lit_midst)) 1 /\ ~ link_open (x_world (lit_whole lit_midst)) 0.
Proof.
  assert (S : one_by_one lit_net lit_midst (whole_init lit_known)) by (apply check_serial_ok; vm_compute; reflexivity).
  assert (P : exists p, b_part (x_boots (lit_whole lit_midst) 1) = Some p /\ r_api p = 1%nat) by (eexists; split; vm_compute; reflexivity).
  split; [exact S|]. split; [exact lit_midst_calm|]. split; [exact P|]. destruct P as (p & B & E). split.
  - rewrite <- E. exact (C164_undisturbed lit_net lit_midst lit_known 1 p S lit_midst_calm B).
  - intros [C _]. vm_compute in C. discriminate C.
Qed.
(** the user can close the link under a start-up: after shutdown the loop still waits for its answer *)
Example C164_shutdown : let x := lit_whole (lit_midst ++ [XWorld (VLife VShutdown)]) in
  one_by_one lit_net (lit_midst ++ [XWorld (VLife VShutdown)]) (whole_init lit_known) /\ (exists p, b_part (x_boots x 1) = Some p /\ r_api p = 1%nat) /\ ~ link_open (x_world x) 1.
Proof.
  cbv zeta. split; [apply check_serial_ok; vm_compute; reflexivity|]. split; [eexists; split; vm_compute; reflexivity|].
  intros (_ & y & g & z & s & A & B & _). vm_compute in A. injection A as <-. discriminate B.
Qed.
