(** * LockedProofs2: how a stick comes to be locked out *)
From Coq Require Import ZifyBool ZifyNat.
From Verif Require Import Base Types Uart Buffalo CmdTable Zpi Api App Machine SpecWire SpecCodec SpecMachine Nv CodecProofs2 StartZnp SpecStart
  Host SpecHost AppStart SpecAppStart StartProofs StartProofs2 StartProofs3 StartProofs4 StartProofs5 StartProofs6 StartSend HostProofs AppStartProofs StartProofs8 SpecReal
  RealProofs RealProofs2 SpecLinkStart LinkStart LinkStart2 SpecHonest HonestProofs.

Notation free := (fun _ : act => True).
(** the channel list is lost *)
Definition unlisted (s : store) : store := fun i => if i =? 132 then None else s i.
Lemma win_reset_lost s (Q : result zpi -> store -> Prop) : (forall m, Q (Ok m) (unlisted s)) -> wins [] 0 free soft_reset s Q.
Proof.
  intro H. unfold soft_reset.
  eapply (win_request [] 0 free _ _ _ _ _ (mk_zpi AREQ SYS "resetInd" 128 [("reason", VInt 0); ("transportrev", VInt 2); ("productid", VInt 1); ("majorrel", VInt 2); ("minorrel", VInt 7); ("hwrev", VInt 1)]
    [("reason", UINT8); ("transportrev", UINT8); ("productid", UINT8); ("majorrel", UINT8); ("minorrel", UINT8); ("hwrev", UINT8)] None) (unlisted s));
    [discriminate|intro v; left; destruct v; reflexivity| |exact I|apply H].
  split; [eapply (on_wire [] nobody AREQ SYS 128 [0; 2; 1; 2; 7; 1]); [split; [discriminate|reflexivity]|repeat constructor; discriminate|cbn; lia|vm_compute; reflexivity]|].
  eexists. split; [reflexivity|]. right. split; [reflexivity|]. split; [left; split; reflexivity|]. repeat split.
Qed.
Lemma lost_initialise v o s : marked v s -> stops [] 0 free (initialise (version_of v) o) s (locked_out v o).
Proof.
  intro M. unfold initialise, nv_write. apply stop_seq, (win_reset [] 0 nobody free (fun _ _ => I)). intros _.
  apply stop_seq. eapply (win_write [] 0 nobody free); [reflexivity|reflexivity|split; [discriminate|reflexivity]|vm_compute; reflexivity|repeat split|reflexivity|cbn [In]; tauto|reflexivity|exact I|].
  apply stop_seq, win_reset_lost. intros _. apply stop_here. split.
  - unfold marked, unlisted, put in *. destruct v; cbn [marker Z.eqb Pos.eqb] in *; exact M.
  - left. reflexivity.
Qed.
Lemma lost_start v o g s : wf_options o -> marked v s -> tellable s -> ~ locked_out v o s -> ~ accepted v o s ->
  stops [] 0 free (start_znp (version_of v) o g false) s (locked_out v o).
Proof.
  intros W M T C N. rewrite start_eq. apply stop_seq. eapply win_weaken; [|apply (has_done [] 0 nobody free (fun _ _ => I)), T]. intros r s' [[c ->] ->].
  apply stop_first. unfold configure. rewrite andb_false_l. apply stop_seq. eapply win_weaken; [|apply (needs_true [] 0 0 nobody ltac:(lia) ltac:(auto) free (fun _ _ => I)); auto]. intros r s' [-> ->].
  apply stop_first. apply lost_initialise, M.
Qed.
Lemma start_locks_out v o g b s tr f s' : wf_options o -> runs (start_znp (version_of v) o g b) tr f -> stick s tr s' -> ~ locked_out v o s -> locked_out v o s' ->
  marked v s /\ ~ accepted v o s.
Proof.
  intros W R S N L. destruct (marked_dec v s) as [M|M].
  - split; [exact M|]. intro A. destruct (accepted_left_alone _ _ _ _ _ _ _ _ W A R S) as (_ & -> & _). contradiction.
  - exfalso. eapply honest_not_locked; [|exact L]. eapply start_honest; [exact W| |exact R|exact S]. intro. contradiction.
Qed.
Lemma app_locks_out auto c devs v tr f s s' : valid_config c -> runs (app_startup auto c devs) tr f -> stick s tr s' ->
  (forall p, reports tr p -> p = version_of v) -> ~ locked_out v (network_options c) s -> locked_out v (network_options c) s' ->
  auto = true /\ marked v s /\ ~ accepted v (network_options c) s.
Proof.
  intros V R S Hv N L. destruct auto.
  - split; [reflexivity|]. destruct (marked_dec v s) as [M|M].
    + split; [exact M|]. intro A. destruct (stick_left_alone true c devs v tr f s s' V R S Hv (or_intror A)) as (_ & ->). contradiction.
    + exfalso. eapply honest_not_locked; [|exact L]. eapply app_honest; [exact V| |exact R|exact S|exact Hv]. intro. contradiction.
  - exfalso. destruct (stick_left_alone false c devs v tr f s s' V R S Hv (or_introl eq_refl)) as (_ & ->). contradiction.
Qed.
Lemma link_locks_out cap s v o g st : 0 <= cap -> reachable cap s -> at_rest s -> wf_options o -> 0 <= g < 65536 -> tellable st -> ~ locked_out v o st ->
  ((exists es st1, let h := hrun es (hosted (start_znp (version_of v) o g false) s) in Forall can_come (acts h) /\ stick st (acts h) st1 /\ locked_out v o st1) <->
   marked v st /\ ~ accepted v o st).
Proof.
  intros Hc Hr Hs W Hg T N. split.
  - intros (es & st1 & _ & S & L). eapply start_locks_out; [exact W|apply (host_runs cap _ _ (host_inv cap _ s es Hc Hr))|exact S|exact N|exact L].
  - intros [M A]. destruct (lost_start v o g st W M T N A) as (tr & st1 & R & S & F & L). pose proof (fine_come _ _ _ _ F) as F'.
    destruct (proj2 (proj1 (exactly cap _ s Hc Hr Hs (neat_start _ o g false) (start_sendable v o g false W Hg) tr F')) (ex_intro _ _ R)) as (es & E).
    exists es, st1. cbn zeta. rewrite E. auto.
Qed.
