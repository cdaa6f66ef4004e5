(** * StartLink: what the start-up program assumes of requests and waits, shown for the request machine *)
From Coq Require Import ZifyBool ZifyNat.
From Verif Require Import Base Types Uart Buffalo CmdTable Zpi Api App Machine SpecWire SpecCodec SpecApi SpecMachine Nv StartZnp SpecStart
  CodecProofs2 ApiProofs AppProofs MachineBase MachineInv3 MachineInv4 MachineInv5 DispatchProofs MachineProofs MachineProofs2 MachineProofs3 MachineProofs4 MachineProofs5.

(** ** AssertionError is not raised by building and encoding *)
Definition no_assert {A} (x : result A) : Prop := x <> Err AssertionError.
Lemma na_bind {A B} (x : result A) (f : A -> result B) : no_assert x -> (forall a, no_assert (f a)) -> no_assert (bind x f).
Proof. intros H G. destruct x as [a|e]; [apply G|]. intro E. apply H. cbn [bind] in E. congruence. Qed.
Lemma na_ok {A} (a : A) : no_assert (Ok a).
Proof. discriminate. Qed.
Lemma na_to_bytes n z : no_assert (to_bytes n z).
Proof. unfold to_bytes. destruct (_ && _); discriminate. Qed.
Lemma na_write_each n l : no_assert (write_each n l).
Proof.
  induction l as [|z l IH]; [apply na_ok|]. cbn [write_each]. apply na_bind; [apply na_to_bytes|intro a].
  apply na_bind; [exact IH|intro b; apply na_ok].
Qed.
Lemma na_write v n : no_assert (write v n).
Proof. destruct v; cbn [write]; try discriminate. apply na_to_bytes. Qed.
Lemma na_neighbor n : no_assert (write_neighbor_lqi n).
Proof. unfold write_neighbor_lqi. repeat first [apply na_ok|apply na_to_bytes|apply na_write_each|apply na_bind; [|intro]]. Qed.
Lemma na_neighbors l : no_assert (write_neighbors l).
Proof.
  induction l as [|z l IH]; [apply na_ok|]. cbn [write_neighbors]. apply na_bind; [apply na_neighbor|intro a].
  apply na_bind; [exact IH|intro b; apply na_ok].
Qed.
Lemma na_parameter t v : no_assert (write_parameter t v).
Proof.
  destruct t; cbn [write_parameter]; try discriminate; try apply na_write; destruct v as [z|l|l|l|[|n l]]; try discriminate;
    try apply na_write_each; try apply na_neighbors; try apply na_write; destruct l; try discriminate; apply na_neighbors.
Qed.
Lemma na_params ps d : no_assert (write_params ps d).
Proof.
  induction ps as [|[n t] ps IH]; [apply na_ok|]. cbn [write_params].
  apply na_bind; [unfold dict_getE; destruct (dict_get d n); discriminate|intro v].
  apply na_bind; [apply na_parameter|intro a]. apply na_bind; [exact IH|intro b; apply na_ok].
Qed.
Lemma na_frame o : no_assert (to_unpi_frame o).
Proof. unfold to_unpi_frame. apply na_bind; [apply na_params|intro; apply na_ok]. Qed.
Lemma na_buffer f : no_assert (to_buffer f).
Proof.
  unfold to_buffer. apply na_bind; [unfold py_bytes; destruct (forallb _ _); discriminate|intro a].
  apply na_bind; [unfold py_bytes; destruct (forallb _ _); discriminate|intro b; apply na_ok].
Qed.
Lemma na_command s c d : no_assert (in_coroutine (from_command s c d)).
Proof.
  assert (H : no_assert (from_command s c d)).
  { unfold from_command. apply na_bind; [destruct s; discriminate|intro cs]. 
    apply na_bind; [unfold next_cmd; destruct (find _ _); discriminate|intro x].
    apply na_bind; [unfold select_params, key; destruct (ct_eqb _ _); [destruct (c_response x)|destruct (c_request x)]; discriminate|intro ps].
    apply na_ok. }
  unfold no_assert in *. destruct (from_command s c d) as [o|[]]; cbn [in_coroutine]; congruence.
Qed.

(** ** a reset indication carries no status *)
Lemma reset_ind_no_status f r : from_unpi_frame f = Ok r -> z_type r = AREQ -> z_sub r = SYS -> z_cmd r = "resetInd" -> status_of r = None.
Proof.
  intros Hf Ht Hs Hc. destruct (decoded_def f r Hf) as (cs & c & Hd & Hin & Hn & Hsel & Hr).
  pose (P := fun (s : subsystem) (c : cmd) => negb (sub_eqb s SYS) || negb (String.eqb (c_name c) "resetInd") ||
    match c_request c with Some ps => negb (existsb (fun p : param => String.eqb "status" (fst p)) ps) | None => true end).
  assert (H : P (z_sub r) c = true) by (eapply (table_sweep P); [vm_compute; reflexivity|eassumption..]).
  unfold P in H. rewrite Hs, <- Hn, Hc in H. change (sub_eqb SYS SYS) with true in H. rewrite String.eqb_refl in H. cbn [negb orb] in H.
  unfold select_params, key in Hsel. rewrite Ht in Hsel. change (ct_eqb AREQ SRSP) with false in Hsel. cbn iota in Hsel.
  destruct (c_request c) as [ps|]; [|discriminate Hsel]. injection Hsel as Eps. rewrite Eps in H. apply negb_true_iff in H.
  assert (Nin : ~ In "status" (map fst (z_params r))).
  { intro K. apply in_map_iff in K as (p & Ep & Kp). rewrite <- not_true_iff_false in H. apply H. apply existsb_exists. exists p.
    split; [exact Kp|]. rewrite Ep. apply String.eqb_refl. }
  unfold read_parameters in Hr. apply (read_params_get "status") in Hr; [|intros t K; exfalso; apply Nin; apply in_map_iff; exists ("status", t); auto|discriminate].
  unfold status_of. rewrite (proj2 (proj2 Hr)) by exact Nin. reflexivity.
Qed.

Definition outcome_for (r : result zpi) : outcome := match r with Ok m => ORet (Some m) | Err e => OExn e end.

Lemma reason_answers s t sub cmd d x out : Received s -> Reason (JCommand sub cmd d x) t (s_log s) out ->
  (exists r, out = outcome_for r /\ answer_possible x r) \/
  (out = ORet None /\ exists o, from_command sub cmd d = Ok o /\ z_type o = AREQ /\ ~ resets o).
Proof.
  intros Hrec HR.
  assert (X : forall e, e <> AssertionError -> (exists r, OExn e = outcome_for r /\ answer_possible x r)) by (intros e H; exists (Err e); split; [reflexivity|exact H]).
  assert (Xo : forall e, outcome_of_exn (JCommand sub cmd d x) e = OExn e) by (intros []; reflexivity).
  destruct HR as [|e He|o' e Ho He|o' e Ho He|y Ha|o' m to at_ bs lb r' c Ho Hs Haw Hfb Hout Hi Hm Hu|o' m to at_ bs lb r' c mq Ho Hs Haw Hfb Hout Hi Hm Hu Hw| |m to r' Hj Hi Hm|m to Hj]; try discriminate.
  - left. apply X. discriminate.
  - left. apply X. intros ->. exact (na_command sub cmd d He).
  - left. rewrite Xo. apply X. intros ->. destruct He as [He|[[_ [He|(f & _ & He)]]|(_ & _ & He)]]; try discriminate He.
    + exact (na_frame _ He).
    + exact (na_buffer _ He).
  - destruct Ha as [o at_ bs Hb Ht Haw Hfb Hout|o m to at_ bs lb r Hb Haw Hfb Hout Hi Hm Hu]; cbn [outcome_of_result].
    + right. split; [reflexivity|]. cbn [build] in Hb. exists o.
      split; [destruct (from_command sub cmd d) as [|[]]; cbn [in_coroutine] in Hb; congruence|]. split; [exact Ht|].
      unfold awaited in Haw. rewrite Ht in Haw. destruct (is_reset_command o) eqn:E; [discriminate Haw|]. intro K. apply is_reset in K. congruence.
    + left. exists (Ok r). split; [reflexivity|]. cbn [answer_possible]. intros c Hc. destruct (z_type o) eqn:Ht.
      * unfold awaited in Haw. rewrite Ht in Haw. discriminate Haw.
      * eapply (unexpected_none r (JCommand sub cmd d x) c); [apply Hu; reflexivity|exact Hc].
      * destruct (awaited_areq _ _ _ Haw Ht) as [-> _]. apply matched in Hm. cbn [m_type m_sub m_cmd] in Hm. destruct Hm as (M1 & M2 & M3).
        destruct (Hrec r (outstanding_in _ _ _ _ _ _ Hout Hi)) as [f Hf]. rewrite (reset_ind_no_status f r Hf M1 M2 M3) in Hc. discriminate Hc.
      * unfold awaited in Haw. rewrite Ht in Haw. discriminate Haw.
  - left. rewrite Xo. apply X. discriminate.
  - left. apply X. discriminate.
Qed.

Lemma answers_possible cap s t k sub cmd d x out : 0 <= cap -> reachable cap s -> get s t = Some k ->
  t_job k = JCommand sub cmd d x -> In (OEnded t out) (s_log s) ->
  (exists r, out = outcome_for r /\ answer_possible x r) \/
  (out = ORet None /\ exists o, from_command sub cmd d = Ok o /\ z_type o = AREQ /\ ~ resets o).
Proof.
  intros Hcap Hr G Ej Hin. pose proof (get_job cap s t k _ Hcap Hr G Hin) as HR. rewrite Ej in HR.
  eapply reason_answers; [exact (I_received _ _ (reachable_inv cap s Hcap Hr))|exact HR].
Qed.

Lemma indications_possible cap s t k m to out : 0 <= cap -> reachable cap s -> get s t = Some k ->
  t_job k = JWaitFor m to -> In (OEnded t out) (s_log s) ->
  exists r, out = outcome_for r /\ indication_possible m r /\ match r with Ok x => In (OReceived x) (s_log s) | Err _ => True end.
Proof.
  intros Hcap Hr G Ej Hin. pose proof (get_job cap s t k _ Hcap Hr G Hin) as HR. rewrite Ej in HR.
  destruct HR as [|e He|o' e Ho He|o' e Ho He|y Ha|o' m' to' at_ bs lb r' c Ho Hs Haw Hfb Hout Hi Hm Hu|o' m' to' at_ bs lb r' c mq Ho|o' m' to' at_ bs lb Ho|m' to' r' Hj Hi Hm|m' to' Hj]; try discriminate.
  - exists (Err CancelledError). repeat split. discriminate.
  - cbn [build] in He. injection He as <-. exists (Err Unmodelled). repeat split. discriminate.
  - destruct Ha; discriminate.
  - injection Hj as <- <-. exists (Ok r'). repeat split; assumption.
  - exists (Err TimeoutError). repeat split. discriminate.
Qed.
