(** * PropsWholeEnd: no start-up hangs across lost connections (C134) *)
From Verif Require Import Base Types Uart Buffalo CmdTable Zpi Api App Machine Life World SpecWire SpecMachine SpecProgress SpecWorld SpecWorldProgress
  Nv StartZnp AppStart SpecStart Host Whole SpecWhole SpecWholeEnds PropsApp PropsWorld PropsAppStart PropsWhole WholeEnds2.

(** ** C134 *)
(** In rounds of at least T ms (T at least a minute, the longest time limit of a start-up) in which every unfinished
    operation, every unfinished coroutine of every API object and every start-up gets its turn, whatever else happens
    meanwhile: an attempt at a start-up that makes its requests has ended after at most 108 times as many rounds as
    there is to do, whichever API object, open or closed, it speaks to and whether or not anything answers. *)
Theorem C134_startups_end : forall c x T rs t, valid_config c -> xreachable c x -> asking x t -> 60000 <= T -> xserving_rounds c T x rs ->
  let e := whole_run c (concat rs) x in
  108 * (1 + (9 * (Z.of_nat (length (unfinished_ops (w_log (x_world x)))) + (operations (x_world e) - operations (x_world x))) +
              7 * (waiting_tasks (x_world x) + (exchanges (x_world e) - exchanges (x_world x))))) <= Z.of_nat (length rs) ->
  exists l auto ds r at_, x_log e = x_log x ++ l /\ In (XOver t auto ds r at_) l.
Proof. exact start_ups_end. Qed.
Print Assumptions C134_startups_end.

(** The connection is lost while the ping of a start-up is under way; nothing ever answers. *)
Definition lit_pinging : whole := lit_whole (lit_opened ++ [XGo 0; XWorld (VTask 0 0)]).
Definition lit_again : list xevent := [XWorld (VTick 60000); XWorld (VTimeout 0 0); XWorld (VTask 0 0); XGo 0].
Definition lit_rounds : list (list xevent) := ([XWorld (VLife (VLost 0)); XWorld (VLife (VGo 1 (Ok tt)))] ++ lit_again) :: repeat lit_again 863.
Definition one_asks (x : whole) : bool :=
  match y_tasks (w_life (x_world x)) with _ :: l => forallb (fun k => match k_stage k with KRequests => false | _ => true end) l | [] => true end &&
  match unfinished_ops (w_log (x_world x)) with [] => true | _ => false end &&
  match w_apis (x_world x) with [s] => forallb (Z.eqb 0) (pending (s_log s)) | [] => true | _ => false end.
Lemma one_served x a : one_asks x = true -> xserving 60000 x (a ++ lit_again).
Proof.
  unfold one_asks. intro H. apply andb_prop in H as [H H3]. apply andb_prop in H as [H1 H2]. split.
  - intros t (k & G & S). destruct (y_tasks (w_life (x_world x))) as [|k0 l]; [destruct t; discriminate G|]. destruct t as [|t].
    + apply in_or_app. right. do 3 right. left. reflexivity.
    + cbn [nth_error] in G. apply nth_error_In in G. rewrite forallb_forall in H1. specialize (H1 k G). rewrite S in H1. discriminate H1.
  - exists (a ++ [XWorld (VTick 60000)]), (skipn 1 lit_again). split; [rewrite <- app_assoc; reflexivity|]. split.
    + unfold xpassing. rewrite fold_right_app. cbn [fold_right]. change (Z.max 0 60000 + 0) with 60000.
      induction a as [|e a IH]; [apply Z.le_refl|]. cbn [fold_right]. destruct e as [| |[]]; try exact IH.
      eapply Z.le_trans; [exact IH|]. rewrite <- (Z.add_0_l (fold_right _ _ _)) at 1. apply Z.add_le_mono_r, Z.le_max_l.
    + split; [intros n Hn; destruct (unfinished_ops _); [contradiction|discriminate H2]|].
      intros i s u G Hu. destruct (w_apis (x_world x)) as [|s0 [|s1 l]]; try discriminate H3; [destruct i; discriminate G|].
      destruct i as [|[|i]]; try discriminate G. injection G as <-. rewrite forallb_forall in H3. apply H3, Z.eqb_eq in Hu. subst u.
      exists [], [], [XGo 0]. reflexivity.
Qed.
Fixpoint all_one_asks (x : whole) (rs : list (list xevent)) : bool := match rs with [] => true | r :: rest => one_asks x && all_one_asks (whole_run lit_net r x) rest end.
Lemma rounds_served rs : forall x, (forall r, In r rs -> exists a, r = a ++ lit_again) -> all_one_asks x rs = true -> xserving_rounds lit_net 60000 x rs.
Proof.
  induction rs as [|r rs IH]; intros x H E; cbn [xserving_rounds all_one_asks] in *; [exact I|]. apply andb_prop in E as [E1 E2].
  destruct (H r (or_introl eq_refl)) as (a & ->). split; [apply one_served, E1|]. apply IH; [intros r' Hr; apply H; right; exact Hr|exact E2].
Qed.
Example C134_inhabited : valid_config lit_net /\ xreachable lit_net lit_pinging /\ asking lit_pinging 0 /\ xserving_rounds lit_net 60000 lit_pinging lit_rounds /\
  length lit_rounds = 864%nat /\ unfinished_ops (w_log (x_world lit_pinging)) = [] /\ waiting_tasks (x_world lit_pinging) = 1 /\
  let e := whole_run lit_net (concat lit_rounds) lit_pinging in
  operations (x_world e) = operations (x_world lit_pinging) /\ exchanges (x_world e) = exchanges (x_world lit_pinging) /\
  map told (x_log lit_pinging) = [(0%nat, 0, [], None)] /\
  map told (skipn 1 (x_log e)) = [(0%nat, 121000, [(0%nat, 0, "ping")], Some (Err TimeoutError))].
Proof.
  split; [exact lit_net_valid|]. split; [apply lit_whole_reachable|]. split; [eexists; split; vm_compute; reflexivity|]. split.
  - apply rounds_served; [|vm_compute; reflexivity]. intros r [<-|Hr]; [eexists; reflexivity|]. apply repeat_spec in Hr. subst r. exists []. reflexivity.
  - vm_compute. repeat split; reflexivity.
Qed.
