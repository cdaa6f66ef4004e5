(** * AnsweredProofs: proofs for PropsAnswered *)
From Coq Require Import ZifyBool ZifyNat.
From Verif Require Import Base Types Uart Buffalo CmdTable Zpi Api App Machine Life World SpecApi SpecMachine SpecFirst SpecBlame SpecWorld SpecWorldBlame Nv StartZnp AppStart SpecStart SpecAppStart Host SpecHost Whole SpecWhole SpecWholeFail SpecWholeBlame
  WholeProofs4 WholeBlame SpecWholeEnds SpecFair WholeEnds WholeFair SpecSerial SpecUndisturbed ShutProofs SpecAnswered.

Lemma answered_succeeds c es devs devs' ws t auto ds r at_ : valid_config c -> one_by_one c es (whole_init devs) -> Forall no_shutdown es -> let x := whole_run c es (whole_init devs) in
  x_world x = world_run ws (world_init devs') -> wfields_exist (x_world x) -> In (XOver t auto ds r at_) (x_log x) ->
  (forall a u y, In (a, u, y) ds -> answered ws (world_init devs') (x_world x) a u y) -> r = Ok tt.
Proof.
  intros V H N x E F Hi S. destruct r as [[]|e]; [reflexivity|]. exfalso. assert (R : xreachable c x) by (exists devs, es; reflexivity).
  destruct (never_shut_out c es devs t auto ds (Err e) at_ V H N F Hi) as [_ D].
  destruct (xstartup_blamed c devs' ws x t auto ds e at_ V R E F Hi) as (ds' & a & u & y & -> & B & (s & A & k & G & L)).
  assert (Hy : In (a, u, y) (ds' ++ [(a, u, y)])) by (apply in_or_app; right; left; reflexivity). destruct (S a u y Hy) as [S1 S2].
  destruct y as [sub cmd d1 z [[m|e']|]|m to|m [m'|e']|sub cmd d1]; cbn [failed] in *; try contradiction.
  - destruct B as (_ & _ & -> & p & Hp & Np). destruct S2 as (_ & _ & S2). apply Np. eapply S2; [reflexivity|reflexivity|exact Hp].
  - destruct L as [_ L]. destruct S2 as (S3 & S4 & _). inversion L; subst; try contradiction.
    + exact (D a u sub cmd d1 z Hy).
    + cbn [build] in *. eapply S3; [|eassumption]. match goal with K : in_coroutine ?q = Ok _ |- _ => destruct q as [|[]]; cbn [in_coroutine] in K; congruence end.
    + eapply S4. rewrite (history_of _ _ _ A). eassumption.
  - destruct S2 as [_ S2]. apply (S2 m' eq_refl). exists s. split; [exact A|apply L].
  - destruct L as (to & _ & L). destruct S2 as [S2 _]. inversion L; subst; [contradiction|]. eapply S2. eassumption.
Qed.
Lemma answered_recovers c es devs devs' ws T M rs t : valid_config c -> one_by_one c (es ++ concat rs) (whole_init devs) -> Forall no_shutdown (es ++ concat rs) ->
  let x := whole_run c es (whole_init devs) in asking x t -> 60000 <= T -> 0 <= M ->
  xserving_rounds c T x rs -> uncrowded c M x rs -> 108 * (4 + 2 * M) <= Z.of_nat (length rs) ->
  let e := whole_run c (concat rs) x in x_world e = world_run ws (world_init devs') -> wfields_exist (x_world e) ->
  (forall l auto ds r at_ a u y, x_log e = x_log x ++ l -> In (XOver t auto ds r at_) l -> In (a, u, y) ds -> answered ws (world_init devs') (x_world e) a u y) ->
  exists l auto ds at_, x_log e = x_log x ++ l /\ In (XOver t auto ds (Ok tt) at_) l.
Proof.
  intros V H N x A HT HM HS HU Hl e E F S. assert (R : xreachable c x) by (exists devs, es; reflexivity).
  destruct (start_ups_end_soon c x T M rs t V R A HT HM HS HU Hl) as (l & auto & ds & r & at_ & El & Hi). fold e in El.
  assert (Ee : e = whole_run c (es ++ concat rs) (whole_init devs)) by (unfold e, x; rewrite xrun_app; reflexivity).
  assert (r = Ok tt) as ->.
  { rewrite Ee in E, F, S, El. apply (answered_succeeds c _ devs devs' ws t auto ds r at_ V H N E F); [rewrite El; apply in_or_app; right; exact Hi|].
    intros a u y Hy. eapply S; eassumption. }
  exists l, auto, ds, at_. auto.
Qed.
