(** * StartWaiters: what a start-up waits for, apart from answers to its requests *)
From Coq Require Import ZifyBool ZifyNat.
From Verif Require Import Base Types Uart Buffalo Zpi Api Nv StartZnp AppStart SpecStart SpecAppStart StartProofs AppStartProofs HostBlame.

Definition act_listens (y : act) : Prop := 
  match y with
  | AListen m to => m = mk_matcher AREQ ZDO "activeEpRsp" [] /\ to = 10000 \/ m = mk_matcher AREQ ZDO "stateChangeInd" [("state", VInt 9)] /\ to = 60000
  | _ => True
  end.
Lemma start_listens v o g b : StartProofs.only act_listens (start_znp v o g b).
Proof.
  unfold start_znp, has_configured, configure, needs_init, validate_pan, validate_item, initialise, soft_reset, nv_write, StartZnp.boot, register_endpoints, add_to_group, await_started.
  repeat (onl; cbn [act_listens]; try exact I; try (left; split; reflexivity); try (right; split; reflexivity)).
  apply (only_seq act_listens (request SYS "osalNvRead" (item_pan (o_pan o)) [0])); [onl; exact I|intro; onl].
Qed.
Lemma app_listens auto c devs : StartProofs.only act_listens (app_startup auto c devs).
Proof.
  intros tr f H. apply app_course in H.
  assert (P4 : forall p, Forall act_listens (led_acts p)) by (intro p; unfold led_acts; destruct (p =? 1); repeat constructor).
  inversion H; subst; repeat (constructor; [exact I|]); try constructor.
  apply body_inv in H1 as (t1 & t2 & -> & g & H1 & H2). apply Forall_app. split.
  - apply form_inv in H1. destruct auto; [|destruct H1 as [-> _]; constructor]. destruct H1 as (t3 & t4 & g' & -> & R & G).
    apply Forall_app. split; [exact (start_listens _ _ _ _ _ _ R)|].
    destruct g'; [destruct G as [[-> _]|[[->| ->] _]]|destruct G as [-> _]..]; try constructor; apply P4.
  - destruct g; [|destruct H2 as [-> _]; constructor..]. apply finish_inv in H2 as [[->|[r ->]] _]; repeat constructor.
Qed.
Theorem app_waits auto c devs tr f m to : runs (app_startup auto c devs) tr f -> In (AListen m to) tr ->
  m = mk_matcher AREQ ZDO "activeEpRsp" [] /\ to = 10000 \/ m = mk_matcher AREQ ZDO "stateChangeInd" [("state", VInt 9)] /\ to = 60000.
Proof. intros H Hin. apply app_listens in H. rewrite Forall_forall in H. exact (H _ Hin). Qed.
