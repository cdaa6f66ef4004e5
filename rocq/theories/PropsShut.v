(** * PropsShut: a start-up that is alone never fails because its link was closed (C165) *)
From Verif Require Import Base Types App Machine Life World SpecApi SpecMachine SpecFirst SpecWorldBlame Nv StartZnp AppStart SpecStart SpecAppStart Host SpecHost Whole SpecWhole
  PropsHost PropsAppStart PropsWhole PropsWholeFail PropsWholeEnd PropsWorldBlame PropsWholeBlame WholeProofs4 SpecSerial SerialProofs PropsSerial SpecUndisturbed ShutProofs.

(** ** C165.  If start-ups and reconnect loops come one by one and the user does not shut the application down, then no attempt at a
    start-up fails with AttributeError, and no request of it does: none of them finds that its port was closed.  (C145: why else they fail;
    [wfields_exist]: as there.) *)
Theorem C165_never_shut_out : forall c es devs t auto ds r at_, valid_config c -> one_by_one c es (whole_init devs) -> Forall no_shutdown es ->
  let x := whole_run c es (whole_init devs) in wfields_exist (x_world x) -> In (XOver t auto ds r at_) (x_log x) ->
  r <> Err AttributeError /\ forall a u sub cmd d y, ~ In (a, u, ARequest sub cmd d y (Some (Err AttributeError))) ds.
Proof. exact never_shut_out. Qed.
Print Assumptions C165_never_shut_out.
(** a stick that does not answer: the attempt fails, but not because of the port *)
Definition lit_mute : list xevent := lit_opened ++ [XGo 0; XWorld (VTask 0 0)] ++ lit_again ++ lit_again.
Definition quiet (e : xevent) : bool := match e with XWorld (VLife VShutdown) => false | _ => true end.
Lemma quiet_ok es : forallb quiet es = true -> Forall no_shutdown es.
Proof. intro H. apply Forall_forall. intros e Hi ->. rewrite forallb_forall in H. specialize (H _ Hi). discriminate H. Qed.
Example C165_inhabited : valid_config lit_net /\ one_by_one lit_net lit_mute (whole_init lit_known) /\ Forall no_shutdown lit_mute /\
  wfields_exist (x_world (lit_whole lit_mute)) /\ exists ds at_, In (XOver 0 true ds (Err TimeoutError) at_) (x_log (lit_whole lit_mute)) /\ ds <> [].
Proof.
  split; [exact lit_net_valid|]. split; [apply check_serial_ok; vm_compute; reflexivity|]. split; [apply quiet_ok; vm_compute; reflexivity|].
  split; [apply bare_wfields; vm_compute; reflexivity|]. eexists. eexists. split; [vm_compute; repeat (first [left; reflexivity|right])|discriminate].
Qed.
(** if the user shuts the application down meanwhile, the attempt can fail so *)
Definition lit_barred : list xevent := lit_opened ++ [XGo 0; XWorld (VLife VShutdown); XWorld (VTask 0 0); XGo 0; XGo 0].
Example C165_shutdown : one_by_one lit_net lit_barred (whole_init lit_known) /\ wfields_exist (x_world (lit_whole lit_barred)) /\
  exists ds at_, In (XOver 0 true ds (Err AttributeError) at_) (x_log (lit_whole lit_barred)).
Proof.
  split; [apply check_serial_ok; vm_compute; reflexivity|]. split; [apply bare_wfields; vm_compute; reflexivity|].
  eexists. eexists. vm_compute. repeat (first [left; reflexivity|right]).
Qed.
