(** * PropsHost: the start-up program on the link (C96-C98) *)
From Verif Require Import Base Types Uart Buffalo Zpi Api App Machine SpecWire SpecCodec SpecMachine Nv StartZnp SpecStart StartExec Host SpecHost
  HostProofs HostProofs2 PropsStart.

(** ** C96.  A program on the request machine, whatever else goes on: what it does and sees is one of its runs; what it sees as
    the answer of a request was received while that request's own frame was outstanding; what it awaited was
    received; it puts nothing on the link before everything it did earlier is finished. *)
Theorem C96_program_on_the_link : forall cap A (p : prog A) s0 es, 0 <= cap -> reachable cap s0 ->
  let h := hrun es (hosted p s0) in
  reachable cap (h_st h) /\ runs p (acts h) (ending h) /\
  (forall t sub cmd d x m, In (t, ARequest sub cmd d x (Some (Ok m))) (doings h) -> exchanged t sub cmd d m (s_log (h_st h))) /\
  (forall t sub cmd d x e, In (t, ARequest sub cmd d x (Some (Err e))) (doings h) -> In (OEnded t (OExn e)) (s_log (h_st h))) /\
  (forall t w m, In (t, AAwait w (Ok m)) (doings h) -> In (OReceived m) (s_log (h_st h))) /\
  (forall t w e, In (t, AAwait w (Err e)) (doings h) -> In (OEnded t (OExn e)) (s_log (h_st h))).
Proof.
  intros cap A p s0 es Hc Hr h. pose proof (host_inv cap p s0 es Hc Hr) as HI. fold h in HI.
  split; [apply HI|]. split; [apply (host_runs cap p h HI)|].
  split; [intros t sub cmd d x m H|split; [intros t sub cmd d x e H|split; [intros t w m H|intros t w e H]]]; apply (H_done _ _ _ HI _ _ H).
Qed.
Print Assumptions C96_program_on_the_link.
Theorem C96_one_after_the_other : forall cap A (p : prog A) s0 es a t1 y1 b t2 y2 la at_ bs lb, 0 <= cap -> reachable cap s0 ->
  let h := hrun es (hosted p s0) in
  doings h = a ++ (t1, y1) :: b -> In (t2, y2) b -> (forall w r, y2 <> AAwait w r) ->
  s_log (h_st h) = la ++ OWritten t2 at_ bs :: lb ->
  match y1 with
  | ARequest sub cmd d x (Some (Ok m)) => exchanged t1 sub cmd d m la
  | ARequest sub cmd d x (Some (Err e)) => In (OEnded t1 (OExn e)) la
  | AAwait w (Ok m) => In (OReceived m) la
  | AAwait w (Err e) => In (OEnded t1 (OExn e)) la
  | _ => True
  end.
Proof.
  intros cap A p s0 es a t1 y1 b t2 y2 la at_ bs lb Hc Hr h E Hi Hy El.
  apply (host_order cap p h a t1 y1 b t2 y2 la at_ bs lb Hc (host_inv cap p s0 es Hc Hr) E Hi); [|exact El].
  destruct y2; try exact I. exfalso. eapply Hy. reflexivity.
Qed.
Print Assumptions C96_one_after_the_other.
Theorem C96_own_frames : forall cap A (p : prog A) s0 es t y at_ bs, 0 <= cap -> reachable cap s0 ->
  let h := hrun es (hosted p s0) in
  In (t, y) (doings h) -> In (OWritten t at_ bs) (s_log (h_st h)) ->
  match y with
  | ARequest sub cmd d _ _ | ASpawn sub cmd d => exists o, from_command sub cmd d = Ok o /\ frame_bytes o bs
  | _ => False
  end.
Proof. intros cap A p s0 es t y at_ bs Hc Hr h Hi Hw. exact (host_wrote cap p h t y at_ bs Hc (host_inv cap p s0 es Hc Hr) Hi Hw). Qed.
Print Assumptions C96_own_frames.

(** ** Literal starts: request number [t] is made and answered with [r]. *)
Definition lit_round (t : Z) (r : list Z) : list hevent := [HGo; HEnv (ERun t); HEnv (ERecv r); HEnv (ERun t); HGo].
Definition lit_talk (rs : list (list Z)) : list hevent := concat (map (fun '(t, r) => lit_round t r) (combine (map Z.of_nat (List.seq 0 (length rs))) rs)).
Definition lit_link : st := init 2 (Some 0) [] true.
Lemma lit_link_reachable : reachable 2 lit_link.
Proof. exists (Some 0), [], true, []. reflexivity. Qed.
Definition lit_written : list Z := wire 3 1 9 [0].
Definition lit_reset : list Z := wire 2 1 128 [0; 2; 0; 2; 6; 3].
(** an empty stick, up to the answer to the request before the marker is written, and then on to writing it *)
Definition lit_fresh : host start_result :=
  hrun (lit_talk [wire 3 1 8 [2; 0]; wire 3 1 8 [2; 0]; lit_reset; lit_written; lit_reset; lit_written; lit_written; lit_written; lit_written; lit_written; lit_written;
                  wire 3 6 5 [0]; lit_written; wire 3 1 7 [9]] ++ [HGo; HEnv (ERun 14)])
    (hosted (lit_start Stack12 lit_options) lit_link).
(** a configured stick that runs as coordinator *)
Definition lit_kept : host start_result :=
  hrun (lit_talk [wire 3 1 8 [0; 1; 85]; wire 3 1 8 [0; 1; 85]; wire 3 1 8 ([0; 4] ++ le4 2048); wire 3 1 8 [0; 1; 0];
                  wire 3 6 4 ([0; 98; 16] ++ o_key lit_options); wire 3 1 8 ([0; 2] ++ le2 6754); wire 3 1 8 ([0; 8] ++ o_ext lit_options)])
    (hosted (lit_start Stack12 lit_options) lit_link).
Example C96_inhabited :
  commands (acts lit_fresh) = ["osalNvRead"; "osalNvRead"; "resetReq"; "osalNvWrite"; "resetReq"; "osalNvWrite"; "osalNvWrite"; "osalNvWrite"; "osalNvWrite";
    "osalNvWrite"; "osalNvWrite"; "writeConfiguration"; "osalNvWrite"; "osalNvItemInit"; "osalNvWrite"] /\
  (exists d m, In (3, ARequest SYS "osalNvWrite" d [0] (Some (Ok m))) (doings lit_fresh)) /\
  In (OWritten 4 0 [254; 1; 65; 0; 1; 65]) (s_log (h_st lit_fresh)).
Proof.
  split; [vm_compute; reflexivity|]. split; [|vm_compute; repeat (first [left; reflexivity|right])].
  eexists. eexists. vm_compute. do 3 right. left. reflexivity.
Qed.

(** ** C97.  The configured mark reaches the link last. *)
Theorem C97_marker_last_on_link : forall cap v o group backup s0 es, 0 <= cap -> reachable cap s0 -> wf_options o -> 0 <= group < 65536 ->
  let h := hrun es (hosted (start_znp (version_of v) o group backup) s0) in
  forall t at_ bs la lb c, started h t -> s_log (h_st h) = la ++ OWritten t at_ bs :: lb -> In bs (item_frames (marker v) c) ->
  c = set_mark /\
  forall i e, In (i, e) (settings v o) -> exists t' at' bs' lb' m,
    started h t' /\ In bs' (item_frames i e) /\ outstanding t' at' bs' lb' la /\ In (OReceived m) lb' /\ stored_ok m.
Proof. intros cap v o g b s0 es Hc Hr Hw Hg h. exact (marker_last_on_link cap v o g b s0 es Hc Hr Hw Hg). Qed.
Print Assumptions C97_marker_last_on_link.
Example C97_inhabited : started lit_fresh 14 /\ exists la, s_log (h_st lit_fresh) = la ++ [OWritten 14 0 (wire 1 1 9 [0; 15; 0; 1; 85])] /\
  In (wire 1 1 9 [0; 15; 0; 1; 85]) (item_frames (marker Stack12) [85]).
Proof.
  split; [vm_compute; repeat (first [left; reflexivity|right])|]. eexists (removelast (s_log (h_st lit_fresh))).
  split; [vm_compute; reflexivity|left; vm_compute; reflexivity].
Qed.

(** ** C98.  On a stick that already has the requested settings start-up puts nothing on the link that changes it. *)
Theorem C98_configured_untouched_on_link : forall cap v o group backup s0 es store store', 0 <= cap -> reachable cap s0 -> wf_options o ->
  0 <= group < 65536 -> config_matches v o store ->
  let h := hrun es (hosted (start_znp (version_of v) o group backup) s0) in
  stick store (acts h) store' ->
  store' = store /\
  forall t at_ bs ct sub id data, started h t -> In (OWritten t at_ bs) (s_log (h_st h)) -> In (ct, sub, id) changing -> bs <> wire ct sub id data.
Proof. intros cap v o g b s0 es store store' Hc Hr Hw Hg M h. exact (configured_untouched_on_link cap v o g b s0 es Hc Hr Hw Hg store store' M). Qed.
Print Assumptions C98_configured_untouched_on_link.
Example C98_inhabited : config_matches Stack12 lit_options (lit_config Stack12 lit_options) /\
  commands (acts lit_kept) = ["osalNvRead"; "osalNvRead"; "osalNvRead"; "osalNvRead"; "readConfiguration"; "osalNvRead"; "osalNvRead"] /\
  stick (lit_config Stack12 lit_options) (acts lit_kept) (lit_config Stack12 lit_options) /\
  In (OWritten 0 0 (wire 1 1 8 [0; 15; 0])) (s_log (h_st lit_kept)).
Proof.
  split; [vm_compute; repeat split|]. split; [vm_compute; reflexivity|]. split.
  - assert (E : exists l, acts lit_kept = l) by eauto. destruct E as [l E]. rewrite E. vm_compute in E. subst l.
    repeat (apply (stick_cons _ _ (lit_config Stack12 lit_options)); [split; [reflexivity|vm_compute; repeat split]|]). constructor.
  - vm_compute. repeat (first [left; reflexivity|right]).
Qed.
