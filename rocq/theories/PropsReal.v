(** * PropsReal: what the stick can bring about happens on the link (C151) *)
From Verif Require Import Base Types Uart Buffalo CmdTable Zpi Api App Machine SpecWire SpecMachine Nv StartZnp SpecStart Host SpecHost
  AppStart SpecAppStart StartProofs StartSend AppStartProofs FormProofs SpecReal RealProofs RealProofs2.

(** ** C151.  From a state in which the port is open and nothing is going on: of the courses whose answers a stick can send
    (or whose requests run out of time or are cancelled), those that the program alone can take are exactly those that
    it takes on the request machine under some sequence of events, and they end in the same way. *)
Theorem C151_startup_exact : forall cap auto c devs s tr, 0 <= cap -> reachable cap s -> at_rest s -> valid_config c -> Forall can_come tr ->
  let p := app_startup auto c devs in
  ((exists es, acts (hrun es (hosted p s)) = tr) <-> exists f, runs p tr f) /\
  forall f, f <> Interrupted -> ((exists es, let h := hrun es (hosted p s) in acts h = tr /\ ending h = f) <-> runs p tr f).
Proof. intros cap auto c devs s tr Hc Hr Hs V F p. apply (exactly cap p s Hc Hr Hs (neat_app auto c devs) (app_sendable auto c devs V) tr F). Qed.
Print Assumptions C151_startup_exact.
Theorem C151_start_exact : forall cap v o group backup s tr, 0 <= cap -> reachable cap s -> at_rest s -> wf_options o -> 0 <= group < 65536 -> Forall can_come tr ->
  let p := start_znp (version_of v) o group backup in
  ((exists es, acts (hrun es (hosted p s)) = tr) <-> exists f, runs p tr f) /\
  forall f, f <> Interrupted -> ((exists es, let h := hrun es (hosted p s) in acts h = tr /\ ending h = f) <-> runs p tr f).
Proof. intros cap v o g b s tr Hc Hr Hs W Hg F p. apply (exactly cap p s Hc Hr Hs (neat_start _ o g b) (start_sendable v o g b W Hg) tr F). Qed.
Print Assumptions C151_start_exact.
Theorem C151_form_exact : forall cap v c s tr, 0 <= cap -> reachable cap s -> at_rest s -> valid_config c -> Forall can_come tr ->
  let p := form_network (version_of v) c in
  ((exists es, acts (hrun es (hosted p s)) = tr) <-> exists f, runs p tr f) /\
  forall f, f <> Interrupted -> ((exists es, let h := hrun es (hosted p s) in acts h = tr /\ ending h = f) <-> runs p tr f).
Proof. intros cap v c s tr Hc Hr Hs V F p. apply (exactly cap p s Hc Hr Hs (neat_form _ c) (form_sendable v c V) tr F). Qed.
Print Assumptions C151_form_exact.

(** the stick says what it can do and what it is, and then nothing any more *)
Definition lit_pong_frame : frame := mk_frame SRSP SYS 1 [89; 7] None None.
Definition lit_version_frame : frame := mk_frame SRSP SYS 2 [2; 1; 2; 7; 1; 0; 0; 0; 0] None None.
Definition lit_silent (a b : zpi) : list act :=
  [ARequest SYS "ping" [("capabilities", VInt 1)] [0] (Some (Ok a)); ARequest SYS "version" [] [0] (Some (Ok b));
   ARequest UTIL "getDeviceInfo" [] [0] (Some (Err TimeoutError))].
Example C151_inhabited : at_rest (init 2 None [] true) /\ reachable 2 (init 2 None [] true) /\
  exists a b, Forall can_come (lit_silent a b) /\ forall c, runs (app_startup false c []) (lit_silent a b) (Raised TimeoutError).
Proof.
  split; [repeat split|]. split; [exists None, [], true, []; reflexivity|].
  eexists (mk_zpi SRSP SYS "ping" 1 [("capabilities", VInt 1881)] [("capabilities", UINT16)] None), _. split.
  - unfold lit_silent. repeat constructor; cbn [can_come]; try (left; reflexivity).
    + exists lit_pong_frame. split; [repeat split; try discriminate; try (repeat constructor; discriminate); cbn; lia|]. split; [discriminate|vm_compute; reflexivity].
    + eexists. split; [reflexivity|]. left. repeat split.
    + exists lit_version_frame. split; [repeat split; try discriminate; try (repeat constructor; discriminate); cbn; lia|]. split; [discriminate|vm_compute; reflexivity].
    + eexists. split; [reflexivity|]. left. repeat split.
  - intro c. unfold lit_silent. apply runs_request; [cbn; discriminate|]. cbn. apply runs_request; [cbn; discriminate|]. cbn.
    apply runs_request; [cbn; discriminate|]. cbn. apply runs_raise.
Qed.
