(** * PropsWaiters: property C147, whose each waiter is, what it waits for and for how long *)
From Verif Require Import Base Types Uart Buffalo CmdTable Zpi Api App Machine Life World SpecApi SpecMachine SpecMatch SpecWorld SpecWaiters Nv StartZnp AppStart SpecStart StartExec SpecAppStart
  MachineWaiters WorldWaiters StartWaiters PropsApp PropsMachine PropsWorld PropsStart PropsAppStart.

(** ** C147.  Every registered waiter was made by some call: by wait_for for what and for as long as it was told; by a request for the
    synchronous response (6 s; 20 s for the two commands that form the network) or, when the stick is reset, for its announcement (30 s); by an
    operation for the device's reply (10 s). *)
Theorem C147_waiters : forall cap s w, reachable cap s -> In w (s_waiters s) ->
  exists t k, get s t = Some k /\ makes_waiter (t_job k) (w_matcher w) (w_seq w) (w_timeout w).
Proof. intros cap s w R. exact (reachable_owned cap s R w). Qed.
Print Assumptions C147_waiters.
(** Across losses of the connection: the waiters of every API object, also those of operations that sent their request to another one. *)
Theorem C147_waiters_of_links : forall w a s x, wreachable w -> nth_error (w_apis w) a = Some s -> In x (s_waiters s) ->
  (exists t k, get s t = Some k /\ makes_waiter (t_job k) (w_matcher x) (w_seq x) (w_timeout x)) \/
  (exists n o, In (WWaiter n a (w_id x)) (w_log w) /\ the_op w n = Some o /\ reply_number (op_job o) <> None /\
     makes_waiter (op_job o) (w_matcher x) (w_seq x) (w_timeout x)).
Proof. exact world_waiters. Qed.
Print Assumptions C147_waiters_of_links.
(** Start-up itself waits for nothing but the list of endpoints (10 s) and the announcement that the stick has become the coordinator (60 s). *)
Theorem C147_start_up : forall auto c devs tr f m ms, runs (app_startup auto c devs) tr f -> In (AListen m ms) tr ->
  m = mk_matcher AREQ ZDO "activeEpRsp" [] /\ ms = 10000 \/ m = mk_matcher AREQ ZDO "stateChangeInd" [("state", VInt 9)] /\ ms = 60000.
Proof. exact app_waits. Qed.
Print Assumptions C147_start_up.

(** a request for a descriptor (its reply, its response), a wait, a network start, a reset *)
Example C147_inhabited :
  map (fun w => (m_cmd (w_matcher w), w_timeout w, w_seq w)) (s_waiters (run [ECall (lit_desc_req 7); ERun 0; ECall (JWaitFor (mk_matcher AREQ ZDO "leaveInd" []) 5); ERun 1] PropsMachine.lit_start)) =
    [("nodeDescRsp", 10000, Some 7); ("nodeDescReq", 6000, None); ("leaveInd", 5, None)] /\
  map (fun w => (m_cmd (w_matcher w), w_timeout w, w_seq w)) (s_waiters (run [ECall (JCommand ZDO "startupFromApp" [("startdelay", VInt 100)] [0]); ERun 0] PropsMachine.lit_start)) =
    [("startupFromApp", 20000, None)] /\
  map (fun w => (m_cmd (w_matcher w), w_timeout w, w_seq w)) (s_waiters (run [ECall (JCommand SYS "resetReq" [("type", VInt 1)] [0]); ERun 0] PropsMachine.lit_start)) =
    [("resetInd", 30000, None)].
Proof. vm_compute. repeat split. Qed.
(** the reply waiter of an operation that was then refused for want of the version *)
Example C147_links_inhabited :
  let w := lit_world [VLife (VStartup (Ok tt)); VLife (VGo 0 (Ok tt)); VCall (lit_desc_req 7); VRun 0] in
  map (fun s => map (fun x => (m_cmd (w_matcher x), w_timeout x)) (s_waiters s)) (w_apis w) = [[("nodeDescRsp", 10000)]].
Proof. vm_compute. reflexivity. Qed.
(** a start-up with a stick that has not joined its network yet *)
Definition lit_idle : device :=
  mk_device (fun sub cmd d => if String.eqb cmd "getDeviceInfo" then [("status", VInt 0); ("ieeeaddr", VEui lit_ieee); ("shortaddr", VInt 0); ("devicestate", VInt 0)]
                              else dv_answer (lit_dongle true 0) sub cmd d) (dv_indication (lit_dongle true 0)).
Example C147_start_up_inhabited :
  let x := exec lit_idle 200 (app_startup true lit_net lit_known) lit_empty in
  match fin_of x with Returned _ => true | _ => false end = true /\ flat_map (fun y => match y with AListen m ms => [(m_cmd m, ms)] | _ => [] end) (trace_of x) = [("stateChangeInd", 60000); ("activeEpRsp", 10000)].
Proof. vm_compute. split; reflexivity. Qed.
