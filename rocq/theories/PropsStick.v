(** * PropsStick: property C148, what the stick reads *)
From Verif Require Import Base Types Uart Buffalo CmdTable Zpi Api App Machine Life World Port SpecWire SpecCodec SpecMachine SpecWorld SpecStick
  MachineInv4 MachineInv5 WorldInv WorldBase WorldProgress2 StickProofs PropsApp PropsMachine PropsMachine5 PropsWorld.

(** ** C148.  A stick that reads its line as TI's receiver does reads, after the byte that is written when the port is opened, one message
    for every request that was written, in that order, and is then ready for the next. *)
Theorem C148_stick_reads : forall cap s, 0 <= cap -> reachable cap s ->
  exists ms, read_bytes RStart (port_bytes s) = (RStart, ms) /\ Forall2 (asked_by s) (writers (s_log s)) ms.
Proof. intros cap s Hc R. apply stick_reads, (I_wrote _ _ (reachable_inv cap s Hc R)). Qed.
Print Assumptions C148_stick_reads.
(** Across losses of the connection: on every link. *)
Theorem C148_on_every_link : forall w a s, wreachable w -> nth_error (w_apis w) a = Some s ->
  exists ms, read_bytes RStart (port_bytes s) = (RStart, ms) /\ Forall2 (asked_by s) (writers (s_log s)) ms.
Proof. intros w a s R A. apply stick_reads, (V_wrote _ (wreach_winv w a s R A)). Qed.
Print Assumptions C148_on_every_link.
(** Nothing else goes out: the byte EF, then the frames that were written. *)
Theorem C148_bytes : forall w a s, wreachable w -> nth_error (w_apis w) a = Some s -> port_bytes s = 239 :: concat (written_bytes (s_log s)).
Proof. intros w a s R A. unfold port_bytes. rewrite (proj1 (V_wrote _ (wreach_winv w a s R A))). reflexivity. Qed.
Print Assumptions C148_bytes.
(** Whatever part [p] of the bytes has arrived: the messages read so far are the first requests. *)
Theorem C148_so_far : forall w a s p q, wreachable w -> nth_error (w_apis w) a = Some s -> port_bytes s = p ++ q ->
  exists r ms, read_bytes RStart p = (r, ms) /\ Forall2 (asked_by s) (firstn (length ms) (writers (s_log s))) ms.
Proof. intros w a s p q R A. apply stick_reads_so_far, (V_wrote _ (wreach_winv w a s R A)). Qed.
Print Assumptions C148_so_far.
(** The message of a command carries the command's number and, encoded as the table says, the parameters it was called with. *)
Theorem C148_commands : forall s t k m sub cs c ps pl d w, asked_by s t m -> get s t = Some k -> t_job k = JCommand sub (c_name c) d w ->
  definition sub = Ok cs -> In c cs -> c_request c = Some ps -> payload_fits None ps pl -> SpecCodec.holds d pl ->
  exists body, m = (32 * type_code (c_type c) + sub_code sub, c_ID c, body) /\ payload_wire None ps pl body.
Proof. exact stick_reads_command. Qed.
Print Assumptions C148_commands.
(** The receiver is not fooled by noise before a frame, and forgets a damaged frame. *)
Theorem C148_receiver : forall noise ct sub id data b, ~ In 254 noise -> 
  read_bytes RStart (noise ++ wire ct sub id data) = (RStart, [(32 * ct + sub, id, data)]) /\
  (b <> last (wire ct sub id data) 0 -> read_bytes RStart (noise ++ removelast (wire ct sub id data) ++ [b]) = (RStart, [])).
Proof. exact receiver_reads. Qed.
Print Assumptions C148_receiver.

(** a request for a descriptor, a ping while it is out, the ping is written after the first was cancelled *)
Example C148_inhabited :
  let s := run [ECall (lit_desc_req 7); ERun 0; ECall lit_ping; ERun 1; ECancel 0; ERun 1] PropsMachine.lit_start in
  port_bytes s = [239; 254; 4; 37; 2; 52; 18; 52; 18; 35; 254; 0; 33; 1; 32] /\ writers (s_log s) = [0; 1] /\
  read_bytes RStart (port_bytes s) = (RStart, [(37, 2, [52; 18; 52; 18]); (33, 1, [])]) /\
  read_bytes RStart (firstn 12 (port_bytes s)) = (RFirst 0, [(37, 2, [52; 18; 52; 18])]).
Proof. vm_compute. repeat split. Qed.
Example C148_commands_inhabited :
  let s := run [ECall lit_led; ERun 0] PropsMachine.lit_start in
  asked_by s 0 (39, 10, [3; 1]) /\ read_bytes RStart (port_bytes s) = (RStart, [(39, 10, [3; 1])]) /\
  exists c, In c def_UTIL /\ c_name c = "ledControl"%string /\ c_request c = Some [("ledid"%string, UINT8); ("mode"%string, UINT8)].
Proof.
  split; [eexists; eexists; eexists; split; [vm_compute; reflexivity|split; [vm_compute; reflexivity|split; [vm_compute; reflexivity|vm_compute; reflexivity]]]|].
  split; [vm_compute; reflexivity|].
  exists (nth 0 (filter (fun c => c_ID c =? 10) def_UTIL) (mk_cmd "" 0 SREQ None None)).
  split; [vm_compute; repeat (first [left; reflexivity|right])|]. split; reflexivity.
Qed.
(** after a reconnect: what the second port carries *)
Example C148_links_inhabited :
  let w := lit_world (lit_up ++ [VCall (lit_send 1); VRun 0] ++ lit_down ++ lit_back ++ [VCall (lit_send 2); VRun 1]) in
  map (fun s => length (snd (read_bytes RStart (port_bytes s)))) (w_apis w) = [1; 1]%nat.
Proof. vm_compute. reflexivity. Qed.
Example C148_receiver_inhabited :
  read_bytes RStart ([1; 239] ++ wire 1 1 10 [5; 6]) = (RStart, [(33, 10, [5; 6])]) /\ read_bytes RStart [254; 2; 33; 10; 5; 6; 43] = (RStart, []).
Proof. vm_compute. split; reflexivity. Qed.
