(** * PropsWhole: the application whose start-ups make their requests themselves (C124-C133)
    The course of every start-up, of the user's and of the reconnect loops', is now part of the model; all that is given
    from outside is what the links bring, when time passes, who gets its turn, and what the user does. *)
From Verif Require Import Base Types Uart Buffalo CmdTable Zpi Api App Machine Life World SpecWire SpecCodec SpecMachine SpecLife SpecWorld
  Nv StartZnp AppStart SpecStart SpecAppStart Host SpecHost Whole SpecWhole PropsApp PropsMachine PropsStart PropsHost PropsAppStart PropsWorld
  WholeProofs4 WholeProofs5 WholeTime WholeParts WholeInd WholeProofs6.

(** ** Literals *)
(** start-up [t] makes its next request, task [u] of API object [a], and receives [r] *)
Definition lit_ask (t a : nat) (u : Z) (r : list Z) : list xevent :=
  [XGo t; XGo t; XWorld (VTask a u); XWorld (VReceive a r); XWorld (VTask a u); XGo t].
Definition lit_asks (t a : nat) (u : Z) (rs : list (list Z)) : list xevent :=
  concat (map (fun '(n, r) => lit_ask t a (u + n) r) (combine (map Z.of_nat (List.seq 0 (length rs))) rs)).
Definition lit_pinged : list Z := wire 3 1 1 [121; 1].
Definition lit_version (product : Z) : list Z := wire 3 1 2 [2; product; 2; 7; 1; 0; 0; 0; 0].
Definition lit_info : list Z := wire 3 7 0 ([0] ++ lit_ieee ++ [0; 0; 7; 9; 0]).
Definition lit_opened : list xevent := [XStartup true (Ok tt); XWorld (VTick 1000); XWorld (VLife (VGo 0 (Ok tt)))].
(** an empty stick, up to the marker *)
Definition lit_setting : list xevent :=
  lit_opened ++
  lit_asks 0 0 0 [lit_pinged; lit_version 0; wire 3 1 8 [2; 0]; wire 3 1 8 [2; 0]; lit_reset; lit_written; lit_reset; lit_written; lit_written; lit_written;
                  lit_written; lit_written; lit_written; wire 3 6 5 [0]; lit_written; wire 3 1 7 [9]].
(** the stick is coordinator, has all endpoints and is in the group; [u]: the next task *)
Definition lit_rest (t a : nat) (u : Z) (more : list (list Z)) : list xevent :=
  lit_asks t a u [lit_info] ++ [XGo t; XGo t] ++ lit_ask t a (u + 2) (wire 3 5 5 [0]) ++
  [XGo t; XWorld (VReceive a (wire 2 5 133 ([0; 0; 0; 0; 0; 13] ++ required_endpoints))); XWorld (VTask a (u + 1)); XGo t] ++
  lit_asks t a (u + 3) (wire 3 5 74 [0; 0; 0; 0] :: more).
Definition lit_end (t a : nat) (u : Z) : list xevent := [XGo t; XGo t] ++ lit_ask t a (u + 1) lit_info ++ [XGo t; XGo t].
Definition lit_well : list xevent := lit_setting ++ lit_ask 0 0 16 lit_written ++ lit_rest 0 0 17 [lit_written] ++ lit_end 0 0 22.
(** the connection is lost and made again *)
Definition lit_lost : list xevent :=
  [XWorld (VLife (VLost 0)); XWorld (VLife (VGo 1 (Ok tt))); XWorld (VTick 5000); XWorld (VLife (VGo 1 (Ok tt))); XWorld (VTick 1000); XWorld (VLife (VGo 1 (Ok tt)))].
Definition lit_same : list xevent :=
  lit_asks 1 1 0 [lit_pinged; lit_version 0; wire 3 1 8 [0; 1; 85]; wire 3 1 8 [0; 1; 85]; wire 3 1 8 ([0; 4] ++ le4 2048); wire 3 1 8 [0; 1; 0];
                  wire 3 6 4 ([0; 98; 16] ++ o_key (network_options lit_net)); wire 3 1 8 ([0; 2] ++ le2 4660); wire 3 1 8 ([0; 8] ++ [1; 2; 3; 4; 5; 6; 7; 8])] ++
  lit_rest 1 1 9 [] ++ lit_end 1 1 13.
Definition lit_whole (es : list xevent) : whole := whole_run lit_net es (whole_init lit_known).
Lemma lit_whole_reachable es : xreachable lit_net (lit_whole es).
Proof. exists lit_known, es. reflexivity. Qed.
Definition named (d : deed) : nat * Z * string :=
  let '(a, u, y) := d in (a, u, match y with ARequest _ c _ _ _ | ASpawn _ c _ => c | AListen _ _ => "listen" | AAwait _ _ => "await" end).
Definition told (o : xobs) : nat * Z * list (nat * Z * string) * option (result unit) :=
  match o with XTries t a => (t, a, [], None) | XOver t _ ds r a => (t, a, map named ds, Some r) end.
Definition deeds_over (x : whole) (t : nat) : list deed := concat (map (fun o => match o with XOver u _ ds _ _ => if Nat.eqb u t then ds else [] | _ => [] end) (x_log x)).

(** ** C124.  A start-up that succeeded *)
(** It pinged, asked for the version, formed the network if asked to (switching the LED off after that) and asked for the
    coordinator's addresses; the semaphore and the table entry that it left come from the answers. *)
Theorem C124_successful_startup : forall c x t auto ds at_, xreachable c x -> In (XOver t auto ds (Ok tt) at_) (x_log x) ->
  exists a1 u1 m1 a2 u2 m2 forming a4 u4 m4 v i n q,
    ds = (a1, u1, ARequest SYS "ping" [("capabilities", VInt 1)] [0] (Some (Ok m1))) :: (a2, u2, ARequest SYS "version" [] [0] (Some (Ok m2))) ::
         forming ++ [(a4, u4, ARequest UTIL "getDeviceInfo" [] [0] (Some (Ok m4)))] /\
    dict_get (z_payload m2) "product" = Some (VInt (version_of v)) /\
    dict_get (z_payload m4) "ieeeaddr" = Some (VEui i) /\ dict_get (z_payload m4) "shortaddr" = Some (VInt n) /\
    In (WNewSem q (if version_of v =? 1 then 16 else 2)) (w_log (x_world x)) /\ In (WAdded i n) (w_log (x_world x)) /\
    if auto
    then exists a3 l led tr r, forming = made_to a3 l ++ led /\ Forall2 like (map snd l) tr /\
      runs (start_znp (version_of v) (network_options c) 2948 false) tr (Returned r) /\
      (led = [] \/ exists a u, led = [(a, u, ASpawn UTIL "ledControl" (led_payload 0))])
    else forming = [].
Proof. exact well_course. Qed.
Print Assumptions C124_successful_startup.
(** What any start-up, over or under way, was told: answers were received while its own request was outstanding on that
    link, what it awaited was received on that link. *)
Theorem C124_told_over_the_link : forall c x t auto ds a u y, xreachable c x -> attempted x t auto ds -> In (a, u, y) ds ->
  match y with
  | ARequest sub cmd d _ (Some (Ok m)) => exchanged u sub cmd d m (history (x_world x) a)
  | ARequest sub cmd d _ (Some (Err e)) => In (OEnded u (OExn e)) (history (x_world x) a)
  | AAwait m (Ok r) => In (OReceived r) (history (x_world x) a)
  | AAwait m (Err e) => In (OEnded u (OExn e)) (history (x_world x) a)
  | _ => True
  end.
Proof. exact attempt_evidence. Qed.
Print Assumptions C124_told_over_the_link.
Definition lit_twice : whole := lit_whole (lit_well ++ lit_lost ++ lit_same).
Definition course : list string :=
  ["ping"; "version"; "osalNvRead"; "osalNvRead"; "osalNvRead"; "osalNvRead"; "readConfiguration"; "osalNvRead"; "osalNvRead"; "getDeviceInfo"; "listen"; "activeEpReq"; "await";
   "extFindGroup"; "ledControl"; "getDeviceInfo"].
Lemma lit_twice_over : In (XOver 1 true (deeds_over lit_twice 1) (Ok tt) 7000) (x_log lit_twice).
Proof. vm_compute. do 3 right. left. reflexivity. Qed.
Example C124_inhabited :
  In (XOver 1 true (deeds_over lit_twice 1) (Ok tt) 7000) (x_log lit_twice) /\ map (fun d => snd (named d)) (deeds_over lit_twice 1) = course /\
  In (WNewSem 1 2) (w_log (x_world lit_twice)) /\ In (WAdded lit_ieee 0) (w_log (x_world lit_twice)).
Proof. split; [exact lit_twice_over|]. vm_compute. split; [reflexivity|]. split; repeat (first [left; reflexivity|right]). Qed.

(** ** C125.  Across lost connections too a start-up follows the program of C81-C86. *)
(** Up to where the LED command comes and which message ended a wait, what it did is a run of that program. *)
Theorem C125_ended : forall c x t auto ds r at_ devs, xreachable c x -> In (XOver t auto ds r at_) (x_log x) ->
  exists tr f, runs (app_startup auto c devs) tr f /\ Forall2 like (but_led (map snd ds)) (but_led tr) /\ same_end f r.
Proof. exact over_simulates. Qed.
Print Assumptions C125_ended.
Theorem C125_under_way : forall c x t auto ds devs, xreachable c x -> attempted x t auto ds ->
  exists tr, runs (app_startup auto c devs) tr Interrupted /\ Forall2 like (but_led (map snd ds)) (but_led tr).
Proof. exact going_simulates. Qed.
Print Assumptions C125_under_way.
(** a second start-up that was refused in the middle, after the connection was lost *)
Definition lit_refused : whole :=
  lit_whole (lit_well ++ lit_lost ++ lit_asks 1 1 0 [lit_pinged; lit_version 0; wire 3 1 8 [0; 1; 85]; wire 3 1 8 [0; 1; 85]; wire 3 1 8 [2; 0]] ++ [XGo 1]).
Example C125_inhabited : map told (skipn 2 (x_log lit_refused)) =
  [(1%nat, 6000, [], None);
   (1%nat, 7000, [(1%nat, 0, "ping"); (1%nat, 1, "version"); (1%nat, 2, "osalNvRead"); (1%nat, 3, "osalNvRead"); (1%nat, 4, "osalNvRead")], Some (Err (CommandError 2)))].
Proof. vm_compute. reflexivity. Qed.

(** ** C126.  What the application knows comes from the stick. *)
Theorem C126_semaphores : forall c x q n, xreachable c x -> In (WNewSem q n) (w_log (x_world x)) ->
  exists a u m p, exchanged u SYS "version" [] m (history (x_world x) a) /\ dict_get (z_payload m) "product" = Some (VInt p) /\ n = if p =? 1 then 16 else 2.
Proof. exact sem_source. Qed.
Print Assumptions C126_semaphores.
Theorem C126_coordinator : forall c x i n, xreachable c x -> In (WAdded i n) (w_log (x_world x)) ->
  exists a u m, exchanged u UTIL "getDeviceInfo" [] m (history (x_world x) a) /\ dict_get (z_payload m) "ieeeaddr" = Some (VEui i) /\ dict_get (z_payload m) "shortaddr" = Some (VInt n).
Proof. exact device_source. Qed.
Print Assumptions C126_coordinator.
(** start-ups of the reconnect loop form the network if it is not there *)
Theorem C126_reconnect_forms : forall c x t auto ds k, xreachable c x -> attempted x t auto ds ->
  nth_error (y_tasks (w_life (x_world x))) t = Some k -> k_loop k = true -> auto = true.
Proof. exact reconnect_forms. Qed.
Print Assumptions C126_reconnect_forms.
Example C126_inhabited :
  In (WNewSem 1 2) (w_log (x_world lit_twice)) /\ In (WAdded lit_ieee 0) (w_log (x_world lit_twice)) /\ attempted lit_twice 1 true (deeds_over lit_twice 1) /\
  nth_error (y_tasks (w_life (x_world lit_twice))) 1 = Some (mk_coroutine true (KEnd (Ok tt))).
Proof.
  destruct C124_inhabited as (_ & _ & A & B). split; [exact A|]. split; [exact B|]. split; [left; exists (Ok tt), 7000; exact lit_twice_over|vm_compute; reflexivity].
Qed.

(** ** C127.  The configured mark comes last, whatever happens to the connections. *)
(** Every frame with which a start-up writes the configured mark comes after frames of the same start-up on the same link
    that stored all settings and were acknowledged. *)
Theorem C127_marker_last : forall c x t auto ds a u y at_ bs la lb v e, valid_config c -> xreachable c x -> attempted x t auto ds -> In (a, u, y) ds ->
  history (x_world x) a = la ++ OWritten u at_ bs :: lb -> In bs (item_frames (marker v) e) ->
  e = set_mark /\
  forall i b, In (i, b) (settings v (network_options c)) -> exists u' y' at' bs' lb' m,
    In (a, u', y') ds /\ In bs' (item_frames i b) /\ outstanding u' at' bs' lb' la /\ In (OReceived m) lb' /\ stored_ok m.
Proof. exact marker_last_attempt. Qed.
Print Assumptions C127_marker_last.
Definition lit_marking : whole := lit_whole (lit_setting ++ [XGo 0; XGo 0; XWorld (VTask 0 16)]).
Example C127_inhabited : exists ds y la, attempted lit_marking 0 true ds /\ In (0%nat, 16, y) ds /\
  history (x_world lit_marking) 0 = la ++ [OWritten 16 1000 (wire 1 1 9 [0; 15; 0; 1; 85])] /\ In (wire 1 1 9 [0; 15; 0; 1; 85]) (item_frames (marker Stack12) [85]).
Proof.
  eexists _, _, (removelast (history (x_world lit_marking) 0)). split; [right; eexists; split; [vm_compute; reflexivity|]; split; vm_compute; reflexivity|].
  split; [vm_compute; do 16 right; left; reflexivity|]. split; [vm_compute; reflexivity|left; vm_compute; reflexivity].
Qed.

(** ** C128.  Reconnecting to a stick that has the settings changes nothing; forming makes a stick that has them. *)
Theorem C128_left_alone : forall c x t auto ds v s s', valid_config c -> xreachable c x -> attempted x t auto ds -> stick s (map snd ds) s' ->
  (forall p, reports (map snd ds) p -> p = version_of v) -> auto = false \/ accepted v (network_options c) s ->
  s' = s /\ Forall harmless (map snd ds) /\
  forall a u y at_ bs ct sub id data, In (a, u, y) ds -> In (OWritten u at_ bs) (history (x_world x) a) -> In (ct, sub, id) changing -> bs <> wire ct sub id data.
Proof. exact attempt_untouched. Qed.
Print Assumptions C128_left_alone.
Theorem C128_formed : forall c x t ds at_ s s', valid_config c -> xreachable c x -> In (XOver t true ds (Ok tt) at_) (x_log x) -> stick s (map snd ds) s' ->
  exists v, (forall p, reports (map snd ds) p <-> p = version_of v) /\
    (accepted v (network_options c) s /\ s' = s \/ ~ accepted v (network_options c) s /\ config_matches v (network_options c) s').
Proof. exact well_formed_network. Qed.
Print Assumptions C128_formed.
Example C128_inhabited : attempted lit_twice 1 true (deeds_over lit_twice 1) /\
  accepted Stack12 (network_options lit_net) (lit_config Stack12 (network_options lit_net)) /\
  stick (lit_config Stack12 (network_options lit_net)) (map snd (deeds_over lit_twice 1)) (lit_config Stack12 (network_options lit_net)) /\
  (forall p, reports (map snd (deeds_over lit_twice 1)) p -> p = version_of Stack12).
Proof.
  assert (E : exists l, map snd (deeds_over lit_twice 1) = l) by eauto. destruct E as [l E].
  split; [left; exists (Ok tt), 7000; exact lit_twice_over|]. split; [vm_compute; repeat split; left; reflexivity|]. rewrite E. vm_compute in E. subst l. split.
  - repeat (apply (stick_cons _ _ (lit_config Stack12 (network_options lit_net))); [first [reflexivity|split; [reflexivity|vm_compute; repeat split]]|]). constructor.
  - intros p (d & y & m & H & D). cbn [In] in H. repeat (destruct H as [H|H]; [try discriminate H; injection H as <- <- <-; vm_compute in D; injection D as <-; reflexivity|]). contradiction.
Qed.

(** ** C129 (false): all requests of one start-up are made to one API object. *)
(** Two start-ups, one called shortly after the other: the first one pings over its own link and asks the other's for the version. *)
Definition lit_overlap : whole :=
  lit_whole ([XStartup true (Ok tt); XWorld (VTick 500); XStartup true (Ok tt); XWorld (VTick 500); XWorld (VLife (VGo 0 (Ok tt)));
              XGo 0; XWorld (VTask 0 0); XWorld (VTick 500); XWorld (VLife (VGo 1 (Ok tt))); XWorld (VReceive 0 lit_pinged); XWorld (VTask 0 0); XGo 0] ++ lit_ask 0 1 0 (lit_version 0)).
Theorem C129_one_link_refuted :
  ~ (forall c x t auto ds a u y b u' y', xreachable c x -> attempted x t auto ds -> In (a, u, y) ds -> In (b, u', y') ds -> a = b).
Proof.
  intro H. assert (A : attempted lit_overlap 0 true (b_deeds (x_boots lit_overlap 0))) by (right; eexists; split; [vm_compute; reflexivity|]; split; vm_compute; reflexivity).
  assert (K : exists u y u' y', In (0%nat, u, y) (b_deeds (x_boots lit_overlap 0)) /\ In (1%nat, u', y') (b_deeds (x_boots lit_overlap 0))).
  { eexists _, _, _, _. split; vm_compute; [left; reflexivity|right; left; reflexivity]. }
  destruct K as (u & y & u' & y' & K1 & K2). discriminate (H lit_net lit_overlap 0%nat true _ 0%nat u y 1%nat u' y' (lit_whole_reachable _) A K1 K2).
Qed.
Print Assumptions C129_one_link_refuted.
(** What holds: ping, version, forming the network, the LED command, and the addresses are each made to one API object. *)
Theorem C129_each_part_one_link_partial : forall c x t auto ds, xreachable c x -> attempted x t auto ds -> exists a1 p1 a2 p2 a3 p3 led a4 p4,
  ds = made_to a1 p1 ++ made_to a2 p2 ++ made_to a3 p3 ++ led ++ made_to a4 p4 /\
  only SYS "ping" p1 /\ only SYS "version" p2 /\ only UTIL "getDeviceInfo" p4 /\
  (p3 = [] /\ led = [] \/
   auto = true /\ (led = [] \/ exists a u, led = [(a, u, ASpawn UTIL "ledControl" (led_payload 0))]) /\
   exists v tr f, reports (map snd p2) (version_of v) /\ Forall2 like (map snd p3) tr /\ runs (start_znp (version_of v) (network_options c) 2948 false) tr f).
Proof. exact attempt_parts. Qed.
Print Assumptions C129_each_part_one_link_partial.

(** ** C130.  To which API object a start-up talks. *)
Theorem C130_parts : forall c x t auto ds, xreachable c x -> attempted x t auto ds -> exists a1 p1 a2 p2 a3 p3 led a4 p4,
  ds = made_to a1 p1 ++ made_to a2 p2 ++ made_to a3 p3 ++ led ++ made_to a4 p4 /\
  only SYS "ping" p1 /\ only SYS "version" p2 /\ only UTIL "getDeviceInfo" p4 /\
  (p3 = [] /\ led = [] \/
   auto = true /\ (led = [] \/ exists a u, led = [(a, u, ASpawn UTIL "ledControl" (led_payload 0))]) /\
   exists v tr f, reports (map snd p2) (version_of v) /\ Forall2 like (map snd p3) tr /\ runs (start_znp (version_of v) (network_options c) 2948 false) tr f).
Proof. exact attempt_parts. Qed.
Print Assumptions C130_parts.
(** A part that is under way after a step was under way before, on the same API object, or it is made to the one that the
    application has now. *)
Theorem C130_current : forall c x e t p, xreachable c x -> b_part (x_boots (whole_step c e x) t) = Some p ->
  (exists p0, b_part (x_boots x t) = Some p0 /\ r_api p0 = r_api p) \/ y_cur (w_life (x_world (whole_step c e x))) = Some (r_api p).
Proof. intros c x e t p R. exact (part_current c x e t R p). Qed.
Print Assumptions C130_current.
Example C130_inhabited : map named (b_deeds (x_boots lit_overlap 0)) = [(0%nat, 0, "ping"); (1%nat, 0, "version")] /\
  exists p, b_part (x_boots lit_overlap 0) = Some p /\ r_api p = 1%nat.
Proof. split; [vm_compute; reflexivity|]. eexists. split; vm_compute; reflexivity. Qed.

(** ** C131.  Start-up is not tried more than once in five seconds. *)
(** [l1] is older.  Whatever a coroutine did before - trying or failing - its next try comes at least 5 s later. *)
Theorem C131_five_seconds : forall c x t a b l1 o l2, xreachable c x -> x_log x = l1 ++ o :: l2 -> noted t a o -> In (XTries t b) l2 -> a + 5000 <= b.
Proof. exact tries_apart. Qed.
Print Assumptions C131_five_seconds.
(** after a refused start-up the loop tries again, first in vain, then once more *)
Definition lit_retries : whole :=
  whole_run lit_net [XWorld (VTick 4000); XWorld (VLife (VGo 1 (Ok tt))); XWorld (VTick 1000); XWorld (VLife (VGo 1 (Err SerialException)));
                     XWorld (VTick 6000); XWorld (VLife (VGo 1 (Ok tt)))] lit_refused.
Example C131_inhabited : map told (skipn 4 (x_log lit_retries)) = [(1%nat, 12000, [], None); (1%nat, 18000, [], None)] /\ map told (skipn 3 (x_log lit_refused)) =
  [(1%nat, 7000, [(1%nat, 0, "ping"); (1%nat, 1, "version"); (1%nat, 2, "osalNvRead"); (1%nat, 3, "osalNvRead"); (1%nat, 4, "osalNvRead")], Some (Err (CommandError 2)))].
Proof. vm_compute. split; reflexivity. Qed.

(** ** C132.  How the end of a start-up reaches its caller *)
(** [l1] is older.  After an attempt that ended well, or that the user called, the coroutine ends with the attempt's outcome
    and tries no more. *)
Theorem C132_last_attempt : forall c x l1 l2 t auto ds r at_ k, xreachable c x -> x_log x = l1 ++ XOver t auto ds r at_ :: l2 ->
  nth_error (y_tasks (w_life (x_world x))) t = Some k -> k_loop k = false \/ r = Ok tt -> k_stage k = KEnd r /\ forall o a, In o l2 -> ~ noted t a o.
Proof. exact attempt_last. Qed.
Print Assumptions C132_last_attempt.
(** a reconnect loop whose attempt failed closes the application's API object and goes on waiting *)
Theorem C132_retried : forall c x t auto ds e at_ k, xreachable c x -> In (XOver t auto ds (Err e) at_) (x_log x) ->
  nth_error (y_tasks (w_life (x_world x))) t = Some k -> k_loop k = true -> e <> CancelledError ->
  exists l1 l2, filter (about t) (y_log (w_life (x_world x))) = l1 ++ LResult t (Err e) :: LClose t :: l2.
Proof. exact attempt_retried. Qed.
Print Assumptions C132_retried.
Theorem C132_always_retried : forall c x t k e l1 l2, xreachable c x -> nth_error (y_tasks (w_life (x_world x))) t = Some k -> k_loop k = true ->
  e <> CancelledError -> filter (about t) (y_log (w_life (x_world x))) = l1 ++ LResult t (Err e) :: l2 -> exists l3, l2 = LClose t :: l3.
Proof. exact always_retried. Qed.
Print Assumptions C132_always_retried.
Theorem C132_has_a_caller : forall c x t auto ds r at_, xreachable c x -> In (XOver t auto ds r at_) (x_log x) ->
  exists k, nth_error (y_tasks (w_life (x_world x))) t = Some k.
Proof. exact attempt_noted. Qed.
Print Assumptions C132_has_a_caller.
Example C132_inhabited :
  nth_error (y_tasks (w_life (x_world lit_twice))) 1 = Some (mk_coroutine true (KEnd (Ok tt))) /\ map (fun o => snd (told o)) (x_log lit_twice) = [None; Some (Ok tt); None; Some (Ok tt)] /\
  map (fun o => snd (told o)) (x_log lit_refused) = [None; Some (Ok tt); None; Some (Err (CommandError 2))] /\
  filter (about 1) (y_log (w_life (x_world lit_refused))) = [LClose 1; LAttempt 1; LResult 1 (Err (CommandError 2)); LClose 1] /\
  nth_error (y_tasks (w_life (x_world lit_refused))) 1 = Some (mk_coroutine true KSleep).
Proof. vm_compute. repeat split; reflexivity. Qed.

(** ** C133.  Every frame has an author, and only forming start-ups change the stick *)
(** A frame on any link is a request of a start-up, or the message of an operation the user called, or sets the LED. *)
Theorem C133_author : forall c x a u at_ bs, xreachable c x -> In (OWritten u at_ bs) (history (x_world x) a) ->
  (exists t auto ds y, attempted x t auto ds /\ In (a, u, y) ds) \/
  (exists n o z, nth_error (w_ops (x_world x)) n = Some o /\ build (op_job o) = Ok z /\ frame_bytes z bs) \/
  (exists mode, 0 <= mode <= 255 /\ bs = wire 1 7 10 [3; mode]).
Proof. exact frame_author. Qed.
Print Assumptions C133_author.
(** no frame that writes or creates a stored item or resets the stick is on a link unless a start-up that is to form the
    network wrote it *)
Theorem C133_only_forming : forall c x a u at_ bs ct sub id data, xreachable c x -> In (OWritten u at_ bs) (history (x_world x) a) ->
  In (ct, sub, id) changing -> bs = wire ct sub id data -> exists t ds y, attempted x t true ds /\ In (a, u, y) ds.
Proof. intros c x a u at_ bs ct sub id data R H Hc E. eapply only_forming; [exact R|exact H|]. exists ct, sub, id, data. auto. Qed.
Print Assumptions C133_only_forming.
(** so whoever writes the configured mark, it comes last *)
Theorem C133_marker_last : forall c x a u at_ bs la lb v e, valid_config c -> xreachable c x ->
  history (x_world x) a = la ++ OWritten u at_ bs :: lb -> In bs (item_frames (marker v) e) ->
  e = set_mark /\ exists t ds, attempted x t true ds /\ (exists y, In (a, u, y) ds) /\
  forall i b, In (i, b) (settings v (network_options c)) -> exists u' y' at' bs' lb' m,
    In (a, u', y') ds /\ In bs' (item_frames i b) /\ outstanding u' at' bs' lb' la /\ In (OReceived m) lb' /\ stored_ok m.
Proof. exact marker_last_anyone. Qed.
Print Assumptions C133_marker_last.
(** the LED and a request to a device, after a start-up that formed the network *)
Definition lit_use : whole := lit_whole (lit_well ++ [XWorld (VTask 0 22); XWorld (VReceive 0 (wire 3 7 10 [0])); XWorld (VTask 0 22)] ++
  [XWorld (VCall (lit_send 7)); XWorld (VRun 0); XWorld (VRun 0); XWorld (VTask 0 24)]).
Example C133_inhabited : valid_config lit_net /\ In (OWritten 16 1000 (wire 1 1 9 [0; 15; 0; 1; 85])) (history (x_world lit_marking) 0) /\
  In (1, 1, 9) changing /\ In (wire 1 1 9 [0; 15; 0; 1; 85]) (item_frames (marker Stack12) [85]) /\
  In (OWritten 22 1000 (wire 1 7 10 [3; 0])) (history (x_world lit_use) 0) /\ In (OWritten 24 1000 (wire 1 5 2 [52; 18; 52; 18])) (history (x_world lit_use) 0).
Proof.
  split; [exact lit_net_valid|]. split; [vm_compute; member|]. split; [right; left; reflexivity|]. split; [left; vm_compute; reflexivity|]. split; vm_compute; member.
Qed.
