(** * PropsStart3: the order of the changes that a start makes (C95) *)
From Verif Require Import Base Types Buffalo Zpi Api SpecCodec SpecMachine Nv StartZnp SpecStart StartExec
  StartProofs StartProofs10 PropsStart.

(** ** C95 *)
Theorem C95_order_of_changes : forall v o group backup tr f, wf_options o ->
  runs (start_znp (version_of v) o group backup) tr f ->
  (exists done todo more, script v o = done ++ todo /\ changes tr = done ++ more /\
     (more = [] \/ todo = [] /\ more = [Writes 132 (le4 (o_channels o))])) /\
  in_turn tr /\
  (forall r, f = Returned r -> changes tr = whole v o r).
Proof. exact start_changes. Qed.
Print Assumptions C95_order_of_changes.
(** an empty stick: everything is done; a start that is cut off within; what the script is *)
Example C95_inhabited :
  let x := exec (lit_stick 9 0 [1]) 100 (lit_start Stack12 lit_options) lit_empty in
  let y := exec (lit_stick 9 0 [1]) 8 (lit_start Stack12 lit_options) lit_empty in
  fin_of x = Returned Restored /\ changes (trace_of x) = script Stack12 lit_options ++ [Writes 132 [0; 8; 0; 0]] /\
  length (script Stack12 lit_options) = 13%nat /\
  fin_of y = Interrupted /\ changes (trace_of y) = [ResetsStick; Writes 3 [2]; ResetsStick; Writes 135 [0]; Writes 99 [0]; Writes 143 [1]].
Proof. vm_compute. repeat split. Qed.
