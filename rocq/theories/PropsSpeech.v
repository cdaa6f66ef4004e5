(** * PropsSpeech: everything a start-up says, byte by byte and in order (C152) *)
From Verif Require Import Base Types Uart Buffalo CmdTable Zpi Api App SpecWire SpecCodec SpecMachine Nv StartZnp SpecStart AppStart StartExec SpecSpeech SpeechProofs
  PropsStart.

(** ** C152.  The frames of the requests of an execution, in order, are a sequence that SpecSpeech.v lists if the program
    returns, and the beginning of one however else it ends. *)
Theorem C152_start_says : forall v o group backup tr f, wf_options o -> 0 <= group < 65536 -> runs (start_znp (version_of v) o group backup) tr f ->
  exists fs, uttered tr fs /\ match f with Returned _ => says (starting v o group) fs | _ => begins (starting v o group) fs end.
Proof. intros v o g b tr f W G R. exact (start_talks v o g W G b tr f R). Qed.
Print Assumptions C152_start_says.
Theorem C152_form_says : forall v c tr f, valid_config c -> runs (form_network (version_of v) c) tr f ->
  exists fs, uttered tr fs /\ match f with Returned _ => says (forming v (network_options c)) fs | _ => begins (forming v (network_options c)) fs end.
Proof. intros v c tr f V R. exact (form_says v c V tr f R). Qed.
Print Assumptions C152_form_says.
Theorem C152_startup_says : forall auto c devs tr f, valid_config c -> runs (app_startup auto c devs) tr f -> exists v fs, uttered tr fs /\
  match f with
  | Returned rd => rd_product rd = version_of v /\ says (beginning auto v (network_options c)) fs
  | _ => begins (beginning auto v (network_options c)) fs
  end.
Proof. exact app_says. Qed.
Print Assumptions C152_startup_says.
(** The frames are determined by the execution, so none of this depends on which are chosen. *)
Theorem C152_one_reading : forall tr fs gs, uttered tr fs -> uttered tr gs -> fs = gs.
Proof. exact uttered_once. Qed.
Print Assumptions C152_one_reading.

(** an empty Z-Stack 1.2 stick of which endpoint 8 is active already *)
Example C152_inhabited :
  let x := exec (lit_stick 0 0 [8]) 100 (lit_start Stack12 lit_options) lit_empty in
  fin_of x = Returned Restored /\ length (filter speaking (trace_of x)) = 33%nat /\
  exists fs, uttered (trace_of x) fs /\ says (starting Stack12 lit_options 2948) fs /\ nth 24 fs [] = [254; 13; 36; 0; 11; 4; 1; 0; 4; 0; 0; 0; 2; 0; 5; 2; 5; 35].
Proof.
  set (x := exec _ _ _ _). assert (E : fin_of x = Returned Restored) by (vm_compute; reflexivity).
  split; [exact E|]. split; [vm_compute; reflexivity|]. apply exec_runs in E as [R _].
  destruct (C152_start_says Stack12 lit_options 2948 false _ _ lit_options_wf ltac:(lia) R) as (fs & U & S). exists fs. split; [exact U|]. split; [exact S|].
  assert (L : exists r, nth_error (filter speaking (trace_of x)) 24 = Some (ARequest AF "register" (ep_vars (mk_endpoint 11 260 1024 0 [] 2 [1280; 1282])) [0] r)) by (eexists; vm_compute; reflexivity).
  destruct L as (r & L).
  destruct (Forall2_nth_error _ _ _ U _ _ L) as (bs & N & (o & F & P)). rewrite (nth_error_nth _ _ _ N). injection F as <-. destruct P as (f & F1 & F2).
  vm_compute in F1. injection F1 as <-. vm_compute in F2. injection F2 as <-. vm_compute. reflexivity.
Qed.
