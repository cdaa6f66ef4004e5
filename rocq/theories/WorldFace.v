(** * WorldFace: what the tasks of an API object leave alone *)
From Coq Require Import ZifyBool ZifyNat.
From Verif Require Import Base Types Uart Buffalo CmdTable Zpi Api App Machine Life World SpecMachine
  MachineBase MachineInv MachineInv2 MachineInv3 MachineInv4 MachineInv5 DispatchProofs MachineProofs MachineProofs4 MachineProgress
  WorldInv.

(** port open, application known, clock *)
Definition face (s : st) : bool * bool * Z := (s_open s, s_app s, s_now s).
Lemma face_goto t p s : face (goto t p s) = face s.
Proof. unfold goto. destruct (get s t); reflexivity. Qed.
Lemma face_free_sem j s : face (free_sem j s) = face s.
Proof. rewrite free_sem_nf. reflexivity. Qed.
Lemma face_free_lock t s : face (free_lock t s) = face s.
Proof. unfold free_lock, note. fld. apply face_goto. Qed.
Lemma face_finish t r s : face (finish t r s) = face s.
Proof. unfold finish, note. fld. apply face_goto. Qed.
Lemma face_raw_raise t j e s : face (raw_raise t j e s) = face s.
Proof. unfold raw_raise. rewrite face_finish, face_free_sem. apply face_free_lock. Qed.
Lemma face_raw_return t j r s : face (raw_return t j r s) = face s.
Proof.
  unfold raw_return. destruct (settles j); [rewrite face_goto; apply face_free_lock|].
  rewrite face_finish, face_free_sem. apply face_free_lock.
Qed.
Lemma face_uart_send t f s : face (fst (uart_send t f s)) = face s.
Proof. destruct (uart_send_cases t f s) as [[_ E]|[[_ (bs & _ & E)]|[_ (e & _ & E)]]]; rewrite E; reflexivity. Qed.
Lemma face_send_and_wait t j f m to s : face (send_and_wait t j f m to s) = face s.
Proof.
  unfold send_and_wait. pose proof (face_uart_send t f (wait_for m to None s)) as E.
  destruct (uart_send t f (wait_for m to None s)) as [s1 [r|e]]; cbn [fst] in E;
    [rewrite face_goto|rewrite face_raw_raise]; rewrite E; reflexivity.
Qed.
Lemma face_request_raw t j o s : face (request_raw t j o s) = face s.
Proof.
  unfold request_raw. destruct (to_unpi_frame o) as [f|e]; [|apply face_raw_raise].
  destruct (z_type o); try apply face_raw_raise; [apply face_send_and_wait|].
  destruct (is_reset_command o); [apply face_send_and_wait|]. pose proof (face_uart_send t f s) as E.
  destruct (uart_send t f s) as [s1 [r|e]]; cbn [fst] in E; [rewrite face_raw_return|rewrite face_raw_raise]; exact E.
Qed.
Lemma face_granted t k s : face (granted t k s) = face s.
Proof. unfold granted. destruct (t_obj k); [rewrite face_request_raw|]; unfold note; fld; apply face_goto. Qed.
Lemma face_acquire_lock t k s : face (acquire_lock t k s) = face s.
Proof. unfold acquire_lock. destruct (s_lock s); [|destruct (s_queue s); [apply face_granted|]]; unfold note; fld; apply face_goto. Qed.
Lemma face_acquire_sem t k s : face (acquire_sem t k s) = face s.
Proof.
  unfold acquire_sem. destruct (uses_sem (t_job k)); [destruct (0 <? s_sem s); [|reflexivity]|];
    rewrite face_acquire_lock; unfold note; fld; apply face_goto.
Qed.
Lemma face_start t k s : face (start t k s) = face s.
Proof.
  unfold start. destruct (t_job k); try (rewrite face_goto; reflexivity);
    (destruct (build _) as [ob|?]; [|apply face_finish]; destruct (response_waiter _ ob) as [[[? ?]|]|?]; [| |apply face_finish];
     cbv zeta; rewrite face_acquire_sem; reflexivity).
Qed.
Lemma face_resume t s : face (resume t s) = face s.
Proof.
  unfold resume. destruct (get s t) as [k|]; [|reflexivity]. destruct (t_phase k); try reflexivity.
  - apply face_start.
  - apply face_acquire_sem.
  - destruct (s_lock s); [reflexivity|]. destruct (s_queue s) as [|h q]; [reflexivity|]. destruct (h =? t); [|reflexivity].
    rewrite face_granted. reflexivity.
  - destruct (s_futs s i); try reflexivity. destruct (t_obj k) as [x|]; [|reflexivity]. unfold request_raw_resume.
    destruct (z_type x); try apply face_raw_return. destruct (unexpected_status o (expected_of (t_job k))); [|apply face_raw_return].
    destruct (t_wid k) as [j|]; [|apply face_raw_raise]. destruct (registered s j); [|apply face_raw_raise].
    rewrite complete_nf. rewrite face_raw_raise. reflexivity.
  - destruct (until <=? s_now s); [|reflexivity]. rewrite face_finish. apply face_free_sem.
  - apply face_goto.
  - destruct (s_futs s i); try reflexivity. apply face_finish.
Qed.
Lemma face_cancel_fut i s : face (cancel_fut i s) = face s.
Proof. rewrite cancel_fut_nf. reflexivity. Qed.
Lemma face_timeout t s : face (wait_timeout t s) = face s.
Proof.
  unfold wait_timeout. destruct (get s t) as [k|]; [|reflexivity]. destruct (t_phase k); try reflexivity;
    destruct (s_futs s i); try reflexivity; destruct (deadline <=? s_now s); try reflexivity;
    [rewrite face_raw_raise|rewrite face_finish]; apply face_cancel_fut.
Qed.
Lemma face_cancel t s : face (cancel t s) = face s.
Proof.
  unfold cancel. destruct (get s t) as [k|]; [|reflexivity]. destruct (t_phase k); try reflexivity;
    rewrite ?face_raw_raise, ?face_finish, ?face_free_sem, ?face_cancel_fut; reflexivity.
Qed.

Lemma face_cleanup i s : face (cleanup i s) = face s.
Proof. destruct (cleanup_nf i s) as [->|[_ ->]]; reflexivity. Qed.
Lemma face_dispatch o ws s : face (fst (fst (dispatch ws o s))) = face s.
Proof. destruct (dispatch_spec o ws s) as (pre & post & o' & r & _ & -> & _). cbn [fst]. rewrite completes_nf. reflexivity. Qed.
Lemma face_call_raw o wid s : face (call_raw o wid s) = face s.
Proof. rewrite call_raw_split, face_acquire_lock. reflexivity. Qed.
