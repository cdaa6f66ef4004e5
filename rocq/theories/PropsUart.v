(** * Properties C01-C11, C63: the serial frame format and the byte parser *)
From Verif Require Import Base Types Uart SpecWire UartProofs UartProofs2.

(** ** C01 *)
Theorem C01_frame_round_trip : forall f,
  sendable f -> f_data f <> [] ->
  to_buffer f = Ok (wire_of f) /\
  (forall k, (k < length (wire_of f))%nat -> snd (parser_run [] (firstn k (wire_of f))) = []) /\
  parser_run [] (wire_of f) = ([], [Ok (received f)]).
Proof.
  exact (fun f H Hd => conj (to_buffer_wire f H)
    (conj (fun k Hk => f_equal snd (run_frame_prefix f k H Hd Hk)) (run_frame f H Hd))).
Qed.
Print Assumptions C01_frame_round_trip.
Example C01_inhabited : exists f, sendable f /\ f_data f <> [] /\ f_id f = 10 /\ wire_of f = [254; 2; 33; 10; 5; 6; 42].
Proof. exists (mk_frame SREQ SYS 10 [5; 6] None None). concrete. Qed.

(** ** C02: whatever was received, the bytes are: for every delivered frame some discarded bytes and
    then exactly that frame's serialisation; then discarded bytes; then the buffer. *)
Theorem C02_delivered_was_received : forall h buf os,
  bytes_ok h -> parser_run [] h = (buf, os) ->
  exists js tail,
    length js = length (delivered os) /\
    h = segments js (delivered os) ++ tail ++ buf /\
    Forall (fun f => sendable f /\ f = received f) (delivered os).
Proof.
  exact (fun h buf os Hh E => eq_ind _ (fun p => let '(buf, os) := p in
     exists js tail, length js = length (delivered os) /\
       h = segments js (delivered os) ++ tail ++ buf /\
       Forall (fun f => sendable f /\ f = received f) (delivered os)) (run_decomposition h Hh) _ E).
Qed.
Print Assumptions C02_delivered_was_received.
Example C02_inhabited : exists h buf f, bytes_ok h /\ parser_run [] h = (buf, [Ok f]) /\ buf = [254] /\ f_data f = [7].
Proof.
  exists [9; 254; 1; 65; 0; 7; 71; 254], [254], (received (mk_frame AREQ SYS 0 [7] None None)).
  split; [concrete|]. vm_compute. auto.
Qed.

(** ** C03 *)
Theorem C03_stream_delivered_once_in_order : forall fs,
  Forall sendable fs -> parser_run [] (stream fs) = stream_outcome fs.
Proof. exact run_stream. Qed.
Print Assumptions C03_stream_delivered_once_in_order.
Example C03_inhabited :
  let a := mk_frame AREQ ZDO 1 [] None None in
  let b := mk_frame SRSP AF 1 [0] None None in
  Forall sendable [a; b; a] /\
  stream_outcome [a; b; a] = (wire_of a, [Ok (received a); Ok (received b)]).
Proof. concrete. Qed.

(** ** C04 *)
Theorem C04_chunking_irrelevant : forall (S : Type) (h : S -> frame -> S * result unit) cs cs' buf s b' s',
  concat cs = concat cs' ->
  gw_chunks h buf s cs = (b', s', []) -> gw_chunks h buf s cs' = (b', s', []).
Proof.
  exact (fun S h cs cs' buf s b' s' E H =>
    chunks_whole h cs' buf s b' s'
      (eq_ind _ (fun l => gw_data_received h buf s l = (b', s', Ok tt)) (whole_chunks h cs buf s b' s' H) _ E)).
Qed.
Print Assumptions C04_chunking_irrelevant.
Theorem C04_parser_chunking : forall cs buf,
  fold_left (fun '(b, os) c => let '(b', os') := parser_run b c in (b', os ++ os')) cs (buf, []) =
  parser_run buf (concat cs).
Proof. exact parser_chunks. Qed.
Print Assumptions C04_parser_chunking.
Example C04_inhabited :
  exists b' s', gw_chunks record_frames [] [] [[254; 1; 65]; []; [0; 7]; [71; 254]] = (b', s', [])
  /\ length s' = 1%nat
  /\ concat [[254; 1; 65]; []; [0; 7]; [71; 254]] = concat [[254]; [1; 65; 0; 7; 71; 254]].
Proof. vm_compute. eauto. Qed.

(** ** C05 *)
Theorem C05_corruption_never_delivered : forall f i v,
  sendable f -> byte_ok v -> (2 <= i < length (wire_of f))%nat -> v <> nth i (wire_of f) 0 ->
  (f_data f <> [] -> parser_run [] (overwrite (wire_of f) i v) = ([], [])) /\
  (f_data f = [] -> forall b, byte_ok b -> parser_run [] (overwrite (wire_of f) i v ++ [b]) = ([b], [])).
Proof. exact corrupted_not_delivered. Qed.
Print Assumptions C05_corruption_never_delivered.
Example C05_inhabited : let f := mk_frame AREQ SYS 0 [7] None None in
  sendable f /\ byte_ok 9 /\ (2 <= 4 < length (wire_of f))%nat /\ 9 <> nth 4 (wire_of f) 0.
Proof. concrete. Qed.

(** ** C06 *)
Theorem C06_noise_discarded : forall l,
  bytes_ok l -> ~ In 254 l -> parser_run [] l = ([], []).
Proof. exact run_noise. Qed.
Print Assumptions C06_noise_discarded.
Theorem C06_noise_between_frames : forall l tail,
  Forall (fun p => bytes_ok (fst p) /\ ~ In 254 (fst p) /\ sendable (snd p) /\ f_data (snd p) <> []) l ->
  bytes_ok tail -> ~ In 254 tail ->
  parser_run [] (noisy_stream l ++ tail) = ([], map (fun p => Ok (received (snd p))) l).
Proof. exact run_noisy_stream. Qed.
Print Assumptions C06_noise_between_frames.
Example C06_inhabited : let f := mk_frame AREQ SYS 0 [7] None None in
  noisy_stream [([1; 2], f); ([], f)] = [1; 2; 254; 1; 65; 0; 7; 71; 254; 1; 65; 0; 7; 71].
Proof. reflexivity. Qed.

(** ** C07 *)
Theorem C07_buffer_bounded : forall h, bytes_ok h -> (length (fst (parser_run [] h)) <= 259)%nat.
Proof. exact (fun h H => good_length _ (good_run h [] H good_nil)). Qed.
Print Assumptions C07_buffer_bounded.
(** the bound is reached *)
Example C07_tight : length (fst (parser_run [] (254 :: 255 :: repeat 0 257))) = 259%nat.
Proof. vm_compute. reflexivity. Qed.

(** ** C08 *)
Theorem C08_recovery_on_quiet_line : forall h l fs,
  bytes_ok h -> bytes_ok l -> ~ In 254 l -> (259 <= length l)%nat -> Forall sendable fs ->
  fst (parser_run [] (h ++ l)) = [] /\
  parser_run [] (h ++ l ++ stream fs) =
    (fst (stream_outcome fs), snd (parser_run [] (h ++ l)) ++ snd (stream_outcome fs)).
Proof. exact recovery. Qed.
Print Assumptions C08_recovery_on_quiet_line.
(** 258 bytes are not always enough *)
Example C08_tight : fst (parser_run [] (254 :: 255 :: repeat 0 257)) <> [].
Proof. vm_compute. discriminate. Qed.
Example C08_inhabited : let l := repeat 1 (Z.to_nat 259) in
  bytes_ok [254; 255; 3] /\ bytes_ok l /\ ~ In 254 l /\ (259 <= length l)%nat.
Proof.
  cbv zeta. split; [concrete|].
  split; [apply Forall_forall; intros x Hx; apply repeat_spec in Hx; subst; unfold byte_ok; lia|].
  split; [intro Hx; apply repeat_spec in Hx; discriminate|]. rewrite repeat_length. lia.
Qed.

(** ** C09 (false as stated: an uninterpretable frame hides the frames behind it in the same read) *)
Theorem C09_bad_frame_isolated_refuted :
  exists r f, raw_ok r /\ raw_frame r = None /\ sendable f /\ f_data f <> [] /\
    gw_data_received record_frames [] [] (raw_wire r ++ wire_of f) = ([], [], Err ValueError) /\
    gw_data_received record_frames [] [] (wire_of f ++ raw_wire r) = ([], [received f], Err ValueError) /\
    gw_chunks record_frames [] [] [raw_wire r; wire_of f] = ([], [received f], [ValueError]).
Proof. exact bad_frame_hides_next. Qed.
Print Assumptions C09_bad_frame_isolated_refuted.
(** What holds: when every message arrives in its own read, each one that stands for a frame reaches
    the API whatever the others are and whatever the API raises. Missing: several messages per read. *)
Theorem C09_bad_frame_isolated_partial : forall (S : Type) (h : S -> frame -> S * result unit) rs s,
  Forall raw_ok rs ->
  exists es, gw_chunks h [] s (map raw_wire rs) = ([], fold_left (deliver h) rs s, es).
Proof. exact (fun S h rs s H => chunks_raw h rs H s). Qed.
Print Assumptions C09_bad_frame_isolated_partial.
Example C09_inhabited : Forall raw_ok [(4, 1, 0, [0]); (2, 5, 193, [1; 2])] /\
  raw_frame (4, 1, 0, [0]) = None /\ raw_frame (2, 5, 193, [1; 2]) <> None.
Proof.
  concrete.
Qed.

(** ** C10 (false for empty payloads) *)
Theorem C10_immediate_delivery_refuted :
  forall f, sendable f -> f_data f = [] -> parser_run [] (wire_of f) = (wire_of f, []).
Proof. exact run_empty_frame. Qed.
Print Assumptions C10_immediate_delivery_refuted.
(** What holds: immediate for non-empty payloads, one byte late for empty ones. *)
Theorem C10_immediate_delivery_partial : forall f, sendable f ->
  (f_data f <> [] -> snd (parser_run [] (wire_of f)) = [Ok (received f)]) /\
  (f_data f = [] -> forall b, byte_ok b -> parser_run (fst (parser_run [] (wire_of f))) [b] = ([b], [Ok (received f)])).
Proof. exact delivery_time. Qed.
Print Assumptions C10_immediate_delivery_partial.
Example C10_inhabited : sendable (mk_frame SRSP SYS 2 [] None None) /\ f_data (mk_frame SRSP SYS 2 [] None None) = [].
Proof. concrete. Qed.

(** ** C11 *)
Theorem C11_outgoing_well_formed_partial : forall w f,
  bytes_ok (f_data f) ->
  (sendable f /\ gw_send w f = (w ++ [wire_of f], Ok tt)) \/
  (~ sendable f /\ gw_send w f = (w, Err ValueError)).
Proof. exact gw_send_spec. Qed.
Print Assumptions C11_outgoing_well_formed_partial.
(** The 250-byte limit of the protocol (MaxDataSize in uart.py) is not enforced. *)
Theorem C11_size_limit_refuted :
  exists f w', bytes_ok (f_data f) /\ length (f_data f) = 251%nat /\ gw_send [] f = ([w'], Ok tt) /\ length w' = 256%nat.
Proof. exact oversize_sent. Qed.
Print Assumptions C11_size_limit_refuted.
Example C11_inhabited : gw_send [] (mk_frame SREQ SYS 2 [3] None None) = ([[254; 1; 33; 2; 3; 33]], Ok tt)
  /\ gw_send [] (mk_frame SREQ SYS 256 [3] None None) = ([], Err ValueError).
Proof. split; reflexivity. Qed.

(** ** C63 (false): frames repeated for ever need not bring a parser back in step: starting four bytes
    late into this frame, every repetition yields a frame that was never sent, for ever. *)
Theorem C63_resync_on_busy_line_refuted :
  exists f g, sendable f /\ f_data f <> [] /\
    (f_type g, f_sub g, f_id g, f_data g) <> (f_type f, f_sub f, f_id f, f_data f) /\
    forall n, snd (parser_run [] (skipn 4 (concat (repeat (wire_of f) (S n))))) = repeat (Ok g) n.
Proof. exact busy_line. Qed.
Print Assumptions C63_resync_on_busy_line_refuted.
