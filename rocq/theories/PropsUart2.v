(** * Properties C101, C102: when frames are delivered and how the parser falls back into step *)
From Verif Require Import Base Types Uart SpecWire UartProofs UartProofs2 UartProofs3.

(** ** C101.  At every moment of the reception of a stream exactly the frames that have arrived are delivered. *)
Theorem C101_delivered_on_arrival : forall fs k, Forall sendable fs -> (k <= length (stream fs))%nat ->
  snd (parser_run [] (firstn k (stream fs))) = map (fun f => Ok (received f)) (arrived k fs).
Proof. exact (fun fs k Hs Hk => delivered_by k fs Hs Hk). Qed.
Print Assumptions C101_delivered_on_arrival.
(** An empty frame between two others: it counts as arrived with the first byte of the third, and the last one with its last
    byte. *)
Example C101_inhabited :
  let a := mk_frame AREQ SYS 0 [7] None None in let b := mk_frame SRSP SYS 2 [] None None in
  Forall sendable [a; b; a] /\ length (stream [a; b; a]) = 17%nat /\
  map (fun k => length (arrived k [a; b; a])) [5; 6; 11; 12; 16; 17]%nat = [0; 1; 1; 2; 2; 3]%nat.
Proof. cbv zeta. split; [repeat constructor; concrete|]. split; reflexivity. Qed.

(** ** C102.  Whatever was received before, if the start byte occurs only at the start of frames, then the frames that are lost
    are the first ones, all begin within 259 bytes, at most one wrong outcome (a frame that was never sent, or an exception)
    is seen in their place, and from then on the stream is delivered as if it had begun there. *)
Theorem C102_back_in_step : forall h fs, bytes_ok h -> Forall sendable fs -> Forall clean fs ->
  exists lost kept o, fs = lost ++ kept /\
    (forall a f b, lost = a ++ f :: b -> (length (stream a) <= 259)%nat) /\ (length o <= 1)%nat /\
    snd (parser_run [] (h ++ stream fs)) = snd (parser_run [] h) ++ o ++ snd (stream_outcome kept).
Proof. exact busy_recovery. Qed.
Print Assumptions C102_back_in_step.
(** Started in the middle of a message that claims 200 bytes of payload: 34 frames are lost, the 35th arrives. *)
Example C102_inhabited :
  let f := mk_frame AREQ SYS 0 [7] None None in
  bytes_ok [254; 200; 1] /\ sendable f /\ clean f /\
  map snd [parser_run [] ([254; 200; 1] ++ stream (repeat f 35))] = [[Ok (received f)]].
Proof. cbv zeta. split; [concrete|]. split; [concrete|]. split; [|vm_compute; reflexivity]. intro H. cbn in H. intuition discriminate. Qed.
