(** * SpecReply: which of the waiting requests a reply goes to *)
From Verif Require Import Base Types Buffalo Zpi Api App Machine.

(** Of the requests [ws] that wait for a reply of the same kind from the same node, oldest first: those that one reply completes,
    and those that go on waiting.  A request without a sequence number, or with number 0, does not keep the reply from the next. *)
Fixpoint served (ws : list waiter) : list waiter :=
  match ws with
  | [] => []
  | w :: r => w :: match w_seq w with None | Some 0 => served r | Some _ => [] end
  end.
Fixpoint left_waiting (ws : list waiter) : list waiter :=
  match ws with
  | [] => []
  | w :: r => match w_seq w with None | Some 0 => left_waiting r | Some _ => r end
  end.
(** The sequence number under which the reply is handed over, if any. *)
Fixpoint number (ws : list waiter) : option Z :=
  match ws with
  | [] => None
  | w :: r => match w_seq w with None | Some 0 => number r | Some q => Some q end
  end.
(** The numbers under which [n] replies in a row are handed over. *)
Fixpoint numbers (n : nat) (ws : list waiter) : list Z :=
  match n with
  | O => []
  | S n => match number ws with Some q => [q] | None => [] end ++ numbers n (left_waiting ws)
  end.
(** Everybody who waits for [rsp] names the node whose reply is wanted, and has a sequence number that is a byte or none. *)
Definition node_named (rsp : string) (s : st) : Prop :=
  forall w, In w (s_waiters s) -> m_type (w_matcher w) = AREQ -> m_sub (w_matcher w) = ZDO -> m_cmd (w_matcher w) = rsp ->
    (exists a, m_payload (w_matcher w) = [("srcaddr"%string, VInt a)]) /\ forall q, w_seq w = Some q -> 0 <= q <= 255.
