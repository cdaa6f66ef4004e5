(** * SpecWaiters: whose each waiter is, what it waits for, and for how long *)
From Verif Require Import Base Types Buffalo Zpi Api App Machine SpecMachine SpecMatch.

(** The number of the request, if the operation waits for a reply of the device. *)
Definition reply_number (j : job) : option Z :=
  match j with
  | JRequest _ _ _ _ _ sequence _ true => Some sequence
  | JMulticast _ _ _ _ sequence _ => Some sequence
  | _ => None
  end.
(** The operation [j] registers a waiter for [m], with the number [q], that lives for [ms] (and 100 ms more). *)
Inductive makes_waiter (j : job) : matcher -> option Z -> Z -> Prop :=
| rg_wait m ms : j = JWaitFor m ms -> makes_waiter j m None ms
| rg_response o : build j = Ok o -> z_type o = SREQ -> makes_waiter j (mk_matcher SRSP (z_sub o) (z_cmd o) []) None (limit o)
| rg_reset o : build j = Ok o -> z_type o = AREQ -> resets o -> makes_waiter j (mk_matcher AREQ SYS "resetInd" []) None 30000
| rg_reply o n m q : build j = Ok o -> reply_number j = Some n -> reply_waiter o (Some n) (Ok (Some (m, q))) -> makes_waiter j m q 10000.
