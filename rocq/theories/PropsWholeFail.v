(** * PropsWholeFail: why start-ups fail, and what they do then (C136, C137) *)
From Verif Require Import Base Types Uart Buffalo CmdTable Zpi Api App Machine Life World SpecWire SpecMachine SpecWorld
  Nv StartZnp AppStart SpecStart SpecAppStart Host SpecHost Whole SpecWhole SpecWholeFail PropsApp PropsWorld PropsStart PropsHost PropsAppStart PropsWhole PropsWholeEnd WholeFail WholeFail2.

(** ** C136.  A start-up fails only for a reason. *)
(** What its caller, or the reconnect loop, sees is the failure of the last thing that it did, or that the stick reported
    an unknown product.  In particular it raises nothing because of what an answer lacks or of what is stored. *)
Theorem C136_reason : forall c x t auto ds e at_, xreachable c x -> In (XOver t auto ds (Err e) at_) (x_log x) ->
  exists ds' a u y, ds = ds' ++ [(a, u, y)] /\ failed y e.
Proof. exact failed_why. Qed.
Print Assumptions C136_reason.
(** So a start-up to which everything that it asked for was given ends well. *)
Theorem C136_succeeds : forall c x t auto ds r at_, xreachable c x -> In (XOver t auto ds r at_) (x_log x) -> Forall fulfilled (map snd ds) -> r = Ok tt.
Proof. exact fulfilled_well. Qed.
Print Assumptions C136_succeeds.
(** an unknown product; nobody answers the ping; the stick cannot read an item *)
Definition lit_product : whole := lit_whole (lit_opened ++ lit_asks 0 0 0 [lit_pinged; lit_version 7] ++ [XGo 0]).
Definition lit_no_answer : whole := lit_whole (lit_opened ++ [XGo 0; XWorld (VTask 0 0)] ++ lit_again ++ lit_again).
Definition happened (o : xobs) : nat * list (nat * Z * string) * option (result unit) :=
  match o with XTries t a => (t, [], None) | XOver t _ ds r a => (t, map named ds, Some r) end.
Example C136_reason_inhabited :
  map happened (skipn 1 (x_log lit_product)) = [(0%nat, [(0%nat, 0, "ping"); (0%nat, 1, "version")], Some (Err ValueError))] /\
  map happened (skipn 1 (x_log lit_no_answer)) = [(0%nat, [(0%nat, 0, "ping")], Some (Err TimeoutError))] /\
  map happened (skipn 3 (x_log lit_refused)) =
    [(1%nat, [(1%nat, 0, "ping"); (1%nat, 1, "version"); (1%nat, 2, "osalNvRead"); (1%nat, 3, "osalNvRead"); (1%nat, 4, "osalNvRead")], Some (Err (CommandError 2)))].
Proof. vm_compute. repeat split; reflexivity. Qed.
Fixpoint all_fulfilled (l : list act) : bool :=
  match l with
  | [] => true
  | y :: l => all_fulfilled l &&
    match y with
    | ARequest _ _ _ _ (Some (Err _)) => false
    | ARequest sub cmd _ _ (Some (Ok m)) =>
        negb (sub_eqb sub SYS && String.eqb cmd "version") || match dict_get (z_payload m) "product" with Some (VInt z) => Whole.known_product z | _ => false end
    | AAwait m r => match r with Ok z => match waiter_match m z with Ok b => b | Err _ => false end | Err _ => false end
    | _ => true
    end
  end.
Lemma all_fulfilled_ok l : all_fulfilled l = true -> Forall fulfilled l.
Proof.
  induction l as [|y l IH]; cbn [all_fulfilled]; intro H; constructor; apply andb_prop in H as [H1 H2]; auto.
  destruct y as [sub cmd d x [[m|e]|]| |w [m|e]|]; cbn [fulfilled]; auto; try discriminate H2.
  - intros -> ->. cbn in H2. destruct (dict_get (z_payload m) "product") as [[z| | | |]|]; try discriminate H2.
    destruct (WholeProofs4.known_firmware z H2) as [v ->]. exists v. reflexivity.
  - exists m. split; [reflexivity|]. destruct (waiter_match w m) as [[]|]; congruence.
Qed.
Example C136_succeeds_inhabited : In (XOver 1 true (deeds_over lit_twice 1) (Ok tt) 7000) (x_log lit_twice) /\ Forall fulfilled (map snd (deeds_over lit_twice 1)) /\
  length (deeds_over lit_twice 1) = 16%nat.
Proof. split; [exact lit_twice_over|]. split; [apply all_fulfilled_ok; vm_compute; reflexivity|vm_compute; reflexivity]. Qed.

(** ** C137.  A failure ends a start-up. *)
(** Whatever request or wait of a start-up fails, it is the last thing that this start-up does; only a refusal to read the
    mark that the stick was configured, just after ping and version, is taken to mean that it is not configured. *)
Theorem C137_failure_ends : forall c x t auto ds d1 a u y d2, xreachable c x -> attempted x t auto ds -> ds = d1 ++ (a, u, y) :: d2 ->
  went_wrong y = true -> d2 = [] \/ unmarked d1 y.
Proof. exact failure_ends. Qed.
Print Assumptions C137_failure_ends.
(** the mark cannot be read (status 1), the start-up goes on; then the channels cannot be read, it ends *)
Definition lit_marks : whole := lit_whole (lit_opened ++ lit_asks 0 0 0 [lit_pinged; lit_version 0; wire 3 1 8 [1; 0]; wire 3 1 8 [0; 1; 85]; wire 3 1 8 [2; 0]] ++ [XGo 0]).
Example C137_inhabited : attempted lit_marks 0 true (deeds_over lit_marks 0) /\
  map (fun d => (named d, went_wrong (snd d))) (deeds_over lit_marks 0) =
    [(0%nat, 0, "ping", false); (0%nat, 1, "version", false); (0%nat, 2, "osalNvRead", true); (0%nat, 3, "osalNvRead", false); (0%nat, 4, "osalNvRead", true)].
Proof. split; [left; exists (Err (CommandError 2)), 1000; vm_compute; right; left; reflexivity|vm_compute; reflexivity]. Qed.
