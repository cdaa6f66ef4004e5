(** * WholeFail2: a failure ends a start-up *)
From Coq Require Import ZifyBool ZifyNat.
From Verif Require Import Base Types Uart Buffalo CmdTable Zpi Api App Machine Life World SpecWire SpecCodec SpecApi SpecMachine SpecWorld Nv StartZnp AppStart SpecStart Host SpecHost Whole SpecWhole
  SpecAppStart SpecWholeFail CodecProofs ApiProofs MachineBase MachineInv5 MachineProofs4 StartProofs HostProofs AppStartProofs WorldBase WorldInv WorldProofs WholeInv WholeHost WholeProofs WholeProofs2 WholeParts WholeProofs3 WholeProofs4 WholeProofs5 WholeFail.

Definition raises {A} (p : prog A) : Prop := exists e, e <> AssertionError /\ p = DRaise e.
(** every request or wait that fails makes the program raise at once *)
Inductive strict {A} : prog A -> Prop :=
| strict_ret a : strict (DRet a)
| strict_raise e : strict (DRaise e)
| strict_request sub cmd d x k : (forall m, strict (k (Ok m))) -> (forall e, e <> AssertionError -> raises (k (Err e))) -> strict (DRequest sub cmd d x k)
| strict_listen m t k : strict (k (m, t)) -> strict (DListen m t k)
| strict_await w k : (forall m, strict (k (Ok m))) -> (forall e, e <> AssertionError -> raises (k (Err e))) -> strict (DAwait w k)
| strict_spawn sub cmd d k : strict k -> strict (DSpawn sub cmd d k).
Lemma raises_seq {A B} (m : prog A) (f : A -> prog B) : raises m -> raises (StartZnp.seq m f).
Proof. intros (e & N & ->). exists e. auto. Qed.
Lemma strict_seq {A B} (m : prog A) (f : A -> prog B) : strict m -> (forall a, strict (f a)) -> strict (StartZnp.seq m f).
Proof. intros H F. induction H; cbn [StartZnp.seq]; auto; constructor; auto; intros; apply raises_seq; auto. Qed.
Lemma raises_attempt {A} (m : prog A) h : raises m -> (forall e, e <> AssertionError -> h e = None \/ exists q, h e = Some q /\ raises q) -> raises (attempt m h).
Proof. intros (e & N & ->) H. cbn [attempt]. destruct (H e N) as [->|(q & -> & R)]; [exists e; auto|exact R]. Qed.
Lemma strict_attempt {A} (m : prog A) h : strict m -> (forall e q, h e = Some q -> strict q) -> (forall e, e <> AssertionError -> h e = None \/ exists q, h e = Some q /\ raises q) -> strict (attempt m h).
Proof.
  intros H S N. induction H; cbn [attempt]; try (constructor; auto; intros; apply raises_attempt; auto; fail).
  destruct (h e) eqn:E; [eapply S, E|constructor].
Qed.
Lemma strict_req sub cmd d x : strict (request sub cmd d x).
Proof. constructor; [intro; constructor|]. intros e N. exists e. auto. Qed.
Lemma strict_then {A B} (p : prog A) (q : prog B) : strict p -> strict q -> strict (p;; q).
Proof. intros. apply strict_seq; auto. Qed.
Lemma strict_field m n : strict (field m n).
Proof. unfold field. destruct (dict_get _ n); constructor. Qed.
Lemma strict_validate i sub cmd x : strict (validate_item i sub cmd x).
Proof.
  unfold validate_item. apply strict_seq; [apply strict_req|]. intro m. apply strict_seq; [apply strict_field|]. intro v. destruct (value_eqb _ _); constructor.
Qed.
Lemma strict_pan v o : strict (validate_pan v o).
Proof.
  unfold validate_pan. apply strict_attempt.
  - apply strict_then; apply strict_validate.
  - intros e q H. destruct e; try discriminate H. apply some_eq in H. subst q. destruct (stack3 v); [|constructor].
    apply strict_seq; [apply strict_req|]. intro m. apply strict_seq; [apply strict_field|]. intro w. destruct (value_eqb _ _); constructor.
  - intros e N. left. destruct e; try reflexivity. contradiction.
Qed.
Lemma strict_needs v o : strict (needs_init v o).
Proof.
  unfold needs_init. apply strict_attempt.
  - do 3 (apply strict_then; [apply strict_validate|]). apply strict_then; [destruct (v =? zStack3x0); apply strict_validate|]. apply strict_then; [apply strict_pan|constructor].
  - intros e q H. destruct e; try discriminate H. apply some_eq in H. subst q. constructor.
  - intros e N. left. destruct e; try reflexivity. contradiction.
Qed.
Lemma strict_listen' m t : strict (listen m t).
Proof. constructor. constructor. Qed.
Lemma strict_await' w : strict (await w).
Proof. constructor; [intro; constructor|]. intros e N. exists e. auto. Qed.
Lemma strict_started w : strict (await_started w).
Proof.
  unfold await_started. apply strict_attempt; [apply strict_await'| |].
  - intros e q H. destruct e; try discriminate H; apply some_eq in H; subst q; constructor.
  - intros e N. destruct e; try (left; reflexivity); right; eexists; (split; [reflexivity|]); exists GenericException; (split; [discriminate|reflexivity]).
Qed.
Lemma strict_boot : strict StartZnp.boot.
Proof.
  unfold StartZnp.boot. apply strict_seq; [apply strict_req|]. intro m. apply strict_seq; [apply strict_field|]. intro v. destruct (value_eqb _ _); [constructor|].
  apply strict_seq; [apply strict_listen'|]. intro w. apply strict_then; [apply strict_req|]. apply strict_then; [apply strict_await'|constructor].
Qed.
Lemma strict_loop y es : strict (register_loop y es).
Proof.
  induction es as [|e es IH]; cbn [register_loop]; [constructor|]. apply strict_seq; [apply strict_field|]. intro l. apply strict_then; [|exact IH].
  destruct (is_in _ l); [constructor|]. apply strict_then; [apply strict_req|constructor].
Qed.
Lemma strict_register : strict register_endpoints.
Proof.
  unfold register_endpoints. apply strict_seq; [apply strict_listen'|]. intro w. apply strict_then; [constructor; constructor|].
  apply strict_seq; [apply strict_await'|]. intro m. apply strict_loop.
Qed.
Lemma strict_initialise v o : strict (initialise v o).
Proof.
  unfold initialise, nv_write, soft_reset. do 9 (apply strict_then; [apply strict_req|]). apply strict_then.
  - destruct (stack3 v).
    + do 3 (apply strict_then; [apply strict_req|]). apply strict_seq; [apply strict_listen'|]. intro w. apply strict_then; [apply strict_req|].
      apply strict_then; [apply strict_started|apply strict_req].
    + apply strict_then; apply strict_req.
  - do 2 (apply strict_then; [apply strict_req|]). constructor.
Qed.
Lemma strict_group e g : strict (add_to_group e g).
Proof.
  unfold add_to_group. apply strict_seq; [apply strict_req|]. intro m. apply strict_seq; [apply strict_field|]. intro v. destruct (value_eqb _ _); [|constructor].
  apply strict_then; [apply strict_req|constructor].
Qed.
Lemma strict_rest v o g b : strict (
  let! result := configure v o false b in
  StartZnp.boot;; register_endpoints;; add_to_group 242 g;;
  (match result with Restored => nv_write (item_channels (o_channels o));; DRet tt | _ => DRet tt end);; DRet result).
Proof.
  apply strict_seq.
  - unfold configure. cbn [andb]. apply strict_seq; [apply strict_needs|]. intro n. destruct n; [|constructor]. apply strict_then; [apply strict_initialise|constructor].
  - intro r. apply strict_then; [apply strict_boot|]. apply strict_then; [apply strict_register|]. apply strict_then; [apply strict_group|].
    apply strict_then; [|constructor]. destruct r; [constructor| |constructor]. apply strict_then; [apply strict_req|constructor].
Qed.
Lemma strict_ping : strict part_ping.
Proof.
  unfold part_ping, ping. apply strict_then; [|constructor]. apply strict_attempt; [apply strict_req| |].
  - intros e q H. destruct e; try discriminate H. apply some_eq in H. subst q. constructor.
  - intros e N. destruct e; try (left; reflexivity). right. eexists. split; [reflexivity|]. exists GenericException. split; [discriminate|reflexivity].
Qed.
Lemma strict_version : strict part_version.
Proof.
  unfold part_version, ask_version. apply strict_seq; [apply strict_req|]. intro m. apply strict_seq; [apply strict_field|]. intro v. destruct v; constructor.
Qed.
Lemma strict_device : strict part_device.
Proof.
  unfold part_device. apply strict_seq; [apply strict_req|]. intro m. apply strict_seq; [apply strict_field|]. intro v. apply strict_seq; [apply strict_field|]. intro w.
  destruct v; try constructor. destruct w; constructor.
Qed.
(** ** runs *)
Definition stops (tr : list act) {A} (f : fin A) : Prop :=
  forall t1 y t2, tr = t1 ++ y :: t2 -> went_wrong y = true -> t2 = [] /\ forall a, f <> Returned a.
Lemma stops_cons {A} y tr (f : fin A) : went_wrong y = false -> stops tr f -> stops (y :: tr) f.
Proof.
  intros N H t1 z t2 E W. destruct t1 as [|a t1]; cbn [app] in E; injection E as <- E; [congruence|]. exact (H t1 z t2 E W).
Qed.
Lemma stops_raised {A} (p : prog A) y tr f : raises p -> goes p tr f -> stops (y :: tr) f.
Proof.
  intros (e & _ & ->) G. assert (tr = [] /\ forall a, f <> Returned a) as [-> N] by (inversion G; subst; split; auto; discriminate).
  intros t1 z t2 E W. destruct t1 as [|a t1]; cbn [app] in E; injection E as <- E; [subst; auto|destruct t1; discriminate E].
Qed.
Lemma stops_nil {A} (f : fin A) : stops [] f.
Proof. intros t1 z t2 E. destruct t1; discriminate E. Qed.
Lemma strict_stops {A} (p : prog A) tr f : goes p tr f -> strict p -> stops tr f.
Proof.
  intro G. induction G; intro S; inversion S; subst; try (apply stops_nil); try (apply stops_cons; [reflexivity|auto; apply stops_nil]).
  - destruct r as [m|e]; [apply stops_cons; [reflexivity|auto]|]. eapply stops_raised; [|exact G]. auto.
  - destruct r as [z|e]; [apply stops_cons; [reflexivity|auto]|]. eapply stops_raised; [|exact G]. auto. match goal with K : forall e, _ -> raises _ |- _ => apply K end. congruence.
Qed.
Definition stops_but {A} (v : firmware) (tr : list act) (f : fin A) : Prop :=
  forall t1 y t2, tr = t1 ++ y :: t2 -> went_wrong y = true ->
    (t2 = [] /\ forall a, f <> Returned a) \/
    t1 = [] /\ exists d code, y = ARequest SYS "osalNvRead" d [0; 2] (Some (Err (CommandError code))) /\ int_of d "id" = Some (marker v).
Lemma stops_weaken {A} v tr (f : fin A) : stops tr f -> stops_but v tr f.
Proof. intros H t1 y t2 E W. left. exact (H t1 y t2 E W). Qed.
Lemma has_shape v tr f : goes (has_configured (version_of v)) tr f ->
  tr = [] /\ f = Interrupted \/ exists r, tr = [ARequest SYS "osalNvRead" (item_configured (version_of v)) [0; 2] r] /\
    match r with Some (Err (CommandError _)) => True | Some (Err _) => forall a, f <> Returned a | _ => True end.
Proof.
  intro G. unfold has_configured, validate_item, request in G. cbn [attempt StartZnp.seq] in G. inversion G; subst.
  - left. auto.
  - right. eexists. split; [reflexivity|exact I].
  - right. exists (Some r). destruct r as [m|e]; cbn [of_result StartZnp.seq attempt] in *.
    + assert (tr0 = []) as ->; [|split; [reflexivity|exact I]]. unfold field in *. destruct (dict_get _ _) as [w|]; cbn [StartZnp.seq attempt] in *.
      * destruct (value_eqb w _); cbn [StartZnp.seq attempt] in *; (match goal with K : goes _ _ f |- _ => inversion K; reflexivity end).
      * match goal with K : goes _ tr0 f |- _ => inversion K; reflexivity end.
    + destruct e; (match goal with K : goes _ tr0 f |- _ => inversion K; subst end); split; try reflexivity; try exact I; try discriminate.
      all: match goal with K : answer_possible _ _ |- _ => cbn in K; congruence end.
Qed.
Lemma item_id v : int_of (item_configured (version_of v)) "id" = Some (marker v).
Proof. destruct v; reflexivity. Qed.
Lemma start_stops v o g tr f : goes (start_znp (version_of v) o g false) tr f -> stops_but v tr f.
Proof.
  intro G. unfold start_znp in G.
  assert (One : forall r, match r with Some (Err (CommandError _)) => True | Some (Err _) => forall a, f <> Returned a | _ => True end ->
    stops_but v [ARequest SYS "osalNvRead" (item_configured (version_of v)) [0; 2] r] f).
  { intros r H t1 y t2 E W. destruct t1 as [|z t1]; cbn [app] in E; [|destruct t1; discriminate E]. injection E as <- <-.
    destruct r as [[|e]|]; try discriminate W. destruct e; try (left; split; [reflexivity|exact H]). right. split; [reflexivity|]. eexists _, _. split; [reflexivity|apply item_id]. }
  apply goes_app in G as [(t1 & t2 & b & -> & G1 & G2)|[(e & G1 & ->)|[G1 ->]]].
  - apply has_shape in G1 as [[_ K]|(r & -> & K)]; [discriminate K|]. pose proof (strict_stops _ _ _ G2 (strict_rest _ _ _ _)) as S.
    intros u y u2 E W. destruct u as [|z u]; cbn [app] in E; injection E as <- E.
    + right. split; [reflexivity|]. destruct r as [[|e]|]; try discriminate W. destruct e; try (exfalso; apply (K b); reflexivity). eexists _, _. split; [reflexivity|apply item_id].
    + left. exact (S u y u2 E W).
  - apply has_shape in G1 as [[_ K]|(r & -> & K)]; [discriminate K|]. apply One. destruct r as [[|[]]|]; try exact I; discriminate.
  - apply has_shape in G1 as [[-> K]|(r & -> & K)]; [apply stops_weaken, stops_nil|]. apply One. destruct r as [[|[]]|]; try exact I; discriminate.
Qed.
Lemma form_stops v c tr f : goes (part_form (version_of v) c) tr f -> stops_but v tr f.
Proof.
  intro G. unfold part_form in G. apply goes_app in G as [(t1 & t2 & r & -> & G1 & G2)|[(e & G1 & ->)|[G1 ->]]].
  - apply start_stops in G1. assert (t2 = []) as -> by (inversion G2; reflexivity). rewrite app_nil_r. intros u y u2 E W.
    destruct (G1 u y u2 E W) as [[_ N]|H]; [exfalso; apply (N r); reflexivity|right; exact H].
  - apply start_stops in G1. intros u y u2 E W. destruct (G1 u y u2 E W) as [[-> N]|H]; [left; split; [reflexivity|discriminate]|right; exact H].
  - apply start_stops in G1. intros u y u2 E W. destruct (G1 u y u2 E W) as [[-> N]|H]; [left; split; [reflexivity|discriminate]|right; exact H].
Qed.
(** ** the attempt *)
Lemma leg_path w p a l pl ws : Leg w p a l pl ws -> exists f, goes p (map snd (l ++ place_deeds pl)) f /\ forall r, pl = Ready (DRet r) -> f = Returned r.
Proof.
  intros (s & A & G). pose proof (ginv_goes _ _ G) as H. exists (ending (mk_host s pl ws l)). split.
  - unfold acts, doings in H. cbn [h_trace h_place] in H. exact H.
  - intros r ->. reflexivity.
Qed.
Lemma split_deeds pre l (d1 : list deed) d d2 : pre ++ l = d1 ++ d :: d2 ->
  (exists m, pre = d1 ++ d :: m /\ d2 = m ++ l) \/ (exists m, d1 = pre ++ m /\ l = m ++ d :: d2).
Proof.
  revert d1. induction pre as [|x pre IH]; intros d1 E; [right; exists d1; auto|]. destruct d1 as [|y d1]; cbn [app] in E; injection E as <- E.
  - left. exists pre. auto.
  - destruct (IH d1 E) as [(m & -> & ->)|(m & -> & ->)]; [left; exists m; auto|right; exists m; auto].
Qed.
Lemma deeds_split a l d1 b u y d2 : deeds_of a l = d1 ++ (b, u, y) :: d2 -> exists l1 l2, l = l1 ++ (u, y) :: l2 /\ d1 = deeds_of a l1 /\ d2 = deeds_of a l2.
Proof.
  unfold deeds_of. intro E. apply map_eq_app in E as (l1 & l2 & -> & <- & E). destruct l2 as [|[u' y'] l2]; [discriminate E|]. cbn [map fst snd] in E. injection E as -> -> -> <-. eauto.
Qed.
Lemma failure_ends c x t auto ds d1 a u y d2 : xreachable c x -> attempted x t auto ds -> ds = d1 ++ (a, u, y) :: d2 -> went_wrong y = true -> d2 = [] \/ unmarked d1 y.
Proof.
  intros R H E W. destruct (attempted_shape _ _ _ _ _ R H) as (pre & p & b & l & pl & ws & Ed & F & L). rewrite Ed in E. clear H Ed ds.
  assert (P1 : forall w a ds, done_leg w part_ping a ds TPong -> length ds = 1%nat /\ forall d, In d ds -> went_wrong (snd d) = false).
  { intros w0 a0 ds0 D. destruct (done_ping _ _ _ D) as (? & ? & ->). split; [reflexivity|]. intros d [<-|[]]. reflexivity. }
  assert (P2 : forall w a ds z, done_leg w part_version a ds (TVersion z) -> length ds = 1%nat /\ forall d, In d ds -> went_wrong (snd d) = false).
  { intros w0 a0 ds0 z D. destruct (done_version _ _ _ _ D) as (? & ? & -> & _). split; [reflexivity|]. intros d [<-|[]]. reflexivity. }
  destruct (split_deeds _ _ _ _ _ E) as [(m & Ep & ->)|(m & -> & El)].
  - destruct F as [|a1 ds1 D1|a1 ds1 a2 ds2 z q D1 D2 K Q|a1 ds1 a2 ds2 z q a3 ds3 r led Ea D1 D2 K Q D3 Ld].
    + destruct d1; discriminate Ep.
    + exfalso. assert (N : went_wrong y = false) by (apply (proj2 (P1 _ _ _ D1) (a, u, y)); rewrite Ep; apply in_or_app; right; left; reflexivity). congruence.
    + exfalso. assert (N : went_wrong y = false); [|congruence]. assert (Hd : In (a, u, y) (ds1 ++ ds2)) by (rewrite Ep; apply in_or_app; right; left; reflexivity).
      apply in_app_or in Hd as [Hd|Hd]; [apply (proj2 (P1 _ _ _ D1) _ Hd)|apply (proj2 (P2 _ _ _ _ D2) _ Hd)].
    + destruct (P1 _ _ _ D1) as [N1 W1], (P2 _ _ _ _ D2) as [N2 W2].
      apply split_deeds in Ep as [(m1 & Ep & _)|(m1 & -> & Ep)].
      { exfalso. assert (N : went_wrong y = false) by (apply (W1 (a, u, y)); rewrite Ep; apply in_or_app; right; left; reflexivity). congruence. }
      apply split_deeds in Ep as [(m2 & Ep & _)|(m2 & -> & Ep)].
      { exfalso. assert (N : went_wrong y = false) by (apply (W2 (a, u, y)); rewrite Ep; apply in_or_app; right; left; reflexivity). congruence. }
      apply split_deeds in Ep as [(m3 & Ep & _)|(m3 & -> & Ep)].
      2: { exfalso. destruct Ld as [->|(b0 & t0 & s0 & -> & _)]; [destruct m3; discriminate Ep|]. destruct m3 as [|? []]; try discriminate Ep. injection Ep as _ _ <- _. discriminate W. }
      destruct (known_firmware z K) as [v ->]. destruct D3 as (l3 & ws3 & -> & L3). apply deeds_split in Ep as (la & lb & -> & -> & _).
      apply leg_goes in L3. apply form_stops in L3. rewrite map_app in L3. cbn [map snd] in L3.
      destruct (L3 _ _ _ eq_refl W) as [[_ N]|[Ela (d & code & Ey & Ei)]]; [exfalso; apply (N (TFormed r)); reflexivity|].
      right. apply map_eq_nil in Ela. subst la. cbn [deeds_of map]. rewrite app_nil_r. split; [rewrite app_length; lia|]. exists v, d, code. auto.
  - apply deeds_split in El as (la & lb & El & -> & ->). destruct (leg_path _ _ _ _ _ _ L) as (f & G & _). rewrite El, map_app in G. cbn [map snd] in G.
    assert (S : strict p -> lb = []).
    { intro S. destruct (strict_stops _ _ _ G S _ _ _ eq_refl W) as [N _]. apply map_eq_nil in N. exact N. }
    destruct F as [|a1 ds1 D1|a1 ds1 a2 ds2 z q D1 D2 K Q|a1 ds1 a2 ds2 z q a3 ds3 r led Ea D1 D2 K Q D3 Ld].
    + left. rewrite (S strict_ping). reflexivity.
    + left. rewrite (S strict_version). reflexivity.
    + destruct auto; [|left; rewrite (S strict_device); reflexivity]. destruct (known_firmware z K) as [v ->]. apply form_stops in G.
      destruct (G _ _ _ eq_refl W) as [[N _]|[Ela (d & code & Ey & Ei)]]; [left; apply map_eq_nil in N; subst lb; reflexivity|].
      right. apply map_eq_nil in Ela. subst la. cbn [deeds_of map]. rewrite app_nil_r. destruct (P1 _ _ _ D1) as [N1 _], (P2 _ _ _ _ D2) as [N2 _].
      split; [rewrite app_length; lia|]. exists v, d, code. auto.
    + left. rewrite (S strict_device). reflexivity.
Qed.
