(** * StartProofs9: start completes on a working stick *)
From Coq Require Import ZifyBool ZifyNat.
From Verif Require Import Base Types Buffalo Zpi Api SpecCodec SpecMachine Nv StartZnp SpecStart StartExec
  StartProofs StartProofs2 StartProofs3 StartProofs4 StartProofs5 StartProofs6.

Section Works.
Variable dv : device.
Hypothesis W : works dv.

Lemma ends_field r n s v (Q : result value -> store -> Prop) : dict_get (z_payload r) n = Some v -> Q (Ok v) s -> ends dv (field r n) s Q.
Proof. intros H K. unfold field. rewrite H. exact K. Qed.
Lemma ends_plain sub cmd d x s (Q : result zpi -> store -> Prop) : storage_of sub cmd d = NoStorage -> sub <> SYS -> In 0 x ->
  (sub <> ZDO \/ In 1 x \/ cmd <> "extFindGroup" /\ cmd <> "startupFromApp") ->
  (forall m, z_payload m = dv_answer dv sub cmd d -> Q (Ok m) s) -> ends dv (request sub cmd d x) s Q.
Proof.
  intros E Hs H0 Hx HQ. destruct (proj1 W sub cmd d Hs) as (c & Ec & Hc). eapply ends_request.
  - unfold respond. rewrite E. reflexivity.
  - unfold checked, status_of. cbn [reply z_payload]. rewrite Ec.
    replace (existsb (Z.eqb c) x) with true; [apply HQ; reflexivity|]. symmetry. apply existsb_exists. exists c.
    split; [|apply Z.eqb_refl]. destruct Hc as [->|(-> & -> & Hc)]; [exact H0|]. destruct Hx as [Hx|[Hx|[X1 X2]]]; [contradiction|exact Hx|tauto].
Qed.
Lemma ends_write sub cmd d i b x s (Q : result zpi -> store -> Prop) : storage_of sub cmd d = Writes i b -> In 0 x ->
  (forall m, Q (Ok m) (put s i b)) -> ends dv (request sub cmd d x) s Q.
Proof.
  intros E H0 HQ. eapply ends_request.
  - unfold respond. rewrite E. reflexivity.
  - unfold checked, status_of. cbn [reply z_payload]. change (dict_get [("status", VInt 0)] "status") with (Some (VInt 0)). cbn iota.
    replace (existsb (Z.eqb 0) x) with true; [apply HQ|]. symmetry. apply existsb_exists. exists 0. split; [exact H0|reflexivity].
Qed.
Lemma ends_reset s (Q : result zpi -> store -> Prop) : (forall m, Q (Ok m) s) -> ends dv soft_reset s Q.
Proof. intro HQ. unfold soft_reset. eapply ends_request; [unfold respond; reflexivity|apply HQ]. Qed.
Lemma ends_create sub cmd d i b s (Q : result zpi -> store -> Prop) : storage_of sub cmd d = Creates i b ->
  (forall m s', Q (Ok m) s') -> ends dv (request sub cmd d [0; 9]) s Q.
Proof.
  intros E HQ. unfold ends, request. cbn [serve]. unfold respond. rewrite E. destruct (s i); apply HQ.
Qed.
Lemma ends_listen m t s (Q : result (matcher * Z) -> store -> Prop) : Q (Ok (m, t)) s -> ends dv (listen m t) s Q.
Proof. intro H. exact H. Qed.
Lemma ends_spawn sub cmd d s (Q : result unit -> store -> Prop) : Q (Ok tt) s -> ends dv (spawn sub cmd d) s Q.
Proof. intro H. exact H. Qed.
Lemma ends_await m t s (Q : result zpi -> store -> Prop) : (m = is_coordinator \/ m = mk_matcher AREQ ZDO "activeEpRsp" []) ->
  (forall i, (m_cmd m = "activeEpRsp" -> exists l, dict_get (z_payload i) "activeeplist" = Some (VList l)) -> Q (Ok i) s) -> ends dv (await (m, t)) s Q.
Proof.
  intros Hm H. destruct (proj2 (proj2 W) m Hm) as (i & Ei & Em & Hl). unfold ends, await. cbn [serve fst]. rewrite Ei, Em. apply H, Hl.
Qed.
(** an item that exists compares or differs *)
Lemma ends_validate item sub cmd i x s (Q : result unit -> store -> Prop) : storage_of sub cmd item = Reads i -> In 0 x -> s i <> None ->
  Q (Ok tt) s -> Q (Err AssertionError) s -> ends dv (validate_item item sub cmd x) s Q.
Proof.
  intros E H0 Hi Q1 Q2. unfold validate_item. apply ends_seq. eapply ends_request; [unfold respond; rewrite E; reflexivity|].
  destruct (s i) as [b|]; [|contradiction]. unfold checked, status_of. cbn [reply z_payload].
  change (dict_get [("status", VInt 0); ("value", VBytes (stored s i))] "status") with (Some (VInt 0)). cbn iota.
  replace (existsb (Z.eqb 0) x) with true by (symmetry; apply existsb_exists; exists 0; split; [exact H0|reflexivity]). cbn iota.
  apply ends_seq. eapply ends_field; [reflexivity|]. destruct (value_eqb _ _); [apply ends_ret, Q1|apply ends_raise, Q2].
Qed.
Lemma marker_read v s (Q : result unit -> store -> Prop) : (marked v s -> Q (Ok tt) s) -> Q (Err AssertionError) s ->
  ends dv (validate_item (item_configured (version_of v)) SYS "osalNvRead" [0; 2]) s Q.
Proof.
  intros Q1 Q2. unfold validate_item. apply ends_seq. eapply ends_request.
  - unfold respond. replace (storage_of SYS "osalNvRead" (item_configured (version_of v))) with (Reads (marker v)) by (destruct v; reflexivity). reflexivity.
  - unfold marked in Q1. destruct (s (marker v)) as [b|] eqn:Es; unfold checked, status_of; cbn [reply z_payload];
      [change (dict_get [("status", VInt 0); ("value", VBytes (stored s (marker v)))] "status") with (Some (VInt 0))
      |change (dict_get [("status", VInt 2); ("value", VBytes (stored s (marker v)))] "status") with (Some (VInt 2))]; cbn iota;
      (replace (existsb _ _) with true by reflexivity); cbn iota;
      (apply ends_seq; eapply ends_field; [reflexivity|]); unfold stored; rewrite Es.
    + destruct (value_eqb (VBytes b) (item_value (item_configured (version_of v)))) eqn:Ev; [|apply ends_raise, Q2]. apply ends_ret, Q1. f_equal.
      change (item_value (item_configured (version_of v))) with (VBytes set_mark) in Ev. cbn [value_eqb] in Ev. destruct (list_eq_dec Z.eq_dec b set_mark); [assumption|discriminate].
    + replace (value_eqb (VBytes []) (item_value (item_configured (version_of v)))) with false by reflexivity. apply ends_raise, Q2.
Qed.

Definition done {A} : result A -> store -> Prop := fun r s => match r with Ok _ => True | Err _ => False end.
Lemma done_seq {A B} (p : prog A) (g : A -> prog B) s : ends dv p s done -> (forall a s', ends dv (g a) s' done) -> ends dv (seq p g) s done.
Proof. intros H G. apply ends_seq. eapply ends_weaken; [|exact H]. intros [a|e] s'; [intros _; apply G|intros []]. Qed.
Lemma done_ret {A} (a : A) s : ends dv (DRet a) s done.
Proof. exact I. Qed.
Ltac plain := apply ends_plain; [reflexivity|discriminate|cbn [In]; tauto|first [left; discriminate|right; left; cbn [In]; tauto|right; right; split; discriminate]|intros; exact I].
Ltac wr := eapply ends_write; [reflexivity|cbn [In]; tauto|intro; exact I].
Ltac rs := apply ends_reset; intro; exact I.
Ltac also t := apply done_seq; [t|intros].

Lemma boot_done s : ends dv boot s done.
Proof.
  unfold boot. apply ends_seq. apply ends_plain; [reflexivity|discriminate|cbn [In]; tauto|left; discriminate|]. intros m Em.
  destruct (proj1 (proj2 W) []) as [st Est]. apply ends_seq. eapply ends_field; [rewrite Em; exact Est|].
  destruct (value_eqb st (VInt 9)); [apply done_ret|]. apply ends_seq. apply ends_listen. also plain.
  also ltac:(apply ends_await; [auto|]; intros; exact I). apply done_ret.
Qed.
Lemma loop_done active l es : dict_get (z_payload active) "activeeplist" = Some (VList l) -> forall s, ends dv (register_loop active es) s done.
Proof.
  intro H. induction es as [|e es IH]; intro s; [apply done_ret|]. cbn [register_loop]. apply ends_seq.
  eapply ends_field; [exact H|]. also idtac; [|apply IH]. destruct (is_in _ _); [apply done_ret|]. also plain. apply done_ret.
Qed.
Lemma register_done s : ends dv register_endpoints s done.
Proof.
  unfold register_endpoints. apply ends_seq. apply ends_listen. apply ends_seq. apply ends_spawn.
  apply ends_seq. apply ends_await; [auto|]. intros i Hi. destruct (Hi eq_refl) as [l Hl]. eapply loop_done, Hl.
Qed.
Lemma group_done g s : ends dv (add_to_group 242 g) s done.
Proof.
  unfold add_to_group. apply ends_seq. apply ends_plain; [reflexivity|discriminate|cbn [In]; tauto|right; left; cbn [In]; tauto|]. intros m Em.
  destruct (proj1 W ZDO "extFindGroup" [("endpoint", VInt 242); ("groupid", VInt g)] ltac:(discriminate)) as (c & Ec & _).
  apply ends_seq. eapply ends_field; [rewrite Em; exact Ec|]. destruct (value_eqb _ _); [|apply done_ret]. also plain. apply done_ret.
Qed.
Lemma initialise_done v o s : ends dv (initialise (version_of v) o) s done.
Proof.
  unfold initialise, nv_write. also rs. also wr. also rs. also wr. also wr. also wr. also wr. also wr. also wr.
  also idtac.
  - rewrite stack3_version. destruct v.
    + also wr. wr.
    + also wr. also plain. also plain. apply ends_seq, ends_listen. also plain. also idtac; [|plain].
      unfold await_started. apply ends_attempt. apply ends_await; [auto|]. intros. exact I.
    + also wr. also plain. also plain. apply ends_seq, ends_listen. also plain. also idtac; [|plain].
      unfold await_started. apply ends_attempt. apply ends_await; [auto|]. intros. exact I.
  - also ltac:(eapply ends_create; [destruct v; reflexivity|intros; exact I]). also ltac:(eapply ends_write; [destruct v; reflexivity|cbn [In]; tauto|intro; exact I]). apply done_ret.
Qed.
Lemma needs_done v o s : (marked v s -> items_exist s) -> ends dv (needs_init (version_of v) o) s done.
Proof.
  intro Hi. unfold needs_init. apply ends_attempt. apply ends_seq. apply marker_read; [|apply done_ret]. intro M. specialize (Hi M).
  assert (D : forall i, In i [132; 99; 98; 131; 45] -> s i <> None) by exact Hi. clear Hi M.
  assert (K : forall i, i = 132 \/ i = 99 \/ i = 98 \/ i = 131 \/ i = 45 -> s i <> None) by (intros i H; apply D; cbn [In]; intuition).
  apply ends_seq. eapply ends_validate; [reflexivity|left; reflexivity|apply K; auto| |apply done_ret].
  apply ends_seq. eapply ends_validate; [reflexivity|left; reflexivity|apply K; auto| |apply done_ret].
  apply ends_seq. assert (G : forall Q : result unit -> store -> Prop, Q (Ok tt) s -> Q (Err AssertionError) s ->
    ends dv (if version_of v =? zStack3x0 then validate_item (item_key (o_key o)) SYS "osalNvRead" [0] else validate_item (item_key (o_key o)) SAPI "readConfiguration" [0]) s Q).
  { intros Q Q1 Q2. destruct (version_of v =? zStack3x0); (eapply ends_validate; [reflexivity|left; reflexivity|apply K; auto|exact Q1|exact Q2]). }
  apply G; [|apply done_ret]. clear G. apply ends_seq. unfold validate_pan. apply ends_attempt.
  assert (G : ends dv (if stack3 (version_of v) then
         let! result := request SYS "osalNvRead" (item_pan (o_pan o)) [0] in
         let! v := field result "value" in
         if value_eqb v (VBytes [255; 255]) then DRet tt else DRaise AssertionError
       else DRet tt) s (fun r s' => match r with
         | Ok _ => match Ok false with Ok a => done (A := bool) (Ok a) s' | Err e => False end
         | Err e => match (if is_assertion e then Some (DRet true) else None) with Some q => ends dv q s' done | None => done (A := bool) (Err e) s' end
         end)).
  { destruct (stack3 (version_of v)); [|apply ends_ret; exact I].
    assert (P : s 131 <> None) by (apply K; auto). apply ends_seq. eapply ends_request; [unfold respond; reflexivity|].
    change (s PANID) with (s 131). destruct (s 131) as [b|] eqn:Eb; [|contradiction].
    change (checked [0] (reply SYS "osalNvRead" [("status", VInt 0); ("value", VBytes (stored s PANID))])) with (@Ok zpi (reply SYS "osalNvRead" [("status", VInt 0); ("value", VBytes (stored s PANID))])). cbn iota. apply ends_seq. eapply ends_field; [reflexivity|].
    destruct (value_eqb _ _); [apply ends_ret|apply ends_raise]; exact I. }
  apply ends_seq. eapply ends_validate; [reflexivity|left; reflexivity|apply K; auto| |exact G].
  eapply ends_validate; [reflexivity|left; reflexivity|apply K; auto|exact I|exact G].
Qed.
Lemma has_done v s : ends dv (has_configured (version_of v)) s (fun r s' => (exists c, r = Ok c) /\ s' = s).
Proof.
  unfold has_configured. apply ends_attempt. apply ends_seq. apply marker_read; [intros _|]; cbn [ends]; (split; [eexists; reflexivity|reflexivity]).
Qed.
Lemma start_done v o g s : (marked v s -> items_exist s) -> ends dv (start_znp (version_of v) o g false) s done.
Proof.
  intro Hi. rewrite start_eq. apply ends_seq. eapply ends_weaken; [|apply has_done]. intros r s' [[c ->] ->].
  also idtac.
  - unfold configure. rewrite andb_false_l. also ltac:(apply needs_done, Hi). destruct a; [|apply done_ret].
    also ltac:(apply initialise_done). apply done_ret.
  - unfold rest. also ltac:(apply boot_done). also ltac:(apply register_done). also ltac:(apply group_done).
    also idtac; [|apply done_ret]. destruct a; try apply done_ret.
Qed.
End Works.
Lemma start_completes dv v o g s : works dv -> (marked v s -> items_exist s) ->
  exists tr r s', serve dv (start_znp (version_of v) o g false) s = (tr, Ok r, s').
Proof.
  intros W Hi. pose proof (start_done dv W v o g s Hi) as H. unfold ends in H.
  destruct (serve dv (start_znp (version_of v) o g false) s) as [[tr [r|e]] s']; [eauto|destruct H].
Qed.

(** ** a marked stick without its channel list *)
Lemma ends_marker dv v s (Q : result unit -> store -> Prop) : marked v s -> Q (Ok tt) s ->
  ends dv (validate_item (item_configured (version_of v)) SYS "osalNvRead" [0; 2]) s Q.
Proof.
  intros M HQ. unfold validate_item. apply ends_seq. eapply ends_request.
  - unfold respond. replace (storage_of SYS "osalNvRead" (item_configured (version_of v))) with (Reads (marker v)) by (destruct v; reflexivity). reflexivity.
  - unfold stored. rewrite M. unfold checked, status_of. cbn [reply z_payload].
    change (dict_get [("status", VInt 0); ("value", VBytes set_mark)] "status") with (Some (VInt 0)). cbn iota.
    replace (existsb _ _) with true by reflexivity. cbn iota. apply ends_seq. eapply ends_field; [reflexivity|].
    replace (value_eqb _ _) with true by reflexivity. exact HQ.
Qed.
Lemma missing_item dv v o g b s tr r s' : marked v s -> s 132 = None ->
  serve dv (start_znp (version_of v) o g b) s = (tr, r, s') -> r = Err (CommandError 2).
Proof.
  intros M N E. assert (H : ends dv (start_znp (version_of v) o g b) s (fun r _ => r = Err (CommandError 2))).
  { rewrite start_eq. apply ends_seq. unfold has_configured. apply ends_attempt. apply ends_seq. apply (ends_marker dv v s); [exact M|].
    cbn [ends]. change (ends dv (let! result := configure (version_of v) o b true in rest o g result) s (fun r _ => r = Err (CommandError 2))).
    apply ends_seq. unfold configure. rewrite andb_false_r. apply ends_seq. unfold needs_init. apply ends_attempt.
    apply ends_seq. apply (ends_marker dv v s); [exact M|]. apply ends_seq. unfold validate_item. apply ends_seq.
    eapply ends_request; [unfold respond; reflexivity|]. change (s CHANLIST) with (s 132). rewrite N. reflexivity. }
  unfold ends in H. rewrite E in H. exact H.
Qed.
