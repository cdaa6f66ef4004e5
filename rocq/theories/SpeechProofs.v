(** * SpeechProofs: the start-up programs say what SpecSpeech.v lists *)
From Coq Require Import ZifyBool ZifyNat.
From Verif Require Import Base Types Uart Buffalo CmdTable Zpi Api App SpecWire SpecCodec SpecMachine Nv StartZnp SpecStart AppStart
  StartProofs StartProofs2 StartProofs3 StartProofs4 StartProofs5 StartSend StartProofs8 CodecProofs2 UartProofs SpecSpeech.

Lemma says_some s : exists w, says s w.
Proof.
  induction s as [|b|a [u A] b [v B]|a [u A] b _]; cbn [says]; [exists []; reflexivity|eexists; reflexivity|exists (u ++ v), u, v; auto|exists u; auto].
Qed.
Lemma begins_says s w : says s w -> begins s w.
Proof. intro H. exists []. rewrite app_nil_r. exact H. Qed.
Lemma begins_left a b w : begins a w -> begins (Then a b) w.
Proof. intros [r H]. destruct (says_some b) as [v V]. exists (r ++ v). cbn [says]. exists (w ++ r), v. rewrite app_assoc. auto. Qed.
Lemma begins_right a b u w : says a u -> begins b w -> begins (Then a b) (u ++ w).
Proof. intros U [r H]. exists r. cbn [says]. exists u, (w ++ r). rewrite app_assoc. auto. Qed.
Lemma begins_e1 a b w : begins a w -> begins (Either a b) w.
Proof. intros [r H]. exists r. left. exact H. Qed.
Lemma begins_e2 a b w : begins b w -> begins (Either a b) w.
Proof. intros [r H]. exists r. right. exact H. Qed.
Definition within (a b : script) : Prop := forall w, says a w -> says b w.
Lemma begins_within a b w : within a b -> begins a w -> begins b w.
Proof. intros H [r K]. exists r. apply H, K. Qed.

Lemma uttered_app t1 t2 f1 f2 : uttered t1 f1 -> uttered t2 f2 -> uttered (t1 ++ t2) (f1 ++ f2).
Proof. unfold uttered. intros A B. rewrite filter_app. apply Forall2_app; assumption. Qed.

(** ** Programs whose normal ends say [s] and whose ends with an exception of [K] say [b] *)
Definition speaks {A} (K : exn -> bool) (p : prog A) (s b : script) : Prop := forall tr f, runs p tr f ->
  exists fs, uttered tr fs /\ match f with Returned _ => says s fs | Raised e => if K e then says b fs else begins (Either s b) fs | Interrupted => begins (Either s b) fs end.
Definition talks {A} (p : prog A) (s : script) : Prop := forall tr f, runs p tr f ->
  exists fs, uttered tr fs /\ match f with Returned _ => says s fs | _ => begins s fs end.

Lemma within_either a b a' b' : within a a' -> within b b' -> within (Either a b) (Either a' b').
Proof. intros A B w [H|H]; [left; apply A, H|right; apply B, H]. Qed.
Lemma speaks_within {A} K (p : prog A) s b s' b' : speaks K p s b -> within s s' -> within b b' -> speaks K p s' b'.
Proof.
  intros H S B tr f R. destruct (H tr f R) as (fs & U & M). exists fs. split; [exact U|].
  destruct f as [a|e|]; [apply S, M| |eapply begins_within; [apply within_either; eassumption|exact M]].
  destruct (K e); [apply B, M|eapply begins_within; [apply within_either; eassumption|exact M]].
Qed.
Lemma talks_within {A} (p : prog A) s s' : talks p s -> within s s' -> talks p s'.
Proof.
  intros H S tr f R. destruct (H tr f R) as (fs & U & M). exists fs. split; [exact U|].
  destruct f; [apply S, M|eapply begins_within; eassumption..].
Qed.
Lemma speaks_seq {A B} K (p : prog A) (g : A -> prog B) s b s' b' : speaks K p s b -> (forall a, speaks K (g a) s' b') ->
  speaks K (seq p g) (Then s s') (Either b (Then s b')).
Proof.
  intros P G tr f R. assert (Q : forall fs, begins (Either s b) fs -> begins (Either (Then s s') (Either b (Then s b'))) fs).
  { intros fs [r [H|H]]; [apply begins_e1, begins_left|apply begins_e2, begins_e1]; exists r; exact H. }
  apply runs_seq in R as [(t1 & t2 & a & -> & R1 & R2)|[[R ->]|(e & R & ->)]].
  - destruct (P _ _ R1) as (f1 & U1 & M1), (G a _ _ R2) as (f2 & U2 & M2). exists (f1 ++ f2). split; [apply uttered_app; assumption|].
    assert (Q2 : begins (Either s' b') f2 -> begins (Either (Then s s') (Either b (Then s b'))) (f1 ++ f2)).
    { intros [r [H|H]]; [apply begins_e1|apply begins_e2, begins_e2]; apply begins_right; try exact M1; exists r; exact H. }
    destruct f as [x|e|]; [exists f1, f2; auto| |exact (Q2 M2)]. destruct (K e); [right; exists f1, f2; auto|exact (Q2 M2)].
  - destruct (P _ _ R) as (fs & U & M). exists fs. split; [exact U|]. apply Q, M.
  - destruct (P _ _ R) as (fs & U & M). exists fs. split; [exact U|]. destruct (K e); [left; exact M|apply Q, M].
Qed.
Lemma talks_seq {A B} (p : prog A) (g : A -> prog B) s s' : talks p s -> (forall a, talks (g a) s') -> talks (seq p g) (Then s s').
Proof.
  intros P G tr f R. apply runs_seq in R as [(t1 & t2 & a & -> & R1 & R2)|[[R ->]|(e & R & ->)]].
  - destruct (P _ _ R1) as (f1 & U1 & M1), (G a _ _ R2) as (f2 & U2 & M2). exists (f1 ++ f2). split; [apply uttered_app; assumption|].
    destruct f as [x|e|]; [exists f1, f2; auto|apply begins_right; assumption..].
  - destruct (P _ _ R) as (fs & U & M). exists fs. split; [exact U|]. apply begins_left, M.
  - destruct (P _ _ R) as (fs & U & M). exists fs. split; [exact U|]. apply begins_left, M.
Qed.
Lemma speaks_attempt {A} K K' (p : prog A) h s b s' b' : speaks K p s b -> (forall e q, h e = Some q -> K e = true /\ speaks K' q s' b') ->
  (forall e, h e = None -> K' e = false) -> speaks K' (attempt p h) (Either s (Then b s')) (Then b b').
Proof.
  intros P H N tr f R.
  assert (Q : forall fs, begins (Either s b) fs -> begins (Either (Either s (Then b s')) (Then b b')) fs).
  { intros fs [r [H'|H']]; [apply begins_e1, begins_e1; exists r; exact H'|apply begins_e1, begins_e2, begins_left; exists r; exact H']. }
  apply runs_attempt in R as [(a & -> & R)|[[-> R]|(t1 & t2 & e & -> & R1 & R2)]].
  - destruct (P _ _ R) as (fs & U & M). exists fs. split; [exact U|]. left. exact M.
  - destruct (P _ _ R) as (fs & U & M). exists fs. split; [exact U|]. apply Q, M.
  - destruct (P _ _ R1) as (f1 & U1 & M1). destruct (h e) as [q|] eqn:E.
    + destruct (H e q E) as [Ke Sq]. rewrite Ke in M1. destruct (Sq _ _ R2) as (f2 & U2 & M2). exists (f1 ++ f2). split; [apply uttered_app; assumption|].
      assert (Q2 : begins (Either s' b') f2 -> begins (Either (Either s (Then b s')) (Then b b')) (f1 ++ f2)).
      { intros [r [H'|H']]; [apply begins_e1, begins_e2|apply begins_e2]; apply begins_right; try exact M1; exists r; exact H'. }
      destruct f as [x|e'|]; [right; exists f1, f2; auto| |apply Q2, M2]. destruct (K' e'); [exists f1, f2; auto|apply Q2, M2].
    + destruct R2 as [-> ->]. rewrite app_nil_r. exists f1. split; [exact U1|]. rewrite (N e E). apply Q. destruct (K e); [apply begins_e2, begins_says, M1|exact M1].
Qed.
Lemma speaks_talks {A} K (p : prog A) s b : speaks K p s b -> talks p (Either s b).
Proof.
  intros P tr f R. destruct (P _ _ R) as (fs & U & M). exists fs. split; [exact U|]. destruct f as [a|e|]; [left; exact M| |exact M].
  destruct (K e); [apply begins_e2, begins_says, M|exact M].
Qed.
(** an exception of [K] is caught for good *)
Lemma talks_attempt {A} K (p : prog A) h s b s' : speaks K p s b -> (forall e q, h e = Some q -> K e = true /\ talks q s') ->
  talks (attempt p h) (Either s (Then b s')).
Proof.
  intros P H. eapply talks_within; [eapply (speaks_talks (fun _ => false)), (speaks_attempt K _ p h s b s' s' P); [|reflexivity]|].
  - intros e q E. destruct (H e q E) as [Ke T]. split; [exact Ke|]. intros tr f R. destruct (T _ _ R) as (fs & U & M). exists fs. split; [exact U|].
    destruct f; [exact M|apply begins_e1, M..].
  - intros w [[W|W]|W]; [left; exact W|right; exact W|right; exact W].
Qed.

(** ** The pieces *)
Definition encodes (sub : subsystem) (cmd : string) (d : payload) (bs : list Z) : Prop := exists o, from_command sub cmd d = Ok o /\ frame_bytes o bs.
Lemma speaks_request K sub cmd d x bs : encodes sub cmd d bs -> speaks K (request sub cmd d x) (Say bs) (Say bs).
Proof.
  intros E tr f R. unfold request in R.
  assert (P : forall r, uttered [ARequest sub cmd d x r] [bs]) by (intro r; apply Forall2_cons; [exact E|apply Forall2_nil]).
  inversion R; subst.
  - exists []. split; [apply Forall2_nil|]. exists [bs]. left. reflexivity.
  - exists [bs]. split; [apply P|]. apply begins_says. left. reflexivity.
  - match goal with H : runs (of_result _) _ _ |- _ => apply runs_of_result in H as [-> H'] end.
    exists [bs]. split; [apply P|]. destruct f as [a|e|]; [reflexivity| |apply begins_says; left; reflexivity].
    destruct (K e); [reflexivity|apply begins_says; left; reflexivity].
Qed.
Lemma within_same a : within (Either a a) a.
Proof. intros w [H|H]; exact H. Qed.
Lemma talks_request sub cmd d x bs : encodes sub cmd d bs -> talks (request sub cmd d x) (Say bs).
Proof. intro E. eapply talks_within; [eapply (speaks_talks (fun _ => false)), speaks_request, E|apply within_same]. Qed.
Lemma talks_spawn sub cmd d bs : encodes sub cmd d bs -> talks (spawn sub cmd d) (Say bs).
Proof.
  intros E tr f R. unfold spawn in R. inversion R; subst.
  - exists []. split; [apply Forall2_nil|]. exists [bs]. reflexivity.
  - match goal with H : runs (DRet _) _ _ |- _ => apply runs_ret_inv in H as [-> H'] end. exists [bs]. split; [apply Forall2_cons; [exact E|apply Forall2_nil]|].
    destruct f; [reflexivity|apply begins_says; reflexivity..].
Qed.
Definition mute (a : act) : Prop := speaking a = false.
Lemma mute_uttered tr : Forall mute tr -> uttered tr [].
Proof. intro F. unfold uttered. replace (filter speaking tr) with (@nil act); [apply Forall2_nil|]. induction F as [|a t H F IH]; [reflexivity|]. cbn [filter]. rewrite H. exact IH. Qed.
Lemma talks_mute {A} (p : prog A) : only mute p -> talks p Nothing.
Proof. intros O tr f R. exists []. split; [apply mute_uttered, (O _ _ R)|]. destruct f; [reflexivity|apply begins_says; reflexivity..]. Qed.
Lemma speaks_mute {A} K (p : prog A) : only mute p -> speaks K p Nothing Nothing.
Proof.
  intros O tr f R. exists []. split; [apply mute_uttered, (O _ _ R)|]. destruct f as [a|e|]; [reflexivity| |apply begins_says; left; reflexivity].
  destruct (K e); [reflexivity|apply begins_says; left; reflexivity].
Qed.
Lemma then_nothing a : within (Then a Nothing) a.
Proof. intros w (u & v & -> & U & V). cbn [says] in V. subst v. rewrite app_nil_r. exact U. Qed.
Lemma nothing_then a : within (Then Nothing a) a.
Proof. intros w (u & v & -> & U & V). cbn [says] in U. subst u. exact V. Qed.
Lemma within_then a b a' b' : within a a' -> within b b' -> within (Then a b) (Then a' b').
Proof. intros A B w (u & v & E & U & V). exists u, v. auto. Qed.
Lemma within_refl a : within a a.
Proof. intros w H. exact H. Qed.
Lemma within_trans a b c : within a b -> within b c -> within a c.
Proof. intros H K w W. apply K, H, W. Qed.
(** followed by something that says nothing, and preceded *)
Lemma talks_then {A B} (p : prog A) (g : A -> prog B) s : talks p s -> (forall a, talks (g a) Nothing) -> talks (seq p g) s.
Proof. intros P G. eapply talks_within; [apply talks_seq; eassumption|apply then_nothing]. Qed.
Lemma talks_after {A B} (p : prog A) (g : A -> prog B) s : talks p Nothing -> (forall a, talks (g a) s) -> talks (seq p g) s.
Proof. intros P G. eapply talks_within; [apply talks_seq; eassumption|apply nothing_then]. Qed.
Lemma mute_field r n : only mute (field r n).
Proof. apply only_field. Qed.

(** ** Frames *)
Lemma encodes_of sub cmd d o data bs : from_command sub cmd d = Ok o -> write_params (z_params o) (z_payload o) = Ok data -> byte_ok (z_id o) -> bytes_ok data ->
  (length data <= 255)%nat -> bs = wire (type_code (z_type o)) (sub_code (z_sub o)) (z_id o) data -> encodes sub cmd d bs.
Proof.
  intros H1 H2 H3 H4 H5 ->. exists o. split; [exact H1|]. exists (mk_frame (z_type o) (z_sub o) (z_id o) data None None).
  split; [unfold to_unpi_frame; rewrite H2; reflexivity|]. apply (to_buffer_wire (mk_frame (z_type o) (z_sub o) (z_id o) data None None)). split; [exact H3|split; assumption].
Qed.
Lemma le_bytes4 z : 0 <= z < 4294967296 -> le_bytes 4 z = le4 z.
Proof.
  intro H. cbn [le_bytes]. unfold le4. change 16777216 with (256 * 256 * 256). change 65536 with (256 * 256). rewrite <- !Z.div_div by lia.
  rewrite (Z.mod_small (z / 256 / 256 / 256)); [reflexivity|]. rewrite !Z.div_div by lia. split; [apply Z.div_pos; lia|apply Z.div_lt_upper_bound; lia].
Qed.
Lemma wl2 z : 0 <= z < 65536 -> write_parameter UINT16 (VInt z) = Ok (le2 z).
Proof. intro H. rewrite wu2 by exact H. rewrite le_bytes2 by exact H. reflexivity. Qed.
Lemma wl4 z : 0 <= z < 4294967296 -> write_parameter UINT32 (VInt z) = Ok (le4 z).
Proof. intro H. rewrite wu4 by exact H. rewrite le_bytes4 by exact H. reflexivity. Qed.
Lemma wl1 z : 0 <= z < 256 -> write_parameter UINT8 (VInt z) = Ok [z].
Proof.
  intro H. cbn [write_parameter write]. unfold to_bytes. change (256 ^ Z.of_nat 1) with 256. replace ((0 <=? z) && (z <? 256)) with true by lia.
  cbn [le_bytes]. rewrite Z.mod_small by lia. reflexivity.
Qed.
Lemma write_encodes i b d : 0 <= i < 65536 -> bytes_ok b -> (length b <= 200)%nat ->
  dict_get d "id" = Some (VInt i) -> dict_get d "offset" = Some (VInt 0) -> dict_get d "len" = Some (VInt (Z.of_nat (length b))) -> dict_get d "value" = Some (VBytes b) ->
  encodes SYS "osalNvWrite" d (wire 1 1 9 (le2 i ++ [0; Z.of_nat (length b)] ++ b)).
Proof.
  intros Hi Hb Hl E1 E2 E3 E4. eapply encodes_of; [reflexivity| | | | |].
  - cbn [z_params z_payload]. eapply wp_cons; [exact E1|apply wl2, Hi|]. eapply wp_cons; [exact E2|apply wl1; lia|]. eapply wp_cons; [exact E3|apply wl1; lia|].
    eapply wp_cons; [exact E4|reflexivity|]. apply wp_nil.
  - vm_compute. split; [discriminate|reflexivity].
  - apply Forall_app. split; [apply le2_range, Hi|]. apply Forall_app. split; [repeat constructor; discriminate|]. apply Forall_app.
    split; [constructor; [unfold byte_ok; lia|constructor]|]. apply Forall_app. split; [exact Hb|constructor].
  - rewrite !app_length. change (length (le2 i)) with 2%nat. cbn [length]. lia.
  - cbn [z_type z_sub z_id type_code sub_code]. rewrite app_nil_r. reflexivity.
Qed.
Lemma read_encodes i d : 0 <= i < 65536 -> dict_get d "id" = Some (VInt i) -> dict_get d "offset" = Some (VInt 0) ->
  encodes SYS "osalNvRead" d (wire 1 1 8 (le2 i ++ [0])).
Proof.
  intros Hi E1 E2. eapply encodes_of; [reflexivity| | | | |].
  - cbn [z_params z_payload]. eapply wp_cons; [exact E1|apply wl2, Hi|]. eapply wp_cons; [exact E2|apply wl1; lia|]. apply wp_nil.
  - vm_compute. split; [discriminate|reflexivity].
  - apply Forall_app. split; [apply le2_range, Hi|]. repeat constructor; discriminate.
  - rewrite !app_length. change (length (le2 i)) with 2%nat. cbn [length]. lia.
  - reflexivity.
Qed.
Ltac fixed := eapply encodes_of; [reflexivity|vm_compute; reflexivity|vm_compute; split; [discriminate|reflexivity]|repeat constructor; discriminate|vm_compute; repeat constructor|vm_compute; reflexivity].
(** ** The start-up *)
Definition asserts (e : exn) : bool := is_assertion e.
Lemma speaks_check K item sub cmd x bs : encodes sub cmd item bs -> speaks K (validate_item item sub cmd x) (Say bs) (Say bs).
Proof.
  intro E. unfold validate_item. eapply speaks_within; [eapply speaks_seq; [apply speaks_request, E|intro; apply speaks_mute]| |].
  - apply only_seq; [apply only_field|intro]. destruct (value_eqb _ _); [apply only_ret|apply only_raise].
  - apply then_nothing.
  - intros w [H|H]; [exact H|apply then_nothing, H].
Qed.
Lemma speaks_next {A} K item sub cmd x bs (q : prog A) s b : encodes sub cmd item bs -> speaks K q s b ->
  speaks K (validate_item item sub cmd x;; q) (Then (Say bs) s) (Either (Say bs) (Then (Say bs) b)).
Proof. intros E Q. apply speaks_seq; [apply speaks_check, E|intro; exact Q]. Qed.
(** whether all is well or the comparison stops somewhere *)
Lemma within_next x s b u : within (Either s b) u -> within (Either (Then x s) (Either x (Then x b))) (Then x (Maybe u)).
Proof.
  intros H w [W|[W|W]].
  - destruct W as (a & c & E & U & V). exists a, c. split; [exact E|]. split; [exact U|]. right. apply H. left. exact V.
  - exists w, []. rewrite app_nil_r. split; [reflexivity|]. split; [exact W|]. left. reflexivity.
  - destruct W as (a & c & E & U & V). exists a, c. split; [exact E|]. split; [exact U|]. right. apply H. right. exact V.
Qed.
Section Start.
  Variables (v : firmware) (o : options) (g : Z).
  Hypothesis W : wf_options o.
  Hypothesis G : 0 <= g < 65536.
  Lemma channels_ok : 0 <= o_channels o < 4294967296. Proof. apply W. Qed.
  Lemma pan_ok : 0 <= o_pan o < 65536. Proof. apply W. Qed.
  Lemma w_channels : encodes SYS "osalNvWrite" (item_channels (o_channels o)) (wire 1 1 9 (le2 132 ++ [0; Z.of_nat (length (le4 (o_channels o)))] ++ le4 (o_channels o))).
  Proof.
    pose proof channels_ok as H. apply (write_encodes 132 (le4 (o_channels o))); [lia|apply le4_range, H|cbn; lia|reflexivity..|].
    rewrite <- (channel_bytes _ H). reflexivity.
  Qed.
  Lemma w_pan : encodes SYS "osalNvWrite" (item_pan (o_pan o)) (wire 1 1 9 (le2 131 ++ [0; Z.of_nat (length (le2 (o_pan o)))] ++ le2 (o_pan o))).
  Proof.
    pose proof pan_ok as H. apply (write_encodes 131 (le2 (o_pan o))); [lia|apply le2_range, H|cbn; lia|reflexivity..|].
    rewrite <- (pan_bytes _ H). reflexivity.
  Qed.
  Lemma w_ext : encodes SYS "osalNvWrite" (item_ext (o_ext o)) (wire 1 1 9 (le2 45 ++ [0; Z.of_nat (length (o_ext o))] ++ o_ext o)).
  Proof. destruct W as (_ & _ & _ & L & B & _). apply (write_encodes 45 (o_ext o)); [lia|exact B|lia|reflexivity|reflexivity|rewrite L; reflexivity|reflexivity]. Qed.
  Lemma w_key : encodes SYS "osalNvWrite" (item_key (o_key o)) (wire 1 1 9 (le2 98 ++ [0; Z.of_nat (length (o_key o))] ++ o_key o)).
  Proof. destruct W as (L & B & _). apply (write_encodes 98 (o_key o)); [lia|exact B|lia|reflexivity|reflexivity|rewrite L; reflexivity|reflexivity]. Qed.
  Lemma w_distribute : encodes SYS "osalNvWrite" (item_distribute (o_distribute o)) (wire 1 1 9 (le2 99 ++ [0; Z.of_nat (length (flag (o_distribute o)))] ++ flag (o_distribute o))).
  Proof. destruct (o_distribute o); fixed. Qed.
  Lemma w_mark : encodes SYS "osalNvWrite" (item_configured (version_of v)) (wire 1 1 9 (le2 (marker v) ++ [0; Z.of_nat (length set_mark)] ++ set_mark)).
  Proof. destruct v; fixed. Qed.
  Lemma r_mark : encodes SYS "osalNvRead" (item_configured (version_of v)) (wire 1 1 8 (le2 (marker v) ++ [0])).
  Proof. destruct v; fixed. Qed.
  Lemma i_mark : encodes SYS "osalNvItemInit" (item_configured_init (version_of v)) (wire 1 1 7 (le2 (marker v) ++ [1; 0; 1; 0])).
  Proof. destruct v; fixed. Qed.
  Lemma w_config : encodes SAPI "writeConfiguration" (item_key (o_key o)) (wire 1 6 5 ([98; 16] ++ o_key o)).
  Proof.
    destruct W as (L & B & _). eapply encodes_of; [reflexivity| | | | |].
    - cbn [z_params z_payload]. eapply wp_cons; [reflexivity|apply wl1; vm_compute; split; [discriminate|reflexivity]|]. eapply wp_cons; [reflexivity|apply wl1; lia|]. eapply wp_cons; [reflexivity|reflexivity|]. apply wp_nil.
    - vm_compute. split; [discriminate|reflexivity].
    - apply Forall_app. split; [repeat constructor; discriminate|]. apply Forall_app. split; [repeat constructor; discriminate|]. apply Forall_app. split; [exact B|constructor].
    - rewrite !app_length. cbn [length]. lia.
    - cbn [z_type z_sub z_id type_code sub_code]. rewrite app_nil_r. reflexivity.
  Qed.
  Lemma e_channel : encodes APP_CNF "bdbSetChannel" [("isPrimary", VInt 1); ("channel", VInt (o_channels o))] (wire 1 15 8 ([1] ++ le4 (o_channels o))).
  Proof.
    pose proof channels_ok as H. eapply encodes_of; [reflexivity| | | | |].
    - cbn [z_params z_payload]. eapply wp_cons; [reflexivity|apply wl1; lia|]. eapply wp_cons; [reflexivity|apply wl4, H|]. apply wp_nil.
    - vm_compute. split; [discriminate|reflexivity].
    - apply Forall_app. split; [repeat constructor; discriminate|]. apply Forall_app. split; [apply le4_range, H|constructor].
    - rewrite !app_length. cbn [length le4]. lia.
    - reflexivity.
  Qed.
  Lemma e_find : encodes ZDO "extFindGroup" [("endpoint", VInt 242); ("groupid", VInt g)] (wire 1 5 74 ([242] ++ le2 g)).
  Proof.
    eapply encodes_of; [reflexivity| | | | |].
    - cbn [z_params z_payload]. eapply wp_cons; [reflexivity|apply wl1; lia|]. eapply wp_cons; [reflexivity|apply wl2, G|]. apply wp_nil.
    - vm_compute. split; [discriminate|reflexivity].
    - apply Forall_app. split; [repeat constructor; discriminate|]. apply Forall_app. split; [apply le2_range, G|constructor].
    - rewrite !app_length. cbn [length le2]. lia.
    - reflexivity.
  Qed.
  Lemma e_add : encodes ZDO "extAddGroup" [("endpoint", VInt 242); ("groupid", VInt g); ("namelen", VInt 0); ("groupname", VBytes [])] (wire 1 5 75 ([242] ++ le2 g ++ [0])).
  Proof.
    eapply encodes_of; [reflexivity| | | | |].
    - cbn [z_params z_payload]. eapply wp_cons; [reflexivity|apply wl1; lia|]. eapply wp_cons; [reflexivity|apply wl2, G|]. eapply wp_cons; [reflexivity|apply wl1; lia|]. eapply wp_cons; [reflexivity|reflexivity|]. apply wp_nil.
    - vm_compute. split; [discriminate|reflexivity].
    - apply Forall_app. split; [repeat constructor; discriminate|]. apply Forall_app. split; [apply le2_range, G|repeat constructor; discriminate].
    - rewrite !app_length. cbn [length le2]. lia.
    - reflexivity.
  Qed.
  Lemma r_any i d : dict_get d "id" = Some (VInt i) -> dict_get d "offset" = Some (VInt 0) -> 0 <= i < 65536 -> encodes SYS "osalNvRead" d (wire 1 1 8 (le2 i ++ [0])).
  Proof. intros A B C. apply read_encodes; assumption. Qed.

  Lemma has_talks : talks (has_configured (version_of v)) (Read (marker v)).
  Proof.
    unfold has_configured. eapply talks_within.
    - eapply (talks_attempt (fun e => match e with AssertionError | CommandError _ => true | _ => false end)).
      + eapply speaks_seq; [apply speaks_check, r_mark|intro; apply speaks_mute, only_ret].
      + intros e q E. split; [destruct e; try discriminate E; reflexivity|]. instantiate (1 := Nothing). destruct e; try discriminate E; injection E as <-; apply talks_mute, only_ret.
    - intros w [H|H]; [apply then_nothing, H|]. apply then_nothing in H as [H|H]; [exact H|apply then_nothing, H].
  Qed.
  Lemma pan_speaks : exists s b, speaks asserts (validate_pan (version_of v) o) s b /\ within (Either s b) (compare_pan v).
  Proof.
    set (p := validate_item (item_pan (o_pan o)) SYS "osalNvRead" [0];; validate_item (item_ext (o_ext o)) SYS "osalNvRead" [0]).
    set (again := match v with Stack12 => Nothing | _ => Read 131 end).
    assert (Sp : speaks asserts p (Then (Read 131) (Read 45)) (Either (Read 131) (Then (Read 131) (Read 45)))).
    { apply speaks_next; [apply r_any; [reflexivity|reflexivity|lia]|]. apply speaks_check, r_any; [reflexivity|reflexivity|lia]. }
    exists (Either (Then (Read 131) (Read 45)) (Then (Either (Read 131) (Then (Read 131) (Read 45))) again)), (Then (Either (Read 131) (Then (Read 131) (Read 45))) again). split.
    - unfold validate_pan. eapply (speaks_attempt asserts asserts); [exact Sp| |].
      + intros e q E. unfold asserts. destruct (is_assertion e) eqn:Ae; [|discriminate E]. split; [reflexivity|].
        match type of E with Some ?x = Some ?y => assert (Eq : y = x) by congruence; subst y end. clear E. rewrite stack3_version. subst again.
        assert (R : speaks is_assertion (let! result := request SYS "osalNvRead" (item_pan (o_pan o)) [0] in let! x := field result "value" in
                       if value_eqb x (VBytes [255; 255]) then DRet tt else DRaise e) (Read 131) (Read 131)).
        { eapply speaks_within; [eapply speaks_seq; [apply speaks_request, (r_any 131); [reflexivity|reflexivity|lia]|intro; apply speaks_mute]| |].
          - apply only_seq; [apply only_field|intro]. destruct (value_eqb _ _); [apply only_ret|apply only_raise].
          - apply then_nothing.
          - intros w [H|H]; [exact H|apply then_nothing, H]. }
        destruct v; [apply speaks_mute, only_ret|exact R|exact R].
      + intros e E. unfold asserts. destruct (is_assertion e); [discriminate E|reflexivity].
    - assert (Z : within (Then (Either (Read 131) (Then (Read 131) (Read 45))) again) (compare_pan v)).
      { intros w (a & c & -> & U & V). unfold compare_pan.
        assert (V' : says (match v with Stack12 => Nothing | _ => Maybe (Read 131) end) c) by (subst again; destruct v; [exact V|right; exact V..]).
        destruct U as [U|(a1 & a2 & -> & U1 & U2)].
        - exists a, c. split; [reflexivity|]. split; [exact U|]. exists [], c. split; [reflexivity|]. split; [left; reflexivity|exact V'].
        - exists a1, (a2 ++ c). split; [symmetry; apply app_assoc|]. split; [exact U1|]. exists a2, c. split; [reflexivity|]. split; [right; exact U2|exact V']. }
      intros w [[H|H]|H]; [|apply Z, H..]. destruct H as (a & c & -> & U & V). exists a, c. split; [reflexivity|]. split; [exact U|].
      exists c, []. rewrite app_nil_r. split; [reflexivity|]. split; [right; exact V|destruct v; [reflexivity|left; reflexivity..]].
  Qed.
  Lemma needs_talks : talks (needs_init (version_of v) o) (compare v).
  Proof.
    destruct pan_speaks as (s & b & Sp & Wp).
    assert (Rk : exists key, read_key v = Say key /\ (if version_of v =? zStack3x0 then encodes SYS "osalNvRead" (item_key (o_key o)) key else encodes SAPI "readConfiguration" (item_key (o_key o)) key)).
    { destruct v; (eexists; split; [reflexivity|]); cbn [version_of]; first [change (1 =? zStack3x0) with true; apply r_any; [reflexivity|reflexivity|lia]|fixed]. }
    destruct Rk as (key & Ek & Rk). unfold needs_init. eapply talks_within.
    - eapply (talks_attempt asserts).
      + eapply speaks_next; [apply r_mark|]. eapply speaks_next; [apply (r_any 132); [reflexivity|reflexivity|lia]|]. eapply speaks_next; [apply (r_any 99); [reflexivity|reflexivity|lia]|].
        eapply speaks_seq; [|intros _; eapply speaks_seq; [exact Sp|intros _; apply speaks_mute, only_ret]].
        instantiate (1 := Say key). instantiate (1 := Say key). destruct (version_of v =? zStack3x0); apply speaks_check, Rk.
      + intros e q E. unfold asserts. destruct (is_assertion e); [|discriminate E]. split; [reflexivity|]. injection E as <-. apply talks_mute, only_ret.
    - eapply within_trans; [apply within_either; [apply within_refl|apply then_nothing]|]. unfold compare. rewrite Ek.
      apply within_next, within_next, within_next, within_next. intros w [H|[H|H]]; [apply Wp; left; apply then_nothing, H|apply Wp; right; exact H|apply Wp; left; apply then_nothing, H].
  Qed.
  Ltac say E := apply talks_seq; [apply talks_request; E|intros _].
  Ltac hush := first [apply only_ret|apply only_raise|apply only_field|apply only_listen; reflexivity|apply only_await; intro; reflexivity].
  Lemma await_mute w : only mute (await_started w).
  Proof. unfold await_started. apply only_attempt; [hush|]. intros e q E. destruct e; try discriminate E; injection E as <-; hush. Qed.
  Lemma form_talks : talks (if stack3 (version_of v) then
     nv_write (item_key (o_key o));;
     request APP_CNF "bdbSetChannel" [("isPrimary", VInt 1); ("channel", VInt (o_channels o))] [0];;
     request APP_CNF "bdbSetChannel" [("isPrimary", VInt 0); ("channel", VInt 0)] [0];;
     let! started := listen (mk_matcher AREQ ZDO "stateChangeInd" [("state", VInt 9)]) 60000 in
     request APP_CNF "bdbStartCommissioning" [("mode", VInt 4)] [0];;
     await_started started;;
     request APP_CNF "bdbStartCommissioning" [("mode", VInt 2)] [0]
   else
     request SAPI "writeConfiguration" (item_key (o_key o)) [0];;
     nv_write item_tc_link_key) (form v o).
  Proof.
    rewrite stack3_version. unfold nv_write. destruct v.
    - say ltac:(apply w_config). apply talks_request. fixed.
    - say ltac:(apply w_key). say ltac:(apply e_channel). say ltac:(fixed). apply talks_after; [apply talks_mute; hush|intro w]. say ltac:(fixed).
      apply talks_after; [apply talks_mute, await_mute|intros _]. apply talks_request. fixed.
    - say ltac:(apply w_key). say ltac:(apply e_channel). say ltac:(fixed). apply talks_after; [apply talks_mute; hush|intro w]. say ltac:(fixed).
      apply talks_after; [apply talks_mute, await_mute|intros _]. apply talks_request. fixed.
  Qed.
  Lemma initialise_talks : talks (initialise (version_of v) o) (initialisation v o).
  Proof.
    unfold initialise, nv_write, soft_reset, initialisation. cbn [In_order].
    say ltac:(fixed). say ltac:(fixed). say ltac:(fixed). say ltac:(fixed). say ltac:(apply w_distribute). say ltac:(fixed).
    say ltac:(apply w_channels). say ltac:(apply w_pan). say ltac:(apply w_ext). apply talks_seq; [apply form_talks|intros _].
    say ltac:(apply i_mark). apply talks_then; [apply talks_request, w_mark|intros _; apply talks_mute; hush].
  Qed.
  Lemma configure_talks b c : talks (configure (version_of v) o b c) (Then (compare v) (Maybe (initialisation v o))).
  Proof.
    unfold configure. destruct (b && negb c).
    - intros tr f R. apply runs_raise_inv in R as [-> R]. exists []. split; [apply Forall2_nil|]. assert (B : begins (Then (compare v) (Maybe (initialisation v o))) []) by (destruct (says_some (Then (compare v) (Maybe (initialisation v o)))) as [w Hw]; exists w; exact Hw).
      destruct R as [->| ->]; exact B.
    - apply talks_seq; [apply needs_talks|]. intros [|].
      + eapply talks_within; [apply talks_then; [apply initialise_talks|intros _; apply talks_mute; hush]|]. intros w H. right. exact H.
      + eapply talks_within; [apply talks_mute; hush|]. intros w H. left. exact H.
  Qed.
  Lemma either_same {A} (p : prog A) s : talks p s -> talks p (Maybe s).
  Proof. intro H. eapply talks_within; [exact H|]. intros w K. right. exact K. Qed.
  Lemma either_none {A} (p : prog A) s : only mute p -> talks p (Maybe s).
  Proof. intro H. eapply talks_within; [apply talks_mute, H|]. intros w K. left. exact K. Qed.
  Lemma boot_talks : talks boot (Then Device_info (Maybe (Say (wire 1 5 64 [100; 0])))).
  Proof.
    unfold boot. apply talks_seq; [apply talks_request; fixed|intro r]. apply talks_after; [apply talks_mute; hush|intro st]. destruct (value_eqb _ _); [apply either_none; hush|].
    apply either_same. apply talks_after; [apply talks_mute; hush|intro w]. apply talks_then; [apply talks_request; fixed|intros _]. apply talks_mute. apply only_seq; [hush|intro; hush].
  Qed.
  Definition described (e : endpoint) (x : Z * Z * Z * list Z * list Z) : Prop := talks (request AF "register" (ep_vars e) [0]) (Register x).
  Lemma all_described : Forall2 described endpoints descriptors.
  Proof. unfold endpoints, descriptors. repeat (apply Forall2_cons; [unfold described; apply talks_request; fixed|]). apply Forall2_nil. Qed.
  Lemma in_order_cons a l : within (Then a (In_order l)) (In_order (a :: l)).
  Proof. destruct l; [apply then_nothing|apply within_refl]. Qed.
  Lemma loop_talks active es xs : Forall2 described es xs -> talks (register_loop active es) (In_order (map (fun x => Maybe (Register x)) xs)).
  Proof.
    induction 1 as [|e x es xs D F IH]; cbn [register_loop map]; [apply talks_mute; hush|]. apply talks_after; [apply talks_mute; hush|intro l].
    eapply talks_within; [apply talks_seq; [|intros _; exact IH]|apply in_order_cons]. destruct (is_in _ _); [apply either_none; hush|].
    apply either_same, talks_then; [exact D|intros _; apply talks_mute; hush].
  Qed.
  Lemma register_talks : talks register_endpoints (Then (Say (wire 1 5 5 [0; 0; 0; 0])) (In_order (map (fun x => Maybe (Register x)) descriptors))).
  Proof.
    unfold register_endpoints. apply talks_after; [apply talks_mute; hush|intro w]. apply talks_seq; [apply talks_spawn; fixed|intros _].
    apply talks_after; [apply talks_mute; hush|intro a]. apply loop_talks, all_described.
  Qed.
  Lemma group_talks : talks (add_to_group 242 g) (Then (Say (wire 1 5 74 ([242] ++ le2 g))) (Maybe (Say (wire 1 5 75 ([242] ++ le2 g ++ [0]))))).
  Proof.
    unfold add_to_group. apply talks_seq; [apply talks_request, e_find|intro r]. apply talks_after; [apply talks_mute; hush|intro st]. destruct (value_eqb _ _); [|apply either_none; hush].
    apply either_same, talks_then; [apply talks_request, e_add|intros _; apply talks_mute; hush].
  Qed.
  Lemma then_assoc a b c : within (Then (Then a b) c) (Then a (Then b c)).
  Proof. intros w (x & y & -> & (x1 & x2 & -> & U & V) & Y). exists x1, (x2 ++ y). split; [symmetry; apply app_assoc|]. split; [exact U|]. exists x2, y. auto. Qed.
  Lemma assoc_then a b c : within (Then a (Then b c)) (Then (Then a b) c).
  Proof. intros w (x & y & -> & U & (y1 & y2 & -> & V & Y)). exists (x ++ y1), y2. split; [apply app_assoc|]. split; [exists x, y1; auto|exact Y]. Qed.
  Lemma start_talks b : talks (start_znp (version_of v) o g b) (starting v o g).
  Proof.
    rewrite start_eq. unfold starting. cbn [In_order]. apply talks_seq; [apply has_talks|intro c].
    eapply talks_within; [|apply then_assoc]. apply talks_seq; [apply configure_talks|intro r]. unfold rest, settle. cbn [In_order].
    eapply talks_within.
    - apply talks_seq; [apply boot_talks|intros _]. apply talks_seq; [apply register_talks|intros _]. apply talks_seq; [apply group_talks|intros _].
      instantiate (1 := Maybe (Write 132 (le4 (o_channels o)))). apply talks_then; [|intros _; apply talks_mute; hush].
      destruct r; [apply either_none; hush| |apply either_none; hush]. apply either_same, talks_then; [apply talks_request, w_channels|intros _; apply talks_mute; hush].
    - remember (In_order (map (fun x => Maybe (Register x)) descriptors)) as R eqn:E. clear E.
      eapply within_trans; [apply within_then; [apply within_refl|]; eapply within_trans; [apply assoc_then|apply within_refl]|].
      eapply within_trans; [apply assoc_then|]. apply within_then; [|apply within_refl].
      eapply within_trans; [apply then_assoc|]. apply within_then; [apply within_refl|]. apply within_then; [apply within_refl|].
      eapply within_trans; [apply then_assoc|]. apply within_refl.
  Qed.
End Start.
Lemma form_says v c : valid_config c -> talks (form_network (version_of v) c) (forming v (network_options c)).
Proof.
  intro V. apply options_valid in V as [W _]. unfold form_network, forming. apply talks_seq; [apply start_talks; [exact W|lia]|intro r].
  apply talks_then; [|intros _; apply talks_mute, only_ret]. unfold switch_led.
  destruct v; cbn [version_of]; [change (0 =? zStack3x0) with false|change (1 =? zStack3x0) with true|change (2 =? zStack3x0) with false]; first [apply talks_mute, only_ret|apply talks_spawn; fixed].
Qed.
Lemma app_says auto c devs tr f : valid_config c -> runs (app_startup auto c devs) tr f -> exists v fs, uttered tr fs /\
  match f with Returned rd => rd_product rd = version_of v /\ says (beginning auto v (network_options c)) fs | _ => begins (beginning auto v (network_options c)) fs end.
Proof.
  intros V R. unfold app_startup in R.
  assert (Tp : talks ping (Say (wire 1 1 1 []))).
  { unfold ping. eapply talks_within.
    - eapply (talks_attempt (fun e => match e with CommandError _ => true | _ => false end)); [apply speaks_request; fixed|].
      intros e q E. split; [destruct e; try discriminate E; reflexivity|]. instantiate (1 := Nothing). destruct e; try discriminate E; injection E as <-; apply talks_mute, only_raise.
    - intros w [H|H]; [exact H|apply then_nothing, H]. }
  assert (Tv : talks ask_version (Say (wire 1 1 2 []))) by (unfold ask_version; apply talks_request; fixed).
  assert (early : forall fs, begins (Then (Say (wire 1 1 1 [])) (Say (wire 1 1 2 []))) fs -> begins (beginning auto Stack12 (network_options c)) fs).
  { intros fs H. unfold beginning. cbn [In_order]. eapply begins_within; [apply then_assoc|]. apply begins_left, H. }
  apply runs_seq in R as [(t1 & t2 & x & -> & R1 & R)|[[R ->]|(e & R & ->)]].
  2,3: destruct (Tp _ _ R) as (fs & U & M); exists Stack12, fs; split; [exact U|]; apply early, begins_left, M.
  destruct (Tp _ _ R1) as (f1 & U1 & M1).
  apply runs_seq in R as [(t3 & t4 & y & -> & R3 & R)|[[R ->]|(e & R & ->)]].
  2,3: destruct (Tv _ _ R) as (fs & U & M); exists Stack12, (f1 ++ fs); split; [apply uttered_app; assumption|]; apply early, begins_right; assumption.
  destruct (Tv _ _ R3) as (f3 & U3 & M3).
  assert (E12 : says (Then (Say (wire 1 1 1 [])) (Say (wire 1 1 2 []))) (f1 ++ f3)) by (exists f1, f3; auto).
  apply runs_seq in R as [(t5 & t6 & p & -> & R5 & R)|[[R ->]|(e & R & ->)]].
  2,3: apply runs_field in R as [-> _]; exists Stack12, (f1 ++ f3); split; [rewrite app_nil_r; apply uttered_app; assumption|]; apply early, begins_says, E12.
  apply runs_field in R5 as [-> _]. cbn [app] in *.
  apply runs_seq in R as [(t7 & t8 & z & -> & R7 & R)|[[R ->]|(e & R & ->)]].
  2,3: unfold check_product in R; exists Stack12, (f1 ++ f3); assert (tr0 : t6 = []) by (destruct p; try (apply runs_raise_inv in R as [? _]; assumption); destruct (_ || _ || _); [apply runs_ret_inv in R as [? _]; assumption|apply runs_raise_inv in R as [? _]; assumption]);
    rewrite tr0, app_nil_r; split; [apply uttered_app; assumption|]; apply early, begins_says, E12.
  assert (Hz : t7 = [] /\ exists v, z = version_of v).
  { unfold check_product in R7. destruct p as [q| | | |]; try (apply runs_raise_inv in R7 as [_ [E|E]]; discriminate E).
    destruct (q =? zStack12) eqn:E1; [|destruct (q =? zStack3x0) eqn:E2; [|destruct (q =? zStack30x) eqn:E3]]; cbn [orb] in R7;
      first [apply runs_ret_inv in R7 as [-> [E|E]]; [discriminate E|injection E as <-]|apply runs_raise_inv in R7 as [_ [E|E]]; discriminate E].
    - split; [reflexivity|]. exists Stack12. apply Z.eqb_eq in E1. exact E1.
    - split; [reflexivity|]. exists Stack3x0. apply Z.eqb_eq in E2. exact E2.
    - split; [reflexivity|]. exists Stack30x. apply Z.eqb_eq in E3. exact E3. }
  destruct Hz as (-> & v & ->). cbn [app] in *.
  set (q := let! status := (if auto then let! r := form_network (version_of v) c in DRet (Some r) else DRet None) in _) in R.
  assert (Tq : talks q (Then (if auto then forming v (network_options c) else Nothing) Device_info)).
  { subst q. apply talks_seq.
    - destruct auto; [apply talks_then; [apply form_says, V|intro; apply talks_mute, only_ret]|apply talks_mute, only_ret].
    - intro st. unfold coordinator. apply talks_then.
      + apply talks_then; [apply talks_request; fixed|intro d]. apply talks_mute. apply only_seq; [apply only_field|intro i]. apply only_seq; [apply only_field|intro n].
        destruct i; try apply only_raise. destruct n; first [apply only_ret|apply only_raise].
      + intros [[i n] dv]. apply talks_mute, only_ret. }
  exists v. destruct (Tq _ _ R) as (fs & U & M). exists ((f1 ++ f3) ++ fs). split; [rewrite app_assoc; apply uttered_app; [apply uttered_app; assumption|exact U]|].
  unfold beginning. cbn [In_order]. destruct f as [rd|e|].
  - split.
    + subst q. apply runs_seq_ret in R as (u1 & u2 & st & -> & _ & R). apply runs_seq_ret in R as (u3 & u4 & [[i n] dv] & -> & _ & R). apply runs_ret_inv in R as [_ [E|E]]; [discriminate E|]. injection E as ->. reflexivity.
    + apply then_assoc. exists (f1 ++ f3), fs. auto.
  - eapply begins_within; [apply then_assoc|]. apply begins_right; assumption.
  - eapply begins_within; [apply then_assoc|]. apply begins_right; assumption.
Qed.
Lemma puts_once a b c : puts a b -> puts a c -> b = c.
Proof.
  destruct a; cbn [puts]; intros H K; try contradiction; destruct H as (o1 & F1 & f1 & G1 & B1), K as (o2 & F2 & f2 & G2 & B2); congruence.
Qed.
Lemma uttered_once tr fs gs : uttered tr fs -> uttered tr gs -> fs = gs.
Proof.
  unfold uttered. intro H. revert gs. induction H as [|a b l fs P H IH]; intros gs K; inversion K; subst; [reflexivity|]. f_equal; [eapply puts_once; eassumption|apply IH; assumption].
Qed.
Lemma Forall2_nth_error {A B} (P : A -> B -> Prop) l m (H : Forall2 P l m) n a : nth_error l n = Some a -> exists b, nth_error m n = Some b /\ P a b.
Proof. revert n. induction H as [|x y l m K H IH]; intros [|n] E; cbn [nth_error] in *; try discriminate E; [injection E as <-; eauto|apply IH, E]. Qed.
