(** * SpecSpeech: everything that a start-up may put on the wire, byte by byte and in order *)
From Verif Require Import Base Types Buffalo Zpi Api Uart SpecWire SpecCodec SpecMachine Nv StartZnp SpecStart.

(** ** Sequences of frames *)
Inductive script := Nothing | Say (bs : list Z) | Then (a b : script) | Either (a b : script).
Definition Maybe (a : script) : script := Either Nothing a.
Fixpoint In_order (l : list script) : script := match l with [] => Nothing | [a] => a | a :: r => Then a (In_order r) end.
Fixpoint says (s : script) (w : list (list Z)) : Prop :=
  match s with
  | Nothing => w = []
  | Say bs => w = [bs]
  | Then a b => exists u v, w = u ++ v /\ says a u /\ says b v
  | Either a b => says a w \/ says b w
  end.
(** a beginning of such a sequence *)
Definition begins (s : script) (w : list (list Z)) : Prop := exists r, says s (w ++ r).

(** ** What an execution puts on the wire: the frames of its requests, awaited or not *)
Definition puts (a : act) (bs : list Z) : Prop :=
  match a with
  | ARequest sub cmd d _ _ | ASpawn sub cmd d => exists o, from_command sub cmd d = Ok o /\ frame_bytes o bs
  | _ => False
  end.
Definition speaking (a : act) : bool := match a with ARequest _ _ _ _ _ | ASpawn _ _ _ => true | _ => false end.
Definition uttered (tr : list act) (fs : list (list Z)) : Prop := Forall2 puts (filter speaking tr) fs.

(** ** The frames *)
Definition Read (i : Z) : script := Say (wire 1 1 8 (le2 i ++ [0])).
Definition Write (i : Z) (b : list Z) : script := Say (wire 1 1 9 (le2 i ++ [0; Z.of_nat (length b)] ++ b)).
Definition Soft_reset : script := Say (wire 2 1 0 [1]).
Definition Device_info : script := Say (wire 1 7 0 []).
Definition read_key (v : firmware) : script := match v with Stack3x0 => Read 98 | _ => Say (wire 1 6 4 [98]) end.

(** endpoint, profile, device, clusters in, clusters out *)
Definition descriptors : list (Z * Z * Z * list Z * list Z) :=
  [(1, 0x0104, 5, [], []); (2, 0x0101, 5, [], []); (3, 0x0106, 5, [], []); (4, 0x0107, 5, [], []); (5, 0x0108, 5, [], []);
   (6, 0x0109, 5, [], []); (8, 0x0104, 5, [], []); (11, 0x0104, 0x0400, [], [0x0500; 0x0502]); (110, 0x0104, 5, [], []);
   (12, 0xC05E, 5, [], []); (13, 0x0104, 5, [0x0019], []); (47, 0x0104, 5, [], []); (242, 0xA1E0, 5, [], [])].
(** device version 0, no latency required *)
Definition Register (x : Z * Z * Z * list Z * list Z) : script :=
  let '(e, p, d, i, o) := x in
  Say (wire 1 4 0 ([e] ++ le2 p ++ le2 d ++ [0; 0] ++ [Z.of_nat (length i)] ++ concat (map le2 i) ++ [Z.of_nat (length o)] ++ concat (map le2 o))).

(** the stored settings are read one by one until one differs; Z-Stack 3 then looks whether the PAN id is FFFF *)
Definition compare_pan (v : firmware) : script :=
  Then (Read 131) (Then (Maybe (Read 45)) (match v with Stack12 => Nothing | _ => Maybe (Read 131) end)).
Definition compare (v : firmware) : script :=
  Then (Read (marker v)) (Maybe (Then (Read 132) (Maybe (Then (Read 99) (Maybe (Then (read_key v) (Maybe (compare_pan v)))))))).
Definition form (v : firmware) (o : options) : script :=
  match v with
  | Stack12 => Then (Say (wire 1 6 5 ([98; 16] ++ o_key o)))
                    (Write 257 ([255; 255; 255; 255; 255; 255; 255; 255] ++ (* ZigBeeAlliance09 *)
                                [90; 105; 103; 66; 101; 101; 65; 108; 108; 105; 97; 110; 99; 101; 48; 57] ++ [0; 0; 0; 0; 0; 0; 0; 0]))
  | _ => In_order [Write 98 (o_key o); Say (wire 1 15 8 ([1] ++ le4 (o_channels o))); Say (wire 1 15 8 [0; 0; 0; 0; 0]);
                   Say (wire 1 15 5 [4]); Say (wire 1 15 5 [2])]
  end.
Definition initialisation (v : firmware) (o : options) : script :=
  In_order [Soft_reset; Write 3 [2]; Soft_reset; Write 135 [0]; Write 99 (flag (o_distribute o)); Write 143 [1];
            Write 132 (le4 (o_channels o)); Write 131 (le2 (o_pan o)); Write 45 (o_ext o); form v o;
            Say (wire 1 1 7 (le2 (marker v) ++ [1; 0; 1; 0])); Write (marker v) set_mark].
Definition settle (group : Z) : script :=
  In_order [Device_info; Maybe (Say (wire 1 5 64 [100; 0])); Say (wire 1 5 5 [0; 0; 0; 0]);
            In_order (map (fun x => Maybe (Register x)) descriptors);
            Say (wire 1 5 74 ([242] ++ le2 group)); Maybe (Say (wire 1 5 75 ([242] ++ le2 group ++ [0])))].
Definition starting (v : firmware) (o : options) (group : Z) : script :=
  In_order [Read (marker v); compare v; Maybe (initialisation v o); settle group; Maybe (Write 132 (le4 (o_channels o)))].
(** the light is switched off at the end, which Z-Stack 3.x.0 does not have *)
Definition forming (v : firmware) (o : options) : script :=
  Then (starting v o 2948) (match v with Stack3x0 => Nothing | _ => Say (wire 1 7 10 [3; 0]) end).
Definition beginning (auto : bool) (v : firmware) (o : options) : script :=
  In_order [Say (wire 1 1 1 []); Say (wire 1 1 2 []); if auto then forming v o else Nothing; Device_info].
