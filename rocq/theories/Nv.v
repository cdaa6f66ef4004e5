(** * Nv: configuration items (zigpy_cc/zigbee/nv_items.py, zigbee/common.py NvItemsIds) and network options
    (zigpy_cc/types.py NetworkOptions). *)
From Verif Require Import Base Types Buffalo.

(** common.py:4-137 NvItemsIds, those that are used *)
Definition STARTUP_OPTION := 3.
Definition EXTENDED_PAN_ID := 45.
Definition PRECFGKEY := 98.
Definition PRECFGKEYS_ENABLE := 99.
Definition PANID := 131.
Definition CHANLIST := 132.
Definition LOGICAL_TYPE := 135.
Definition ZDO_DIRECT_CB := 143.
Definition LEGACY_TCLK_TABLE_START := 257.
Definition ZNP_HAS_CONFIGURED_ZSTACK1 := 3840.
Definition ZNP_HAS_CONFIGURED_ZSTACK3 := 96.

(** types.py:101-118 NetworkOptions.  [o_key] is a zigpy KeyData (list of bytes), [o_pan] a PanId (16 bit),
    [o_ext] an ExtendedPanId (list of bytes, serialised in this order), [o_channels] a Channels bitmap
    (32 bit). *)
Record options := mk_options {
  o_distribute : bool; o_key : list Z; o_pan : Z; o_ext : list Z; o_channels : Z }.

(** The network section of the configuration as zigpy's schema returns it: absent values are None. *)
Record nwk_config := mk_config {
  cf_key : option (list Z); cf_pan : option Z; cf_ext : option (list Z); cf_channels : option Z }.

(** Python's [x or d] for an optional int (0 is false) and an optional list (the empty list is false) *)
Definition or_int (x : option Z) (d : Z) : Z :=
  match x with Some z => if z =? 0 then d else z | None => d end.
Definition or_list (x : option (list Z)) (d : list Z) : list Z :=
  match x with Some (a :: l) => a :: l | _ => d end.

(** types.py:107-118 NetworkOptions.__init__; Channels.from_channel_list([11]) is the mask 1 << 11 *)
Definition network_options (c : nwk_config) : options :=
  mk_options false
    (or_list (cf_key c) [1; 3; 5; 7; 9; 11; 13; 15; 0; 2; 4; 6; 8; 10; 12; 13])
    (or_int (cf_pan c) 6754)
    (or_list (cf_ext c) [221; 221; 221; 221; 221; 221; 221; 221])
    (or_int (cf_channels c) (Z.shiftl 1 11)).

(** nv_items.py:11-13, 22-24 *)
Definition configured_id (version : Z) : Z :=
  if version =? zStack12 then ZNP_HAS_CONFIGURED_ZSTACK1 else ZNP_HAS_CONFIGURED_ZSTACK3.
(** nv_items.py:9-17 *)
Definition item_configured_init (version : Z) : payload :=
  [("id", VInt (configured_id version)); ("len", VInt 1); ("initlen", VInt 1); ("initvalue", VBytes [0])].
(** nv_items.py:20-28 *)
Definition item_configured (version : Z) : payload :=
  [("id", VInt (configured_id version)); ("offset", VInt 0); ("len", VInt 1); ("value", VBytes [85])].
(** nv_items.py:31-37 *)
Definition item_pan (pan : Z) : payload :=
  [("id", VInt PANID); ("len", VInt 2); ("offset", VInt 0);
   ("value", VBytes [Z.land pan 255; Z.land (Z.shiftr pan 8) 255])].
(** nv_items.py:40-46; ExtendedPanId.serialize concatenates its bytes *)
Definition item_ext (ext : list Z) : payload :=
  [("id", VInt EXTENDED_PAN_ID); ("len", VInt 8); ("offset", VInt 0); ("value", VBytes ext)].
(** nv_items.py:49-55; Channels.serialize is 4 bytes little endian *)
Definition item_channels (mask : Z) : payload :=
  [("id", VInt CHANLIST); ("len", VInt 4); ("offset", VInt 0);
   ("value", VBytes [Z.land mask 255; Z.land (Z.shiftr mask 8) 255; Z.land (Z.shiftr mask 16) 255; Z.land (Z.shiftr mask 24) 255])].
(** nv_items.py:58-64 *)
Definition item_distribute (distribute : bool) : payload :=
  [("id", VInt PRECFGKEYS_ENABLE); ("len", VInt 1); ("offset", VInt 0); ("value", VBytes [if distribute then 1 else 0])].
(** nv_items.py:67-75 *)
Definition item_key (key : list Z) : payload :=
  [("id", VInt PRECFGKEY); ("configid", VInt PRECFGKEY); ("len", VInt 16); ("offset", VInt 0); ("value", VBytes key)].
(** nv_items.py:78-84 *)
Definition item_startup (value : Z) : payload :=
  [("id", VInt STARTUP_OPTION); ("len", VInt 1); ("offset", VInt 0); ("value", VBytes [value])].
(** nv_items.py:87-93 *)
Definition item_logical (value : Z) : payload :=
  [("id", VInt LOGICAL_TYPE); ("len", VInt 1); ("offset", VInt 0); ("value", VBytes [value])].
(** nv_items.py:96-102 *)
Definition item_direct_cb : payload :=
  [("id", VInt ZDO_DIRECT_CB); ("len", VInt 1); ("offset", VInt 0); ("value", VBytes [1])].
(** nv_items.py:105-148 *)
Definition item_tc_link_key : payload :=
  [("id", VInt LEGACY_TCLK_TABLE_START); ("offset", VInt 0); ("len", VInt 32);
   ("value", VBytes [255; 255; 255; 255; 255; 255; 255; 255; 90; 105; 103; 66; 101; 101; 65; 108; 108; 105; 97; 110; 99; 101; 48; 57;
                     0; 0; 0; 0; 0; 0; 0; 0])].
