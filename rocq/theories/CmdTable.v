(** * CmdTable: zigpy_cc/definition.py:14-2624, generated by tools/gen_definition.py.
    One entry per command, in source order; the comment gives the source line. *)
From Verif Require Import Base Types.

(** definition.py:15-417 *)
Definition def_SYS : list cmd := [
  (* 16 *) mk_cmd "resetReq" 0 AREQ
    (Some [("type", UINT8)])
    None;
  (* 22 *) mk_cmd "ping" 1 SREQ
    (Some [])
    (Some [("capabilities", UINT16)]);
  (* 29 *) mk_cmd "version" 2 SREQ
    (Some [])
    (Some [("transportrev", UINT8); ("product", UINT8); ("majorrel", UINT8); ("minorrel", UINT8); ("maintrel", UINT8); ("revision", UINT32)]);
  (* 43 *) mk_cmd "setExtAddr" 3 SREQ
    (Some [("extaddress", IEEEADDR)])
    (Some [("status", UINT8)]);
  (* 50 *) mk_cmd "getExtAddr" 4 SREQ
    (Some [])
    (Some [("extaddress", IEEEADDR)]);
  (* 57 *) mk_cmd "ramRead" 5 SREQ
    (Some [("address", UINT16); ("len", UINT8)])
    (Some [("status", UINT8); ("len", UINT8); ("value", BUFFER)]);
  (* 71 *) mk_cmd "ramWrite" 6 SREQ
    (Some [("address", UINT16); ("len", UINT8); ("value", BUFFER)])
    (Some [("status", UINT8)]);
  (* 82 *) mk_cmd "osalNvItemInit" 7 SREQ
    (Some [("id", UINT16); ("len", UINT16); ("initlen", UINT8); ("initvalue", BUFFER)])
    (Some [("status", UINT8)]);
  (* 94 *) mk_cmd "osalNvRead" 8 SREQ
    (Some [("id", UINT16); ("offset", UINT8)])
    (Some [("status", UINT8); ("len", UINT8); ("value", BUFFER)]);
  (* 108 *) mk_cmd "osalNvWrite" 9 SREQ
    (Some [("id", UINT16); ("offset", UINT8); ("len", UINT8); ("value", BUFFER)])
    (Some [("status", UINT8)]);
  (* 120 *) mk_cmd "osalStartTimer" 10 SREQ
    (Some [("id", UINT8); ("timeout", UINT16)])
    (Some [("status", UINT8)]);
  (* 130 *) mk_cmd "osalStopTimer" 11 SREQ
    (Some [("id", UINT8)])
    (Some [("status", UINT8)]);
  (* 137 *) mk_cmd "random" 12 SREQ
    (Some [])
    (Some [("value", UINT16)]);
  (* 144 *) mk_cmd "adcRead" 13 SREQ
    (Some [("channel", UINT8); ("resolution", UINT8)])
    (Some [("value", UINT16)]);
  (* 154 *) mk_cmd "gpio" 14 SREQ
    (Some [("operation", UINT8); ("value", UINT8)])
    (Some [("value", UINT8)]);
  (* 164 *) mk_cmd "stackTune" 15 SREQ
    (Some [("operation", UINT8); ("value", INT8)])
    (Some [("value", UINT8)]);
  (* 174 *) mk_cmd "setTime" 16 SREQ
    (Some [("utc", UINT32); ("hour", UINT8); ("minute", UINT8); ("second", UINT8); ("month", UINT8); ("day", UINT8); ("year", UINT16)])
    (Some [("status", UINT8)]);
  (* 189 *) mk_cmd "getTime" 17 SREQ
    (Some [])
    (Some [("utc", UINT32); ("hour", UINT8); ("minute", UINT8); ("second", UINT8); ("month", UINT8); ("day", UINT8); ("year", UINT16)]);
  (* 204 *) mk_cmd "osalNvDelete" 18 SREQ
    (Some [("id", UINT16); ("len", UINT16)])
    (Some [("status", UINT8)]);
  (* 214 *) mk_cmd "osalNvLength" 19 SREQ
    (Some [("id", UINT16)])
    (Some [("length", UINT16)]);
  (* 221 *) mk_cmd "setTxPower" 20 SREQ
    (Some [("level", UINT8)])
    (Some [("txpower", UINT8)]);
  (* 228 *) mk_cmd "jammerParameters" 21 SREQ
    (Some [("jmrcntievents", UINT16); ("jmrhinoiselvl", UINT8); ("jmrdetectperiod", UINT32)])
    (Some [("status", UINT8)]);
  (* 239 *) mk_cmd "snifferParameters" 22 SREQ
    (Some [("param", UINT8)])
    (Some [("status", UINT8)]);
  (* 246 *) mk_cmd "zdiagsInitStats" 23 SREQ
    (Some [])
    (Some [("status", UINT8)]);
  (* 253 *) mk_cmd "zdiagsClearStats" 24 SREQ
    (Some [("clearnv", UINT8)])
    (Some [("sysclock", UINT32)]);
  (* 260 *) mk_cmd "zdiagsGetStats" 25 SREQ
    (Some [("attributeid", UINT16)])
    (Some [("attributevalue", UINT32)]);
  (* 267 *) mk_cmd "zdiagsRestoreStatsNv" 26 SREQ
    (Some [])
    (Some [("status", UINT8)]);
  (* 274 *) mk_cmd "zdiagsSaveStatsToNv" 27 SREQ
    (Some [])
    (Some [("sysclock", UINT32)]);
  (* 281 *) mk_cmd "osalNvReadExt" 28 SREQ
    (Some [("id", UINT16); ("offset", UINT16)])
    (Some [("status", UINT8); ("len", UINT8); ("value", BUFFER)]);
  (* 295 *) mk_cmd "osalNvWriteExt" 29 SREQ
    (Some [("id", UINT16); ("offset", UINT16); ("len", UINT16); ("value", BUFFER)])
    (Some [("status", UINT8)]);
  (* 307 *) mk_cmd "nvCreate" 48 SREQ
    (Some [("sysid", UINT8); ("itemid", UINT16); ("subid", UINT16); ("len", UINT32)])
    (Some [("status", UINT8)]);
  (* 319 *) mk_cmd "nvDelete" 49 SREQ
    (Some [("sysid", UINT8); ("itemid", UINT16); ("subid", UINT16)])
    (Some [("status", UINT8)]);
  (* 330 *) mk_cmd "nvLength" 50 SREQ
    (Some [("sysid", UINT8); ("itemid", UINT16); ("subid", UINT16)])
    (Some [("len", UINT8)]);
  (* 341 *) mk_cmd "nvRead" 51 SREQ
    (Some [("sysid", UINT8); ("itemid", UINT16); ("subid", UINT16); ("offset", UINT16); ("len", UINT8)])
    (Some [("status", UINT8); ("len", UINT8); ("value", BUFFER)]);
  (* 358 *) mk_cmd "nvWrite" 52 SREQ
    (Some [("sysid", UINT8); ("itemid", UINT16); ("subid", UINT16); ("offset", UINT16); ("len", UINT8); ("value", BUFFER)])
    (Some [("status", UINT8)]);
  (* 372 *) mk_cmd "nvUpdate" 53 SREQ
    (Some [("sysid", UINT8); ("itemid", UINT16); ("subid", UINT16); ("len", UINT8); ("value", BUFFER)])
    (Some [("status", UINT8)]);
  (* 385 *) mk_cmd "nvCompact" 54 SREQ
    (Some [("threshold", UINT16)])
    (Some [("status", UINT8)]);
  (* 392 *) mk_cmd "resetInd" 128 AREQ
    (Some [("reason", UINT8); ("transportrev", UINT8); ("productid", UINT8); ("majorrel", UINT8); ("minorrel", UINT8); ("hwrev", UINT8)])
    None;
  (* 405 *) mk_cmd "osalTimerExpired" 129 AREQ
    (Some [("id", UINT8)])
    None;
  (* 411 *) mk_cmd "jammerInd" 130 AREQ
    (Some [("jammerind", UINT8)])
    None
].

(** definition.py:418-836 *)
Definition def_MAC : list cmd := [
  (* 419 *) mk_cmd "resetReq" 1 SREQ
    (Some [("setdefault", UINT8)])
    (Some [("status", UINT8)]);
  (* 426 *) mk_cmd "init" 2 SREQ
    (Some [])
    (Some [("status", UINT8)]);
  (* 433 *) mk_cmd "startReq" 3 SREQ
    (Some [("starttime", UINT32); ("panid", UINT16); ("logicalchannel", UINT8); ("channelpage", UINT8); ("beaconorder", UINT8); ("superframeorder", UINT8); ("pancoordinator", UINT8); ("batterylifeext", UINT8); ("coordrealignment", UINT8); ("realignkeysource", BUFFER); ("realignsecuritylevel", UINT8); ("realignkeyidmode", UINT8); ("realignkeyindex", UINT8); ("beaconkeysource", BUFFER); ("beaconsecuritylevel", UINT8); ("beaconkeyidmode", UINT8); ("beaconkeyindex", UINT8)])
    (Some [("status", UINT8)]);
  (* 458 *) mk_cmd "syncReq" 4 SREQ
    (Some [("logicalchannel", UINT8); ("channelpage", UINT8); ("trackbeacon", UINT8)])
    (Some [("status", UINT8)]);
  (* 469 *) mk_cmd "dataReq" 5 SREQ
    (Some [("destaddressmode", UINT8); ("destaddress", IEEEADDR); ("destpanid", UINT16); ("srcaddressmode", UINT8); ("handle", UINT8); ("txoption", UINT8); ("logicalchannel", UINT8); ("power", UINT8); ("keysource", BUFFER); ("securitylevel", UINT8); ("keyidmode", UINT8); ("keyindex", UINT8); ("msdulength", UINT8); ("msdu", BUFFER)])
    (Some [("status", UINT8)]);
  (* 491 *) mk_cmd "associateReq" 6 SREQ
    (Some [("logicalchannel", UINT8); ("channelpage", UINT8); ("coordaddressmode", UINT8); ("coordaddress", IEEEADDR); ("coordpanid", UINT16); ("capabilityinformation", UINT8); ("keysource", BUFFER); ("securitylevel", UINT8); ("keyidmode", UINT8); ("keyindex", UINT8)])
    (Some [("status", UINT8)]);
  (* 509 *) mk_cmd "disassociateReq" 7 SREQ
    (Some [("deviceaddressmode", UINT8); ("deviceaddress", IEEEADDR); ("devicepanid", UINT16); ("disassociatereason", UINT8); ("txindirect", UINT8); ("keysource", BUFFER); ("securitylevel", UINT8); ("keyidmode", UINT8); ("keyindex", UINT8)])
    (Some [("status", UINT8)]);
  (* 526 *) mk_cmd "getReq" 8 SREQ
    (Some [("attribute", UINT8)])
    (Some [("status", UINT8); ("data", BUFFER16)]);
  (* 536 *) mk_cmd "setReq" 9 SREQ
    (Some [("attribute", UINT8); ("attributevalue", BUFFER)])
    (Some [("status", UINT8)]);
  (* 546 *) mk_cmd "scanReq" 12 SREQ
    (Some [("scanchannels", UINT32); ("scantype", UINT8); ("scanduration", UINT8); ("channelpage", UINT8); ("maxresults", UINT8); ("keysource", BUFFER); ("securitylevel", UINT8); ("keyidmode", UINT8); ("keyindex", UINT8)])
    (Some [("status", UINT8)]);
  (* 563 *) mk_cmd "pollReq" 13 SREQ
    (Some [("coordaddressmode", UINT8); ("coordaddress", IEEEADDR); ("coordpanid", UINT16); ("keysource", BUFFER); ("securitylevel", UINT8); ("keyidmode", UINT8); ("keyindex", UINT8)])
    (Some [("status", UINT8)]);
  (* 578 *) mk_cmd "purgeReq" 14 SREQ
    (Some [("msduhandle", UINT8)])
    (Some [("status", UINT8)]);
  (* 585 *) mk_cmd "setRxGainReq" 15 SREQ
    (Some [("mode", UINT8)])
    (Some [("status", UINT8)]);
  (* 592 *) mk_cmd "securityGetReq" 48 SREQ
    (Some [("attribute", UINT8); ("index1", UINT8); ("index2", UINT8)])
    (Some [("status", UINT8)]);
  (* 603 *) mk_cmd "securitySetReq" 49 SREQ
    (Some [("attribute", UINT8); ("attributevalue", BUFFER)])
    (Some [("status", UINT8)]);
  (* 613 *) mk_cmd "associateRsp" 80 SREQ
    (Some [("extaddr", IEEEADDR); ("assocshortaddress", UINT16); ("assocstatus", UINT8)])
    (Some [("status", UINT8)]);
  (* 624 *) mk_cmd "orphanRsp" 81 SREQ
    (Some [("extaddr", IEEEADDR); ("assocshortaddress", UINT16); ("associatedmember", UINT8)])
    (Some [("status", UINT8)]);
  (* 635 *) mk_cmd "syncLossInd" 128 AREQ
    (Some [("status", UINT8); ("panid", UINT16); ("logicalchannel", UINT8); ("channelpage", UINT8); ("keysource", BUFFER8); ("securitylevel", UINT8); ("keyidmode", UINT8); ("keyindex", UINT8)])
    None;
  (* 650 *) mk_cmd "associateInd" 129 AREQ
    (Some [("deviceextendedaddress", IEEEADDR); ("capabilities", UINT8); ("keysource", BUFFER8); ("securitylevel", UINT8); ("keyidmode", UINT8); ("keyindex", UINT8)])
    None;
  (* 663 *) mk_cmd "associateCnf" 130 AREQ
    (Some [("status", UINT8); ("deviceshortaddress", UINT16); ("keysource", BUFFER8); ("securitylevel", UINT8); ("keyidmode", UINT8); ("keyindex", UINT8)])
    None;
  (* 676 *) mk_cmd "beaconNotifyInd" 131 AREQ
    (Some [("bsn", UINT8); ("timestamp", UINT32); ("coordinatoraddressmode", UINT8); ("coordinatorextendedaddress", IEEEADDR); ("panid", UINT16); ("superframespec", UINT16); ("logicalchannel", UINT8); ("gtspermit", UINT8); ("linkquality", UINT8); ("securityfailure", UINT8); ("keysource", BUFFER8); ("securitylevel", UINT8); ("keyidmode", UINT8); ("keyindex", UINT8); ("pendingaddrspec", UINT8); ("addresslist", BUFFER32); ("sdulength", UINT8); ("nsdu", BUFFER)])
    None;
  (* 704 *) mk_cmd "dataCnf" 132 AREQ
    (Some [("status", UINT8); ("handle", UINT8); ("timestamp", UINT32); ("timestamp2", UINT16)])
    None;
  (* 715 *) mk_cmd "dataInd" 133 AREQ
    (Some [("srcaddrmode", UINT8); ("srcaddr", IEEEADDR); ("dstaddrmode", UINT8); ("dstaddr", IEEEADDR); ("timestamp", UINT32); ("timestamp2", UINT16); ("srcpanid", UINT16); ("dstpanid", UINT16); ("linkquality", UINT8); ("correlation", UINT8); ("rssi", UINT8); ("dsn", UINT8); ("keysource", BUFFER8); ("securitylevel", UINT8); ("keyidmode", UINT8); ("keyindex", UINT8); ("length", UINT8); ("data", BUFFER)])
    None;
  (* 740 *) mk_cmd "disassociateInd" 134 AREQ
    (Some [("extendedaddress", IEEEADDR); ("disassociatereason", UINT8); ("keysource", BUFFER8); ("securitylevel", UINT8); ("keyidmode", UINT8); ("keyindex", UINT8)])
    None;
  (* 753 *) mk_cmd "disassociateCnf" 135 AREQ
    (Some [("status", UINT8); ("deviceaddrmode", UINT8); ("deviceaddr", IEEEADDR); ("devicepanid", UINT16)])
    None;
  (* 764 *) mk_cmd "orphanInd" 138 AREQ
    (Some [("extendedaddr", IEEEADDR); ("keysource", BUFFER8); ("securitylevel", UINT8); ("keyidmode", UINT8); ("keyindex", UINT8)])
    None;
  (* 776 *) mk_cmd "pollCnf" 139 AREQ
    (Some [("status", UINT8)])
    None;
  (* 782 *) mk_cmd "scanCnf" 140 AREQ
    (Some [("status", UINT8); ("ed", UINT8); ("scantype", UINT8); ("channelpage", UINT8); ("unscannedchannellist", UINT32); ("resultlistcount", UINT8); ("resultlistmaxlength", UINT8); ("resultlist", BUFFER)])
    None;
  (* 797 *) mk_cmd "commStatusInd" 141 AREQ
    (Some [("status", UINT8); ("srcaddrmode", UINT8); ("srcaddr", IEEEADDR); ("dstaddrmode", UINT8); ("dstaddr", IEEEADDR); ("devicepanid", UINT16); ("reason", UINT8); ("keysource", BUFFER8); ("securitylevel", UINT8); ("keyidmode", UINT8); ("keyindex", UINT8)])
    None;
  (* 815 *) mk_cmd "startCnf" 142 AREQ
    (Some [("status", UINT8)])
    None;
  (* 821 *) mk_cmd "rxEnableCnf" 143 AREQ
    (Some [("status", UINT8)])
    None;
  (* 827 *) mk_cmd "purgeCnf" 144 AREQ
    (Some [("status", UINT8); ("handle", UINT8)])
    None
].

(** definition.py:837-1037 *)
Definition def_AF : list cmd := [
  (* 838 *) mk_cmd "register" 0 SREQ
    (Some [("endpoint", UINT8); ("appprofid", UINT16); ("appdeviceid", UINT16); ("appdevver", UINT8); ("latencyreq", UINT8); ("appnuminclusters", UINT8); ("appinclusterlist", LIST_UINT16); ("appnumoutclusters", UINT8); ("appoutclusterlist", LIST_UINT16)])
    (Some [("status", UINT8)]);
  (* 855 *) mk_cmd "dataRequest" 1 SREQ
    (Some [("dstaddr", UINT16); ("destendpoint", UINT8); ("srcendpoint", UINT8); ("clusterid", UINT16); ("transid", UINT8); ("options", UINT8); ("radius", UINT8); ("len", UINT8); ("data", BUFFER)])
    (Some [("status", UINT8)]);
  (* 872 *) mk_cmd "dataRequestExt" 2 SREQ
    (Some [("dstaddrmode", UINT8); ("dstaddr", IEEEADDR); ("destendpoint", UINT8); ("dstpanid", UINT16); ("srcendpoint", UINT8); ("clusterid", UINT16); ("transid", UINT8); ("options", UINT8); ("radius", UINT8); ("len", UINT16); ("data", BUFFER)])
    (Some [("status", UINT8)]);
  (* 891 *) mk_cmd "dataRequestSrcRtg" 3 SREQ
    (Some [("dstaddr", UINT16); ("destendpoint", UINT8); ("srcendpoint", UINT8); ("clusterid", UINT16); ("transid", UINT8); ("options", UINT8); ("radius", UINT8); ("relaycount", UINT8); ("relaylist", LIST_UINT16); ("len", UINT8); ("data", BUFFER)])
    (Some [("status", UINT8)]);
  (* 910 *) mk_cmd "delete" 4 SREQ
    (Some [("endpoint", UINT8)])
    (Some [("status", UINT8)]);
  (* 917 *) mk_cmd "interPanCtl" 16 SREQ
    (Some [("cmd", UINT8); ("data", BUFFER)])
    (Some [("status", UINT8)]);
  (* 927 *) mk_cmd "dataStore" 17 SREQ
    (Some [("index", UINT16); ("length", UINT8); ("data", BUFFER)])
    (Some [("status", UINT8)]);
  (* 938 *) mk_cmd "dataRetrieve" 18 SREQ
    (Some [("timestamp", UINT32); ("index", UINT16); ("length", UINT8)])
    (Some [("status", UINT8); ("length", UINT8); ("data", BUFFER)]);
  (* 953 *) mk_cmd "apsfConfigSet" 19 SREQ
    (Some [("endpoint", UINT8); ("framedelay", UINT8); ("windowsize", UINT8)])
    (Some [("status", UINT8)]);
  (* 964 *) mk_cmd "apsfConfigGet" 20 SREQ
    (Some [("endpoint", UINT8)])
    (Some [("framedelay", UINT8); ("windowsize", UINT8); ("nomean", UINT8)]);
  (* 975 *) mk_cmd "dataConfirm" 128 AREQ
    (Some [("status", UINT8); ("endpoint", UINT8); ("transid", UINT8)])
    None;
  (* 985 *) mk_cmd "incomingMsg" 129 AREQ
    (Some [("groupid", UINT16); ("clusterid", UINT16); ("srcaddr", UINT16); ("srcendpoint", UINT8); ("dstendpoint", UINT8); ("wasbroadcast", UINT8); ("linkquality", UINT8); ("securityuse", UINT8); ("timestamp", UINT32); ("transseqnumber", UINT8); ("len", UINT8); ("data", BUFFER)])
    None;
  (* 1004 *) mk_cmd "incomingMsgExt" 130 AREQ
    (Some [("groupid", UINT16); ("clusterid", UINT16); ("srcaddrmode", UINT8); ("srcaddr", IEEEADDR); ("srcendpoint", UINT8); ("srcpanid", UINT16); ("dstendpoint", UINT8); ("wasbroadcast", UINT8); ("linkquality", UINT8); ("securityuse", UINT8); ("timestamp", UINT32); ("transseqnumber", UINT8); ("len", UINT16); ("data", BUFFER)])
    None;
  (* 1025 *) mk_cmd "reflectError" 131 AREQ
    (Some [("status", UINT8); ("endpoint", UINT8); ("transid", UINT8); ("dstaddrmode", UINT8); ("dstaddr", UINT16)])
    None
].

(** definition.py:1038-2019 *)
Definition def_ZDO : list cmd := [
  (* 1039 *) mk_cmd "nwkAddrReq" 0 SREQ
    (Some [("ieeeaddr", IEEEADDR); ("reqtype", UINT8); ("startindex", UINT8)])
    (Some [("status", UINT8)]);
  (* 1050 *) mk_cmd "ieeeAddrReq" 1 SREQ
    (Some [("shortaddr", UINT16); ("reqtype", UINT8); ("startindex", UINT8)])
    (Some [("status", UINT8)]);
  (* 1061 *) mk_cmd "nodeDescReq" 2 SREQ
    (Some [("dstaddr", UINT16); ("nwkaddrofinterest", UINT16)])
    (Some [("status", UINT8)]);
  (* 1071 *) mk_cmd "powerDescReq" 3 SREQ
    (Some [("dstaddr", UINT16); ("nwkaddrofinterest", UINT16)])
    (Some [("status", UINT8)]);
  (* 1081 *) mk_cmd "simpleDescReq" 4 SREQ
    (Some [("dstaddr", UINT16); ("nwkaddrofinterest", UINT16); ("endpoint", UINT8)])
    (Some [("status", UINT8)]);
  (* 1092 *) mk_cmd "activeEpReq" 5 SREQ
    (Some [("dstaddr", UINT16); ("nwkaddrofinterest", UINT16)])
    (Some [("status", UINT8)]);
  (* 1102 *) mk_cmd "matchDescReq" 6 SREQ
    (Some [("dstaddr", UINT16); ("nwkaddrofinterest", UINT16); ("profileid", UINT16); ("numinclusters", UINT8); ("inclusterlist", LIST_UINT16); ("numoutclusters", UINT8); ("outclusterlist", LIST_UINT16)])
    (Some [("status", UINT8)]);
  (* 1117 *) mk_cmd "complexDescReq" 7 SREQ
    (Some [("dstaddr", UINT16); ("nwkaddrofinterest", UINT16)])
    (Some [("status", UINT8)]);
  (* 1127 *) mk_cmd "userDescReq" 8 SREQ
    (Some [("dstaddr", UINT16); ("nwkaddrofinterest", UINT16)])
    (Some [("status", UINT8)]);
  (* 1137 *) mk_cmd "endDeviceAnnce" 10 SREQ
    (Some [("nwkaddr", UINT16); ("ieeeaddr", IEEEADDR); ("capability", UINT8)])
    (Some [("status", UINT8)]);
  (* 1148 *) mk_cmd "userDescSet" 11 SREQ
    (Some [("dstaddr", UINT16); ("nwkaddrofinterest", UINT16); ("descriptor_len", UINT8); ("userdescriptor", BUFFER)])
    (Some [("status", UINT8)]);
  (* 1160 *) mk_cmd "serverDiscReq" 12 SREQ
    (Some [("servermask", UINT16)])
    (Some [("status", UINT8)]);
  (* 1167 *) mk_cmd "endDeviceBindReq" 32 SREQ
    (Some [("dstaddr", UINT16); ("localcoord", UINT16); ("localieee", IEEEADDR); ("endpoint", UINT8); ("profileid", UINT16); ("numinclusters", UINT8); ("inclusterlist", LIST_UINT16); ("numoutclusters", UINT8); ("outclusterlist", LIST_UINT16)])
    (Some [("status", UINT8)]);
  (* 1184 *) mk_cmd "bindReq" 33 SREQ
    (Some [("dstaddr", UINT16); ("srcaddr", IEEEADDR); ("srcendpoint", UINT8); ("clusterid", UINT16); ("dstaddrmode", UINT8); ("dstaddress", IEEEADDR); ("dstendpoint", UINT8)])
    (Some [("status", UINT8)]);
  (* 1199 *) mk_cmd "unbindReq" 34 SREQ
    (Some [("dstaddr", UINT16); ("srcaddr", IEEEADDR); ("srcendpoint", UINT8); ("clusterid", UINT16); ("dstaddrmode", UINT8); ("dstaddress", IEEEADDR); ("dstendpoint", UINT8)])
    (Some [("status", UINT8)]);
  (* 1214 *) mk_cmd "setLinkKey" 35 SREQ
    (Some [("shortaddr", UINT16); ("ieeeaddr", IEEEADDR); ("linkkey", BUFFER)])
    (Some [("status", UINT8)]);
  (* 1225 *) mk_cmd "removeLinkKey" 36 SREQ
    (Some [("ieeeaddr", IEEEADDR)])
    (Some [("status", UINT8)]);
  (* 1232 *) mk_cmd "getLinkKey" 37 SREQ
    (Some [("ieeeaddr", IEEEADDR)])
    (Some [("status", UINT8); ("ieeeaddr", IEEEADDR); ("linkkeydata", BUFFER16)]);
  (* 1243 *) mk_cmd "nwkDiscoveryReq" 38 SREQ
    (Some [("scanchannels", UINT32); ("scanduration", UINT8)])
    (Some [("status", UINT8)]);
  (* 1253 *) mk_cmd "joinReq" 39 SREQ
    (Some [("logicalchannel", UINT8); ("panid", UINT16); ("extendedpanid", IEEEADDR); ("chosenparent", UINT16); ("parentdepth", UINT8); ("stackprofile", UINT8)])
    (Some [("status", UINT8)]);
  (* 1267 *) mk_cmd "mgmtNwkDiscReq" 48 SREQ
    (Some [("dstaddr", UINT16); ("scanchannels", UINT32); ("scanduration", UINT8); ("startindex", UINT8)])
    (Some [("status", UINT8)]);
  (* 1279 *) mk_cmd "mgmtLqiReq" 49 SREQ
    (Some [("dstaddr", UINT16); ("startindex", UINT8)])
    (Some [("status", UINT8)]);
  (* 1289 *) mk_cmd "mgmtRtgReq" 50 SREQ
    (Some [("dstaddr", UINT16); ("startindex", UINT8)])
    (Some [("status", UINT8)]);
  (* 1299 *) mk_cmd "mgmtBindReq" 51 SREQ
    (Some [("dstaddr", UINT16); ("startindex", UINT8)])
    (Some [("status", UINT8)]);
  (* 1309 *) mk_cmd "mgmtLeaveReq" 52 SREQ
    (Some [("dstaddr", UINT16); ("deviceaddress", IEEEADDR); ("removechildrenRejoin", UINT8)])
    (Some [("status", UINT8)]);
  (* 1320 *) mk_cmd "mgmtDirectJoinReq" 53 SREQ
    (Some [("dstaddr", UINT16); ("deviceaddr", IEEEADDR); ("capinfo", UINT8)])
    (Some [("status", UINT8)]);
  (* 1331 *) mk_cmd "mgmtPermitJoinReq" 54 SREQ
    (Some [("addrmode", UINT8); ("dstaddr", UINT16); ("duration", UINT8); ("tcsignificance", UINT8)])
    (Some [("status", UINT8)]);
  (* 1343 *) mk_cmd "mgmtNwkUpdateReq" 55 SREQ
    (Some [("dstaddr", UINT16); ("dstaddrmode", UINT8); ("channelmask", UINT32); ("scanduration", UINT8); ("scancount", UINT8); ("nwkmanageraddr", UINT16)])
    (Some [("status", UINT8)]);
  (* 1357 *) mk_cmd "msgCbRegister" 62 SREQ
    (Some [("clusterid", UINT16)])
    (Some [("status", UINT8)]);
  (* 1364 *) mk_cmd "msgCbRemove" 63 SREQ
    (Some [("clusterid", UINT16)])
    (Some [("status", UINT8)]);
  (* 1371 *) mk_cmd "startupFromApp" 64 SREQ
    (Some [("startdelay", UINT16)])
    (Some [("status", UINT8)]);
  (* 1378 *) mk_cmd "autoFindDestination" 65 AREQ
    (Some [("endpoint", UINT8)])
    None;
  (* 1384 *) mk_cmd "nwkAddrRsp" 128 AREQ
    (Some [("status", UINT8); ("ieeeaddr", IEEEADDR); ("nwkaddr", UINT16); ("startindex", UINT8); ("numassocdev", UINT8); ("assocdevlist", LIST_ASSOC_DEV)])
    None;
  (* 1397 *) mk_cmd "ieeeAddrRsp" 129 AREQ
    (Some [("status", UINT8); ("ieeeaddr", IEEEADDR); ("nwkaddr", UINT16); ("startindex", UINT8); ("numassocdev", UINT8); ("assocdevlist", LIST_ASSOC_DEV)])
    None;
  (* 1410 *) mk_cmd "nodeDescRsp" 130 AREQ
    (Some [("srcaddr", UINT16); ("status", UINT8); ("nwkaddr", UINT16); ("logicaltype_cmplxdescavai_userdescavai", UINT8); ("apsflags_freqband", UINT8); ("maccapflags", UINT8); ("manufacturercode", UINT16); ("maxbuffersize", UINT8); ("maxintransfersize", UINT16); ("servermask", UINT16); ("maxouttransfersize", UINT16); ("descriptorcap", UINT8)])
    None;
  (* 1432 *) mk_cmd "powerDescRsp" 131 AREQ
    (Some [("srcaddr", UINT16); ("status", UINT8); ("nwkaddr", UINT16); ("currentpowermode_avaipowersrc", UINT8); ("currentpowersrc_currentpowersrclevel", UINT8)])
    None;
  (* 1450 *) mk_cmd "simpleDescRsp" 132 AREQ
    (Some [("srcaddr", UINT16); ("status", UINT8); ("nwkaddr", UINT16); ("len", UINT8); ("endpoint", UINT8); ("profileid", UINT16); ("deviceid", UINT16); ("deviceversion", UINT8); ("numinclusters", UINT8); ("inclusterlist", LIST_UINT16); ("numoutclusters", UINT8); ("outclusterlist", LIST_UINT16)])
    None;
  (* 1469 *) mk_cmd "activeEpRsp" 133 AREQ
    (Some [("srcaddr", UINT16); ("status", UINT8); ("nwkaddr", UINT16); ("activeepcount", UINT8); ("activeeplist", LIST_UINT8)])
    None;
  (* 1481 *) mk_cmd "matchDescRsp" 134 AREQ
    (Some [("srcaddr", UINT16); ("status", UINT8); ("nwkaddr", UINT16); ("matchlength", UINT8); ("matchlist", BUFFER)])
    None;
  (* 1493 *) mk_cmd "complexDescRsp" 135 AREQ
    (Some [("srcaddr", UINT16); ("status", UINT8); ("nwkaddr", UINT16); ("complexlength", UINT8); ("complexdesclist", BUFFER)])
    None;
  (* 1505 *) mk_cmd "userDescRsp" 136 AREQ
    (Some [("srcaddr", UINT16); ("status", UINT8); ("nwkaddr", UINT16); ("userlength", UINT8); ("userdescriptor", BUFFER)])
    None;
  (* 1517 *) mk_cmd "userDescConf" 137 AREQ
    (Some [("srcaddr", UINT16); ("status", UINT8); ("nwkaddr", UINT16)])
    None;
  (* 1527 *) mk_cmd "serverDiscRsp" 138 AREQ
    (Some [("srcaddr", UINT16); ("status", UINT8); ("servermask", UINT16)])
    None;
  (* 1537 *) mk_cmd "endDeviceBindRsp" 160 AREQ
    (Some [("srcaddr", UINT16); ("status", UINT8)])
    None;
  (* 1546 *) mk_cmd "bindRsp" 161 AREQ
    (Some [("srcaddr", UINT16); ("status", UINT8)])
    None;
  (* 1555 *) mk_cmd "unbindRsp" 162 AREQ
    (Some [("srcaddr", UINT16); ("status", UINT8)])
    None;
  (* 1564 *) mk_cmd "mgmtNwkDiscRsp" 176 AREQ
    (Some [("srcaddr", UINT16); ("status", UINT8); ("networkcount", UINT8); ("startindex", UINT8); ("networklistcount", UINT8); ("networklist", LIST_NETWORK)])
    None;
  (* 1577 *) mk_cmd "mgmtLqiRsp" 177 AREQ
    (Some [("srcaddr", UINT16); ("status", UINT8); ("neighbortableentries", UINT8); ("startindex", UINT8); ("neighborlqilistcount", UINT8); ("neighborlqilist", LIST_NEIGHBOR_LQI)])
    None;
  (* 1593 *) mk_cmd "mgmtRtgRsp" 178 AREQ
    (Some [("srcaddr", UINT16); ("status", UINT8); ("routingtableentries", UINT8); ("startindex", UINT8); ("routingtablelistcount", UINT8); ("routingtablelist", LIST_ROUTING_TABLE)])
    None;
  (* 1609 *) mk_cmd "mgmtBindRsp" 179 AREQ
    (Some [("srcaddr", UINT16); ("status", UINT8); ("bindingtableentries", UINT8); ("startindex", UINT8); ("bindingtablelistcount", UINT8); ("bindingtablelist", LIST_BIND_TABLE)])
    None;
  (* 1625 *) mk_cmd "mgmtLeaveRsp" 180 AREQ
    (Some [("srcaddr", UINT16); ("status", UINT8)])
    None;
  (* 1634 *) mk_cmd "mgmtDirectJoinRsp" 181 AREQ
    (Some [("srcaddr", UINT16); ("status", UINT8)])
    None;
  (* 1643 *) mk_cmd "mgmtNwkUpdateNotify" 184 AREQ
    (Some [("srcaddr", UINT16); ("status", UINT8); ("scanchannels", UINT32); ("totaltransmissions", UINT16); ("transmissionfailures", UINT16); ("channelcount", UINT8); ("energyvalues", LIST_UINT8)])
    None;
  (* 1657 *) mk_cmd "mgmtPermitJoinRsp" 182 AREQ
    (Some [("srcaddr", UINT16); ("status", UINT8)])
    None;
  (* 1666 *) mk_cmd "stateChangeInd" 192 AREQ
    (Some [("state", UINT8)])
    None;
  (* 1672 *) mk_cmd "endDeviceAnnceInd" 193 AREQ
    (Some [("srcaddr", UINT16); ("nwkaddr", UINT16); ("ieeeaddr", IEEEADDR); ("capabilities", UINT8)])
    None;
  (* 1683 *) mk_cmd "matchDescRspSent" 194 AREQ
    (Some [("nwkaddr", UINT16); ("numinclusters", UINT8); ("inclusterlist", LIST_UINT16); ("numoutclusters", UINT8); ("outclusterlist", LIST_UINT16)])
    None;
  (* 1695 *) mk_cmd "statusErrorRsp" 195 AREQ
    (Some [("srcaddr", UINT16); ("status", UINT8)])
    None;
  (* 1704 *) mk_cmd "srcRtgInd" 196 AREQ
    (Some [("dstaddr", UINT16); ("relaycount", UINT8); ("relaylist", LIST_UINT16)])
    None;
  (* 1714 *) mk_cmd "beacon_notify_ind" 197 AREQ
    (Some [("beaconcount", UINT8); ("beaconlist", BUFFER)])
    None;
  (* 1723 *) mk_cmd "joinCnf" 198 AREQ
    (Some [("status", UINT8); ("deviceaddress", UINT16); ("parentaddress", UINT16)])
    None;
  (* 1733 *) mk_cmd "nwkDiscoveryCnf" 199 AREQ
    (Some [("status", UINT8)])
    None;
  (* 1739 *) mk_cmd "concentratorIndCb" 200 AREQ
    (Some [("srcaddr", UINT16); ("extaddr", IEEEADDR); ("pktCost", UINT8)])
    None;
  (* 1749 *) mk_cmd "leaveInd" 201 AREQ
    (Some [("srcaddr", UINT16); ("extaddr", IEEEADDR); ("request", UINT8); ("removechildren", UINT8); ("rejoin", UINT8)])
    None;
  (* 1761 *) mk_cmd "setRejoinParametersReq" 204 SREQ
    (Some [("backoffduration", UINT32); ("scanduration", UINT32)])
    (Some [("status", UINT8)]);
  (* 1771 *) mk_cmd "msgCbIncoming" 255 AREQ
    (Some [("srcaddr", UINT16); ("wasbroadcast", UINT8); ("clusterid", UINT16); ("securityuse", UINT8); ("seqnum", UINT8); ("macdstaddr", UINT16); ("msgdata", BUFFER)])
    None;
  (* 1785 *) mk_cmd "endDeviceTimeoutReq" 13 SREQ
    (Some [("parentaddr", UINT16); ("reqrimeout", UINT16)])
    (Some [("status", UINT8)]);
  (* 1795 *) mk_cmd "sendData" 40 SREQ
    (Some [("shortaddr", UINT16); ("transseq", UINT8); ("cmd", UINT16); ("len", UINT8); ("buf", BUFFER)])
    (Some [("status", UINT8)]);
  (* 1808 *) mk_cmd "nwkAddrOfInterestReq" 41 SREQ
    (Some [("shortaddr", UINT16); ("nwkaddr", UINT16); ("cmd", UINT8)])
    (Some [("status", UINT8)]);
  (* 1819 *) mk_cmd "secAddLinkKey" 66 SREQ
    (Some [("shortaddr", UINT16); ("extaddr", IEEEADDR); ("linkkey", BUFFER)])
    (Some [("status", UINT8)]);
  (* 1830 *) mk_cmd "secEntryLookupExt" 67 SREQ
    (Some [("extaddr", IEEEADDR)])
    (Some [("status", UINT8); ("ami", UINT16); ("keynvid", UINT16); ("authenticateoption", UINT8)]);
  (* 1842 *) mk_cmd "secDeviceRemove" 68 SREQ
    (Some [("extaddr", IEEEADDR)])
    (Some [("status", UINT8)]);
  (* 1849 *) mk_cmd "extRouteDisc" 69 SREQ
    (Some [("dstAddr", UINT16); ("options", UINT8); ("radius", UINT8)])
    (Some [("status", UINT8)]);
  (* 1860 *) mk_cmd "extRouteCheck" 70 SREQ
    (Some [("dstaddr", UINT16); ("rtstatus", UINT8); ("options", UINT8)])
    (Some [("status", UINT8)]);
  (* 1871 *) mk_cmd "extRemoveGroup" 71 SREQ
    (Some [("endpoint", UINT8); ("groupid", UINT16)])
    (Some [("status", UINT8)]);
  (* 1881 *) mk_cmd "extRemoveAllGroup" 72 SREQ
    (Some [("endpoint", UINT8)])
    (Some [("status", UINT8)]);
  (* 1888 *) mk_cmd "extFindAllGroupsEndpoint" 73 SREQ
    (Some [("endpoint", UINT8)])
    (Some [("groups", UINT8); ("grouplist", LIST_UINT16)]);
  (* 1898 *) mk_cmd "extFindGroup" 74 SREQ
    (Some [("endpoint", UINT8); ("groupid", UINT16)])
    (Some [("status", UINT8); ("groupid", UINT16); ("namelen", UINT8); ("groupname", BUFFER)]);
  (* 1913 *) mk_cmd "extAddGroup" 75 SREQ
    (Some [("endpoint", UINT8); ("groupid", UINT16); ("namelen", UINT8); ("groupname", BUFFER)])
    (Some [("status", UINT8)]);
  (* 1925 *) mk_cmd "extCountAllGroups" 76 SREQ
    (Some [])
    (Some [("status", UINT8)]);
  (* 1932 *) mk_cmd "extRxIdle" 77 SREQ
    (Some [("setflag", UINT8); ("setvalue", UINT8)])
    (Some [("status", UINT8)]);
  (* 1942 *) mk_cmd "extUpdateNwkKey" 78 SREQ
    (Some [("dstaddr", UINT16); ("keyseqnum", UINT8); ("key", BUFFER)])
    (Some [("status", UINT8)]);
  (* 1953 *) mk_cmd "extSwitchNwkKey" 79 SREQ
    (Some [("dstaddr", UINT16); ("keyseqnum", UINT8)])
    (Some [("status", UINT8)]);
  (* 1963 *) mk_cmd "extNwkInfo" 80 SREQ
    (Some [])
    (Some [("shortaddr", UINT16); ("devstate", UINT8); ("panid", UINT16); ("parentaddr", UINT16); ("extendedpanid", IEEEADDR); ("parentextaddr", IEEEADDR); ("channel", UINT8)]);
  (* 1978 *) mk_cmd "extSecApsRemoveReq" 81 SREQ
    (Some [("parentaddr", UINT16); ("nwkaddr", UINT16); ("extaddr", IEEEADDR)])
    (Some [("status", UINT8)]);
  (* 1989 *) mk_cmd "forceConcentratorChange" 82 SREQ
    (Some [])
    (Some []);
  (* 1996 *) mk_cmd "extSetParams" 83 SREQ
    (Some [("usemulticast", UINT8)])
    (Some [("status", UINT8)]);
  (* 2003 *) mk_cmd "tcDeviceInd" 202 AREQ
    (Some [("nwkaddr", UINT16); ("extaddr", IEEEADDR); ("parentaddr", UINT16)])
    None;
  (* 2013 *) mk_cmd "permitJoinInd" 203 AREQ
    (Some [("duration", UINT8)])
    None
].

(** definition.py:2020-2163 *)
Definition def_SAPI : list cmd := [
  (* 2021 *) mk_cmd "systemReset" 9 AREQ
    (Some [])
    None;
  (* 2022 *) mk_cmd "startRequest" 0 SREQ
    (Some [])
    (Some []);
  (* 2029 *) mk_cmd "bindDevice" 1 SREQ
    (Some [("action", UINT8); ("commandid", UINT16); ("destination", IEEEADDR)])
    (Some []);
  (* 2040 *) mk_cmd "allowBind" 2 SREQ
    (Some [("timeout", UINT8)])
    (Some []);
  (* 2047 *) mk_cmd "sendDataRequest" 3 SREQ
    (Some [("destination", UINT16); ("commandid", UINT16); ("handle", UINT8); ("txoptions", UINT8); ("radius", UINT8); ("payloadlen", UINT8); ("payloadvalue", BUFFER)])
    (Some []);
  (* 2062 *) mk_cmd "readConfiguration" 4 SREQ
    (Some [("configid", UINT8)])
    (Some [("status", UINT8); ("configid", UINT8); ("len", UINT8); ("value", BUFFER)]);
  (* 2074 *) mk_cmd "writeConfiguration" 5 SREQ
    (Some [("configid", UINT8); ("len", UINT8); ("value", BUFFER)])
    (Some [("status", UINT8)]);
  (* 2085 *) mk_cmd "getDeviceInfo" 6 SREQ
    (Some [("param", UINT8)])
    (Some [("param", UINT8); ("value", BUFFER8)]);
  (* 2095 *) mk_cmd "findDeviceRequest" 7 SREQ
    (Some [("searchKey", IEEEADDR)])
    (Some []);
  (* 2102 *) mk_cmd "permitJoiningRequest" 8 SREQ
    (Some [("destination", UINT16); ("timeout", UINT8)])
    (Some [("status", UINT8)]);
  (* 2112 *) mk_cmd "startConfirm" 128 AREQ
    (Some [("status", UINT8)])
    None;
  (* 2118 *) mk_cmd "bindConfirm" 129 AREQ
    (Some [("commandid", UINT16); ("status", UINT8)])
    None;
  (* 2127 *) mk_cmd "allowBindConfirm" 130 AREQ
    (Some [("source", UINT16)])
    None;
  (* 2133 *) mk_cmd "sendDataConfirm" 131 AREQ
    (Some [("handle", UINT8); ("status", UINT8)])
    None;
  (* 2142 *) mk_cmd "findDeviceConfirm" 133 AREQ
    (Some [("searchtype", UINT8); ("searchkey", UINT16); ("result", IEEEADDR)])
    None;
  (* 2152 *) mk_cmd "receiveDataIndication" 135 AREQ
    (Some [("source", UINT16); ("command", UINT16); ("len", UINT16); ("data", BUFFER)])
    None
].

(** definition.py:2164-2519 *)
Definition def_UTIL : list cmd := [
  (* 2165 *) mk_cmd "getDeviceInfo" 0 SREQ
    (Some [])
    (Some [("status", UINT8); ("ieeeaddr", IEEEADDR); ("shortaddr", UINT16); ("devicetype", UINT8); ("devicestate", UINT8); ("numassocdevices", UINT8); ("assocdeviceslist", LIST_UINT16)]);
  (* 2180 *) mk_cmd "getNvInfo" 1 SREQ
    (Some [])
    (Some [("status", UINT8); ("ieeeaddr", IEEEADDR); ("scanchannels", UINT32); ("panid", UINT16); ("securitylevel", UINT8); ("preconfigkey", BUFFER16)]);
  (* 2194 *) mk_cmd "setPanid" 2 SREQ
    (Some [("panid", UINT16)])
    (Some [("status", UINT8)]);
  (* 2201 *) mk_cmd "setChannels" 3 SREQ
    (Some [("channels", UINT32)])
    (Some [("status", UINT8)]);
  (* 2208 *) mk_cmd "setSeclevel" 4 SREQ
    (Some [("securitylevel", UINT8)])
    (Some [("status", UINT8)]);
  (* 2215 *) mk_cmd "setPrecfgkey" 5 SREQ
    (Some [("preconfigkey", BUFFER)])
    (Some [("status", UINT8)]);
  (* 2222 *) mk_cmd "callbackSubCmd" 6 SREQ
    (Some [("subsystemid", UINT16); ("action", UINT8)])
    (Some [("status", UINT8)]);
  (* 2232 *) mk_cmd "keyEvent" 7 SREQ
    (Some [("keys", UINT8); ("shift", UINT8)])
    (Some [("status", UINT8)]);
  (* 2242 *) mk_cmd "timeAlive" 9 SREQ
    (Some [])
    (Some [("seconds", UINT32)]);
  (* 2249 *) mk_cmd "ledControl" 10 SREQ
    (Some [("ledid", UINT8); ("mode", UINT8)])
    (Some [("status", UINT8)]);
  (* 2259 *) mk_cmd "testLoopback" 16 SREQ
    (Some [("data", BUFFER)])
    (Some [("data", BUFFER)]);
  (* 2266 *) mk_cmd "dataReq" 17 SREQ
    (Some [("securityuse", UINT8)])
    (Some [("status", UINT8)]);
  (* 2273 *) mk_cmd "srcMatchEnable" 32 SREQ
    (Some [])
    (Some [("status", UINT8)]);
  (* 2280 *) mk_cmd "srcMatchAddEntry" 33 SREQ
    (Some [("addressmode", UINT8); ("address", IEEEADDR); ("panid", UINT16)])
    (Some [("status", UINT8)]);
  (* 2291 *) mk_cmd "srcMatchDelEntry" 34 SREQ
    (Some [("addressmode", UINT8); ("address", IEEEADDR); ("panid", UINT16)])
    (Some [("status", UINT8)]);
  (* 2302 *) mk_cmd "srcMatchCheckSrcAddr" 35 SREQ
    (Some [("addressmode", UINT8); ("address", IEEEADDR); ("panid", UINT16)])
    (Some [("status", UINT8)]);
  (* 2313 *) mk_cmd "srcMatchAckAllPending" 36 SREQ
    (Some [("option", UINT8)])
    (Some [("status", UINT8)]);
  (* 2320 *) mk_cmd "srcMatchCheckAllPending" 37 SREQ
    (Some [])
    (Some [("status", UINT8); ("value", UINT8)]);
  (* 2330 *) mk_cmd "addrmgrExtAddrLookup" 64 SREQ
    (Some [("extaddr", IEEEADDR)])
    (Some [("nwkaddr", UINT16)]);
  (* 2337 *) mk_cmd "addrmgrNwkAddrLookup" 65 SREQ
    (Some [("nwkaddr", UINT16)])
    (Some [("extaddr", IEEEADDR)]);
  (* 2344 *) mk_cmd "apsmeLinkKeyDataGet" 68 SREQ
    (Some [("extaddr", IEEEADDR)])
    (Some [("status", UINT8); ("seckey", BUFFER16); ("txfrmcntr", UINT32); ("rxfrmcntr", UINT32)]);
  (* 2356 *) mk_cmd "apsmeLinkKeyNvIdGet" 69 SREQ
    (Some [("extaddr", IEEEADDR)])
    (Some [("status", UINT8); ("linkkeynvid", UINT16)]);
  (* 2366 *) mk_cmd "assocCount" 72 SREQ
    (Some [("startrelation", UINT8); ("endrelation", UINT8)])
    (Some [("count", UINT16)]);
  (* 2376 *) mk_cmd "assocFindDevice" 73 SREQ
    (Some [("number", UINT8)])
    (Some [("device", BUFFER18)]);
  (* 2383 *) mk_cmd "assocGetWithAddress" 74 SREQ
    (Some [("extaddr", IEEEADDR); ("nwkaddr", UINT16)])
    (Some [("device", BUFFER18)]);
  (* 2393 *) mk_cmd "apsmeRequestKeyCmd" 75 SREQ
    (Some [("partneraddr", IEEEADDR)])
    (Some [("status", UINT8)]);
  (* 2400 *) mk_cmd "zclKeyEstInitEst" 128 SREQ
    (Some [("taskid", UINT8); ("seqnum", UINT8); ("endpoint", UINT8); ("addrmode", UINT8); ("extaddr", IEEEADDR)])
    (Some [("status", UINT8)]);
  (* 2413 *) mk_cmd "zclKeyEstSign" 129 SREQ
    (Some [("inputlen", UINT8); ("input", BUFFER)])
    (Some [("status", UINT8); ("key", BUFFER42)]);
  (* 2426 *) mk_cmd "syncReq" 224 AREQ
    (Some [])
    None;
  (* 2427 *) mk_cmd "zclKeyEstablishInd" 225 AREQ
    (Some [("taskid", UINT8); ("event", UINT8); ("status", UINT8); ("waittime", UINT8); ("suite", UINT16)])
    None;
  (* 2439 *) mk_cmd "gpioSetDirection" 20 SREQ
    (Some [("port", UINT8); ("bit", UINT8); ("direction", UINT8)])
    (Some [("oldp0dir", UINT8); ("oldp1dir", UINT8); ("oldp2dir", UINT8); ("p0dir", UINT8); ("p1dir", UINT8); ("p2dir", UINT8)]);
  (* 2457 *) mk_cmd "gpioRead" 21 SREQ
    (Some [])
    (Some [("p0", UINT8); ("p1", UINT8); ("p2", UINT8); ("p0dir", UINT8); ("p1dir", UINT8); ("p2dir", UINT8)]);
  (* 2471 *) mk_cmd "gpioWrite" 22 SREQ
    (Some [("port", UINT8); ("bit", UINT8); ("value", UINT8)])
    (Some [("oldp0", UINT8); ("oldp1", UINT8); ("oldp2", UINT8); ("p0", UINT8); ("p1", UINT8); ("p2", UINT8); ("p0dir", UINT8); ("p1dir", UINT8); ("p2dir", UINT8)]);
  (* 2492 *) mk_cmd "srngGen" 76 SREQ
    (Some [])
    (Some [("outrng", BUFFER100)]);
  (* 2499 *) mk_cmd "bindAddEntry" 77 SREQ
    (Some [("addrmode", UINT8); ("dstaddr", IEEEADDR); ("dstendpoint", UINT8); ("numclusterids", UINT8); ("clusterids", LIST_UINT16)])
    (Some [("srcep", UINT8); ("dstgroupmode", UINT8); ("dstidx", UINT16); ("dstep", UINT8); ("numclusterids", UINT8); ("clusterids", BUFFER8)])
].

(** definition.py:2520-2540 *)
Definition def_DEBUG : list cmd := [
  (* 2521 *) mk_cmd "setThreshold" 0 SREQ
    (Some [("componentid", UINT8); ("threshold", UINT8)])
    (Some [("status", UINT8)]);
  (* 2531 *) mk_cmd "msg" 128 AREQ
    (Some [("length", UINT8); ("string", BUFFER)])
    None
].

(** definition.py:2541-2580 *)
Definition def_APP : list cmd := [
  (* 2542 *) mk_cmd "msg" 0 SREQ
    (Some [("appendpoint", UINT8); ("destaddress", UINT16); ("destendpoint", UINT8); ("clusterid", UINT16); ("msglen", UINT8); ("message", BUFFER)])
    (Some [("status", UINT8)]);
  (* 2556 *) mk_cmd "userTest" 1 SREQ
    (Some [("srcep", UINT8); ("commandid", UINT16); ("param1", UINT16); ("param2", UINT16)])
    (Some [("status", UINT8)]);
  (* 2568 *) mk_cmd "zllTlInd" 129 AREQ
    (Some [("nwkaddr", UINT16); ("endpoint", UINT8); ("profileid", UINT16); ("deviceid", UINT16); ("version", UINT8)])
    None
].

(** definition.py:2581-2606 *)
Definition def_APP_CNF : list cmd := [
  (* 2582 *) mk_cmd "bdbStartCommissioning" 5 SREQ
    (Some [("mode", UINT8)])
    (Some [("status", UINT8)]);
  (* 2589 *) mk_cmd "bdbSetChannel" 8 SREQ
    (Some [("isPrimary", UINT8); ("channel", UINT32)])
    (Some [("status", UINT8)]);
  (* 2599 *) mk_cmd "bdbComissioningNotifcation" 128 AREQ
    (Some [("status", UINT8)])
    (Some [("status", UINT8)])
].

(** definition.py:2607-2623 *)
Definition def_GREENPOWER : list cmd := [
  (* 2608 *) mk_cmd "secReq" 3 SREQ
    (Some [("applicationID", UINT8); ("srcID", UINT32); ("gdpIeeeAddr", IEEEADDR); ("endpoint", UINT8); ("gpdfSecurityLevel", UINT8); ("gpdfSecurityFrameCounter", UINT8); ("dgpStubHandle", UINT8)])
    (Some [("status", UINT8)])
].

(** The dict [Definition]: KeyError for a subsystem without commands. *)
Definition definition (s : subsystem) : result (list cmd) :=
  match s with
  | SYS => Ok def_SYS
  | MAC => Ok def_MAC
  | AF => Ok def_AF
  | ZDO => Ok def_ZDO
  | SAPI => Ok def_SAPI
  | UTIL => Ok def_UTIL
  | DEBUG => Ok def_DEBUG
  | APP => Ok def_APP
  | APP_CNF => Ok def_APP_CNF
  | GREENPOWER => Ok def_GREENPOWER
  | RESERVED | NWK => Err KeyError
  end.
