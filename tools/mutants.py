"""Realistic wrong programs: one edit each to a definition of the model.
'breaks' lists the properties whose English claim is false for the edited program."""
MUTANTS = {}
def m(name, file, definition, old, new, claim, breaks, count=1):
    assert name not in MUTANTS, name
    MUTANTS[name] = dict(file=file, definition=definition, old=old, new=new, claim=claim, breaks=breaks, count=count)

# ---- uart.py
m('u01', 'Uart.v', 'parser_write', 'else ([], Ok None)\n    end', 'else (buffer, Ok None)\n    end',
  'a byte that is not a start byte is kept instead of dropped', ['C06', 'C07', 'C08'])
m('u02', 'Uart.v', 'from_buffer', 'if checksum (py_slice buffer 1 fcs_position) =? fcs', 'if checksum (py_slice buffer 2 fcs_position) =? fcs',
  'the receiver leaves the length byte out of the checksum', ['C01', 'C02', 'C03'])
m('u03', 'Uart.v', 'from_buffer', 'if checksum (py_slice buffer 1 fcs_position) =? fcs', 'if 0 <=? fcs',
  'the checksum is not compared', ['C02', 'C05'])
m('u04', 'Uart.v', 'parser_write', '(skipn frameLength buffer, from_buffer', '([], from_buffer',
  'the rest of the buffer is dropped after a frame (loses the byte that completed an empty frame)', ['C03'])
m('u05', 'Uart.v', 'to_buffer', '(Z.land (sub_val (f_sub f)) 31)', '(Z.land (sub_val (f_sub f)) 15)',
  'only four bits of the subsystem are sent', ['C01', 'C11', 'C18'])
m('u06', 'Uart.v', 'gw_send', 'Ok data => (wire ++ [data], Ok tt)', 'Ok data => (wire ++ [firstn 4 data; skipn 4 data], Ok tt)',
  'a frame is written in two pieces', ['C11'])
m('u07', 'Uart.v', 'from_buffer', 'let data := py_slice buffer DataStart fcs_position in', 'let data := py_slice buffer (S DataStart) fcs_position in',
  'the first payload byte is lost', ['C01', 'C02', 'C18'])
m('u08', 'Uart.v', 'gw_send', '| Err e => (wire, Err e)', '| Err e => (wire ++ [[SOF]], Err e)',
  'something is written although serialising the frame failed', ['C11'])
m('u09', 'Uart.v', 'gw_data_received', '| Ok _ => gw_data_received h buffer1 s1 r', '| Ok _ => (buffer1, s1, Ok tt)',
  'the rest of a chunk is dropped after a frame was handed to the API', ['C04'])
m('u10', 'Uart.v', 'from_buffer', 'let ct := Z.shiftr (Z.land b2 224) 5 in', 'let ct := Z.shiftr (Z.land b2 96) 5 in',
  'only two bits of the type are looked at (a type above 3 is taken for a valid one)', ['C02'])
# ---- buffalo.py
m('b01', 'Buffalo.v', 'read', 'if Nat.ltb (length rem) n then Err OverflowError else Ok', 'if Nat.ltb (length rem) 0 then Err OverflowError else Ok',
  'reading past the end returns what is there instead of raising', ['C14', 'C20'])
m('b02', 'Buffalo.v', 'write', 'VInt z => to_bytes length z', 'VInt z => to_bytes length (z mod 256 ^ Z.of_nat length)',
  'integers are truncated to their width', ['C16', 'C21'])
m('b03', 'Buffalo.v', 'read_neighbor_lqi', '(Z.shiftr (Z.land value1 12) 2)', '(Z.shiftr (Z.land value1 28) 2)',
  'rx-on-when-idle overlaps the relationship bits', ['C12', 'C13'])
m('b04', 'Buffalo.v', 'read_parameter', 'INT8 => do (b, r) <- read 1 rem; Ok (VInt (from_bytes_signed b), r)', 'INT8 => do (b, r) <- read 1 rem; Ok (VInt (from_bytes b), r)',
  'signed bytes are read as unsigned', ['C12', 'C18'])
m('b05', 'Buffalo.v', 'read_parameter', 'do n <- list_length len; do (l, r) <- read_ints 2 n rem; Ok (VList l, r)', 'do n <- list_length len; do (l, r) <- read_ints 2 (Nat.div2 n) rem; Ok (VList l, r)',
  'the count of a list of 16-bit values is taken for a byte count', ['C12', 'C18'])
m('b06', 'Buffalo.v', 'write_parameter', 'VInt _ => write v 8', 'VInt _ => write v 4',
  'an integer given as extended address is written with four bytes', ['C22'])
m('b07', 'Buffalo.v', 'read_ieee_addr', 'result (list Z * list Z) := read 8 rem.', 'result (list Z * list Z) := do (b, r) <- read 8 rem; Ok (rev b, r).',
  'extended addresses are reversed when reading', ['C12', 'C13', 'C42'])
# ---- zpi_object.py
m('z01', 'Zpi.v', 'from_command', 'String.eqb (c_name c) command', 'startswith (c_name c) command',
  'a command is looked up by prefix', ['C17'])
m('z02', 'Zpi.v', 'read_params', '(if buffer_or_list t then len else None)', '(if buffer_or_list t then match len with Some n => Some n | None => Some 0 end else None)',
  'a buffer without length field decodes as empty instead of raising', ['C13'])
m('z03', 'Zpi.v', 'from_cluster', 'read_parameters (a ++ skipn 1 data) ps);', 'read_parameters (a ++ data) ps);',
  'the sequence byte is not removed from ZDO payloads', ['C20'])
m('z04', 'Zpi.v', 'from_cluster', 'if nwk =? ALL_ROUTERS_AND_COORDINATOR then ADDR_BROADCAST else ADDR_16BIT', 'if nwk =? ALL_ROUTERS_AND_COORDINATOR then ADDR_16BIT else ADDR_BROADCAST',
  'address mode of permit-join swapped', ['C20'])
m('z05', 'Zpi.v', 'from_cluster', 'Ok [("dstaddr", VInt nwk); ("destendpoint", VInt dst_ep); ("srcendpoint", VInt src_ep);', 'Ok [("dstaddr", VInt nwk); ("destendpoint", VInt src_ep); ("srcendpoint", VInt dst_ep);',
  'endpoints of a unicast swapped', ['C21'])
m('z06', 'Zpi.v', 'from_cluster', '("options", VInt 0); ("radius", VInt radius); ("len", VInt (zlen data));\n           ("data", VBytes data)]\n     else', '("options", VInt 0); ("radius", VInt 30); ("len", VInt (zlen data));\n           ("data", VBytes data)]\n     else',
  'radius of a broadcast ignored', ['C22'])
m('z07', 'Zpi.v', 'select_params', 'if ct_eqb t SRSP then key (c_response c)', 'if ct_eqb t SREQ then key (c_response c)',
  'responses are decoded with the request parameters', ['C69'])
m('z08', 'Zpi.v', 'is_reset_command', '(String.eqb (z_cmd o) "systemReset" && sub_eqb (z_sub o) SAPI)', 'false',
  'the SAPI reset is not recognised as a reset', ['C38'])
m('z09', 'Zpi.v', 'from_cluster', '("transid", VInt sequence); ("options", VInt 0);\n           ("radius", VInt radius); ("len"', '("transid", VInt 1); ("options", VInt 0);\n           ("radius", VInt radius); ("len"',
  'the transaction id of a unicast is constant', ['C21', 'C24'])
m('z10', 'Zpi.v', 'from_unpi_frame', 'Ok (mk_zpi (f_type f) (f_sub f) (c_name c) (c_ID c) d ps None).', 'Ok (mk_zpi (c_type c) (f_sub f) (c_name c) (c_ID c) d ps None).',
  'the type of a received message is taken from the table (a response becomes a request)', ['C69'])
# ---- definition.py
m('d01', 'CmdTable.v', 'def_AF', '("srcaddr", UINT16); ("srcendpoint", UINT8); ("dstendpoint", UINT8); ("wasbroadcast"', '("srcaddr", UINT16); ("dstendpoint", UINT8); ("srcendpoint", UINT8); ("wasbroadcast"',
  'endpoints of incomingMsg swapped in the table', ['C40'])
m('d02', 'CmdTable.v', 'def_AF', '(Some [("dstaddr", UINT16); ("destendpoint", UINT8); ("srcendpoint", UINT8); ("clusterid", UINT16); ("transid", UINT8); ("options", UINT8); ("radius", UINT8); ("len", UINT8); ("data", BUFFER)])', '(Some [("dstaddr", UINT16); ("srcendpoint", UINT8); ("destendpoint", UINT8); ("clusterid", UINT16); ("transid", UINT8); ("options", UINT8); ("radius", UINT8); ("len", UINT8); ("data", BUFFER)])',
  'endpoints of dataRequest swapped in the table', ['C21'])
m('d03', 'CmdTable.v', 'def_ZDO', 'mk_cmd "powerDescReq" 3 SREQ', 'mk_cmd "powerDescReq" 2 SREQ',
  'two commands share an id', ['C17'])
m('d04', 'CmdTable.v', 'def_ZDO', '(Some [("addrmode", UINT8); ("dstaddr", UINT16); ("duration", UINT8); ("tcsignificance", UINT8)])', '(Some [("addrmode", UINT8); ("dstaddr", UINT16); ("tcsignificance", UINT8); ("duration", UINT8)])',
  'duration and trust centre significance swapped', ['C46'])
m('d05', 'CmdTable.v', 'def_AF', '(Some [("status", UINT8); ("endpoint", UINT8); ("transid", UINT8)])\n    None;\n  (* 985 *)', '(Some [("status", UINT8); ("endpoint", UINT8)])\n    None;\n  (* 985 *)',
  'dataConfirm without transaction id', ['C67'])
# ---- api.py, pure part
m('a01', 'Api.v', 'match_payload', 'if value_eqb v x then match_payload r d else Ok false', 'match_payload r d',
  'the expected fields of a reply are not compared', ['C24'])
m('a02', 'Api.v', 'waiter_match', '|| negb (sub_eqb (m_sub m) (z_sub o))', '',
  'the subsystem of a reply is not compared', ['C24', 'C33'])
m('a03', 'Api.v', 'create_response_waiter', '(mk_matcher AREQ AF "dataConfirm" [("transid", t)], None)', '(mk_matcher AREQ AF "dataConfirm" [], None)',
  'any confirmation completes a data request', ['C24'])
m('a04', 'Api.v', 'create_response_waiter', '(mk_matcher AREQ ZDO rsp [("srcaddr", a)], sequence)', '(mk_matcher AREQ ZDO rsp [], sequence)',
  'a ZDO reply of any device completes the request', ['C24'])
m('a05', 'Api.v', 'create_response_waiter', '[("srcaddr", a)], sequence)', '[("srcaddr", a)], None)',
  'the sequence number of a ZDO request is not remembered', ['C27', 'C41'])
m('a06', 'Api.v', 'sreq_timeout', '|| String.eqb command "startupFromApp"', '',
  'startupFromApp gets the short limit', ['C37'])
m('a07', 'Api.v', 'unexpected_status', 'if existsb (Z.eqb s) expected then None else Some s', 'if s =? 0 then None else Some s',
  'the expected statuses are ignored', ['C69'])
m('a08', 'Api.v', 'unexpected_status', 'if existsb (Z.eqb s) expected then None else Some s', 'None',
  'error statuses are ignored', ['C33', 'C34', 'C70'])
m('a09', 'Api.v', 'create_response_waiter', 'find (fun c => String.eqb rsp (c_name c)) cs', 'find (fun c => String.eqb (z_cmd o) (c_name c)) cs',
  'a waiter is created for requests without defined reply', ['C24'])
# ---- application.py, pure part
m('p01', 'App.v', 'join', 'if ieee_eqb i ieee then (i, nwk) :: r else', 'if false then (i, nwk) :: r else',
  'a known device is registered a second time', ['C42'])
m('p02', 'App.v', 'handle_znp', 'if negb (ct_eqb (z_type o) AREQ) then (devs, [], Ok tt)', 'if false then (devs, [], Ok tt)',
  'synchronous messages reach the application', ['C39'])
m('p03', 'App.v', 'REQUESTS', '("nodeDescRsp", (32770, 2%nat))', '("nodeDescRsp", (32770, 0%nat))',
  'the address prefix of nodeDescRsp is not removed', ['C41'])
m('p04', 'App.v', 'REQUESTS', '("activeEpRsp", (32773, 2%nat));\n   ("simpleDescRsp", (32772, 2%nat))', '("activeEpRsp", (32772, 2%nat));\n   ("simpleDescRsp", (32773, 2%nat))',
  'clusters of two replies swapped', ['C41'])
m('p05', 'App.v', 'message_content', 'Ok (Some (mk_content c s d l b))', 'Ok (Some (mk_content c d s l b))',
  'endpoints of incoming messages swapped', ['C40'])
m('p06', 'App.v', 'message_content', '| None => Ok None\n      | Some sequence =>', '| None => Ok (Some (mk_content cluster_id 0 0 0 (0 :: skipn prefix_length (f_data f))))\n      | Some sequence =>',
  'unsolicited ZDO replies are delivered with sequence number 0', ['C43'])
m('p07', 'App.v', 'handle_znp', 'handle_rest version devs1 (with_seq o (Some 0))', 'handle_rest version devs (with_seq o (Some 0))',
  'the announcement is delivered before the device is registered', ['C42'])
m('p08', 'App.v', 'build_mrequest', '30 (Some ADDR_GROUP)', '30 (Some ADDR_16BIT)',
  'multicasts are sent as unicasts', ['C22'])
m('p09', 'App.v', 'build_permit', '(time_s <=? 254)', '(time_s <=? 255)',
  'a permanent permit is accepted', ['C46'])
m('p10', 'App.v', 'build_permit', '("dstaddr", VInt ALL_ROUTERS_AND_COORDINATOR);', '("dstaddr", VInt 0);',
  'permit-join goes to the coordinator only', ['C46'])
m('p11', 'App.v', 'handle_rest', '(if d =? 0 then LED_Off else LED_On)', '(if d =? 0 then LED_On else LED_Off)',
  'LED inverted', ['C87'])
m('p12', 'App.v', 'deliver_message', 'match i with [] => get_device_nwk devs nwk | _ => get_device_ieee devs i end', 'get_device_nwk devs nwk',
  'the announced IEEE address is not used to find the device', ['C42'])
m('p13', 'App.v', 'handle_rest', 'if existsb (String.eqb (z_cmd o)) IGNORED then ([], Ok tt)\n  else', 'if false then ([], Ok tt)\n  else',
  'the ignore list is not looked at', ['C39', 'C43'])
m('p14', 'App.v', 'deliver_message', '  | Err _ => []\n  end.', '  | Err _ => [EMsg [] (ct_lqi c) 0 ZHA_PROFILE (ct_cluster c) (ct_src c) (ct_dst c) (ct_data c)]\n  end.',
  'messages of unknown devices are delivered', ['C40'])
# ---- api.py, machine
m('m01', 'Machine.v', 'raw_raise', 'finish t (outcome_of_exn j e) (free_sem j (free_lock t s)).', 'finish t (outcome_of_exn j e) (free_sem j s).',
  'the link is not released when a request fails', ['C32', 'C37'])
m('m02', 'Machine.v', 'raw_raise', 'finish t (outcome_of_exn j e) (free_sem j (free_lock t s)).', 'finish t (outcome_of_exn j e) (free_lock t s).',
  'the slot is not returned when a request fails', ['C36', 'C66'])
m('m03', 'Machine.v', 'wait_for', '(set_next (s_next s + 1)', '(set_next (s_next s)',
  'waiter ids are reused', ['C25'])
m('m04', 'Machine.v', 'cleanup', '| FPending | FCancelled => unregister i s', '| FPending => unregister i s\n    | FCancelled => s',
  'waiters of timed out requests are never removed', ['C29'])
m('m05', 'Machine.v', 'cleanup', '| FPending | FCancelled => unregister i s', '| FPending | FCancelled => set_waiters [] s',
  'clean-up removes every waiter', ['C30'])
m('m06', 'Machine.v', 'dispatch', '| None => dispatch r o s\n          end', '| None => (s, o, Ok tt)\n          end',
  'only the first matching waiter is completed', ['C26', 'C65'])
m('m07', 'Machine.v', 'dispatch', 'if q =? 0 then dispatch r o s else (s, with_seq o (Some q), Ok tt)', 'if q =? 0 then dispatch r o s else dispatch r (with_seq o (Some q)) s',
  'a reply completes all requests it matches', ['C26', 'C27', 'C65'])
m('m08', 'Machine.v', 'acquire_lock', '| None, [] => granted t k s', '| None, _ => granted t k s',
  'a new request overtakes those waiting for the link', ['C32'])
m('m09', 'Machine.v', 'acquire_lock', '| None, [] => granted t k s\n  | _, _ =>', '| _, [] => granted t k s\n  | _, _ =>',
  'a request goes ahead although the link is taken', ['C31'])
m('m10', 'Machine.v', 'acquire_sem', 'if 0 <? s_sem s', 'if 0 <=? s_sem s',
  'one request too many is admitted', ['C36', 'C66'])
m('m11', 'Machine.v', 'set_result', '| FDone _ => Ok f', '| FDone _ => Ok (FDone o)',
  'a second message replaces the first', ['C25'])
m('m12', 'Machine.v', 'set_result', '| FCancelled => Ok f', '| FCancelled => future_set_result f o',
  'completing a cancelled waiter raises', ['C25'])
m('m13', 'Machine.v', 'send_and_wait', 'goto t (PWait i (s_now s + timeout)) s', 'goto t (PWait i (s_now s + 10 * timeout)) s',
  'requests wait ten times as long', ['C37'])
m('m14', 'Machine.v', 'request_raw_resume', '| None => raw_raise t (t_job k) (CommandError c) s', '| None => raw_return t (t_job k) (Some r) s',
  'error statuses are reported only if a reply waiter exists', ['C33', 'C34', 'C70'])
m('m15', 'Machine.v', 'outcome_of_exn', 'then OStatus c else OExn e', 'then OStatus 0 else OExn e',
  'a refused send is reported as success', ['C45'])
m('m16', 'Machine.v', 'cancel', '(free_sem (t_job k) (dequeue t s))', '(free_sem (t_job k) s)',
  'a cancelled request stays in the queue of the link', ['C32'])
m('m17', 'Machine.v', 'cancel', '| PLock => finish t (OExn CancelledError) (free_sem (t_job k) (dequeue t s))', '| PLock => finish t (OExn CancelledError) (dequeue t s)',
  'a request cancelled while waiting for the link keeps its slot', ['C36', 'C66'])
m('m18', 'Machine.v', 'wait_for', '(s_now s + timeout + 100, s_next s)', '(s_now s + timeout + 10000, s_next s)',
  'clean-up ten seconds late', ['C29'])
m('m19', 'Machine.v', 'cleanup', '(snd x =? i) && (fst x <=? s_now s)', '(snd x =? i)',
  'clean-up before it is due', ['C30'])
m('m20', 'Machine.v', 'request_raw', '(mk_matcher SRSP (z_sub o) (z_cmd o) [])', '(mk_matcher SRSP (z_sub o) (z_cmd o) (z_payload o))',
  'a response has to repeat the request payload', ['C69'])
m('m21', 'Types.v', 'Timeouts_SREQ', 'Definition Timeouts_SREQ := 6000.', 'Definition Timeouts_SREQ := 60000.',
  'synchronous requests wait a minute', ['C37'])
m('m22', 'Machine.v', 'concurrent', 'then 16 else 2', 'then 16 else 16',
  'old sticks get 16 requests at a time', ['C36', 'C66'])
m('m23', 'Machine.v', 'resume', '| None, h :: q => if h =? t then granted t k (set_queue q s) else s', '| None, h :: q => granted t k (set_queue (filter (fun x => negb (x =? t)) (h :: q)) s)',
  'the link is given to any waiting request', ['C32'])
m('m24', 'Machine.v', 'request_raw', 'send_and_wait t j f (mk_matcher AREQ SYS "resetInd" []) Timeouts_reset s', 'let \'(s, r) := uart_send t f s in match r with Err e => raw_raise t j e s | Ok _ => raw_return t j None s end',
  'a reset does not wait for the indication', ['C38'])
m('m25', 'Machine.v', 'raw_return', 'if settles j then goto t (PSleep (s_now s + 200)) s', 'if settles j then goto t (PSleep (s_now s + 200)) (free_sem j s)',
  'broadcasts return their slot twice', ['C36', 'C66'])
m('m26', 'Machine.v', 'request_raw', '| _ => raw_raise t j GenericException s', '| _ => let \'(s, r) := uart_send t f s in raw_raise t j GenericException s',
  'an object that is no request is written', ['C38'])
m('m27', 'Machine.v', 'request_raw_resume', 'else raw_raise t (t_job k) KeyError s', 'else raw_raise t (t_job k) (CommandError c) s',
  'fixed: error status reported even if the waiter is gone (refutes the refutation)', ['C34'])
m('m28', 'Machine.v', 'data_received', 'let \'(s, o, r) := dispatch (s_waiters s) o s in', 'let \'(s, o, r) := dispatch (rev (s_waiters s)) o s in',
  'waiters are looked at newest first', ['C26', 'C27', 'C65'])
m('m29', 'Machine.v', 'response_waiter', '| JRequest _ _ _ _ _ sequence _ true => create_response_waiter o (Some sequence)', '| JRequest _ _ _ _ _ sequence _ true => create_response_waiter o (Some 1)',
  'the application sequence number is not handed to the waiter', ['C27', 'C41'])
m('m30', 'Machine.v', 'wait_timeout', 'if d <=? s_now s then raw_raise t (t_job k) TimeoutError (cancel_fut i s) else s', 'if d <=? s_now s then raw_return t (t_job k) None s else s',
  'a time-out is reported as success', ['C37', 'C45'])
m('m31', 'Machine.v', 'complete', 'let s := note (OCompleted i o) (unregister i s) in', 'let s := note (OCompleted i o) s in',
  'completed waiters stay registered', ['C26', 'C65'])
m('m32', 'Machine.v', 'app_handle', 'if s_app s then', 'if s_app s && s_open s then', 'nothing is delivered after the port was closed', ['C40', 'C42'])
m('m33', 'Machine.v', 'uart_send', '(note (OWritten t (s_now s) (concat w)) (set_wire (s_wire s ++ w) s), Ok tt)', '(note (OWritten t (s_now s) (concat w)) (set_wire (s_wire s ++ w ++ w) s), Ok tt)',
  'every frame is written twice', ['C71'])
m('m34', 'Machine.v', 'build', '| JCommand sub command d _ => in_coroutine (from_command sub command d)', '| JCommand sub command d _ => in_coroutine (from_command sub command [])',
  'the parameters of a command are dropped', ['C71'])
m('m35', 'Machine.v', 'do_effect', '| _ => note (OEffect e) s', '| _ => note (OEffect e) (note (OEffect e) s)',
  'messages are delivered twice', ['C40', 'C41'])
# ---- start_znp.py
m('s01', 'StartZnp.v', 'initialise', '  nv_write (item_startup 2);;\n', '  nv_write (item_startup 2);;\n  nv_write (item_configured version);;\n',
  'the marker is written at the beginning, too', ['C48'])
m('s02', 'StartZnp.v', 'needs_init', '''     (if version =? zStack3x0
      then validate_item (item_key (o_key o)) SYS "osalNvRead" [0]
      else validate_item (item_key (o_key o)) SAPI "readConfiguration" [0]);;
''', '', 'the network key is not compared', ['C51', 'C72'])
m('s03', 'StartZnp.v', 'validate_pan', 'if value_eqb v (VBytes [255; 255]) then DRet tt else DRaise e', 'DRaise e',
  'a stored PAN id FFFF leads to initialisation', ['C72'])
m('s04', 'StartZnp.v', 'boot', '    await started;;\n', '',
  'the coordinator state is not awaited', ['C56'])
m('s05', 'StartZnp.v', 'register_loop', 'if is_in (ep_id e) l then DRet tt', 'if false then DRet tt',
  'active endpoints are registered again', ['C54', 'C74'])
m('s06', 'StartZnp.v', 'add_to_group', 'if value_eqb status (VInt 1) then', 'if value_eqb status (VInt 0) then',
  'the group is joined if already a member', ['C55'])
m('s07', 'StartZnp.v', 'configure', '(if version =? zStack12 then (if configured then Reset else Restored) else Reset)', 'Restored',
  'restored is reported for every initialisation', ['C53'])
m('s08', 'Nv.v', 'item_ext', '("len", VInt 8); ("offset", VInt 0); ("value", VBytes ext)', '("len", VInt 16); ("offset", VInt 0); ("value", VBytes ext)',
  'wrong declared length', ['C52'])
m('s09', 'StartZnp.v', 'initialise', '  nv_write (item_distribute (o_distribute o));;\n', '',
  'the key distribution flag is not written', ['C51'])
m('s10', 'StartZnp.v', 'initialise', '(item_configured_init version) [0; 9];;', '(item_configured_init version) [0];;',
  'creating the marker is not accepted as success', ['C76'])
m('s11', 'StartZnp.v', 'initialise', '  nv_write (item_pan (o_pan o));;\n  nv_write (item_ext (o_ext o));;\n', '  nv_write (item_pan (o_pan o));;\n',
  'the extended PAN id is not written', ['C51', 'C72'])
m('s12', 'StartZnp.v', 'endpoints', 'mk_endpoint 11 260 1024 0 [] 2 [1280; 1282];', 'mk_endpoint 11 260 1024 0 [] 1 [1280; 1282];',
  'wrong cluster count', ['C54'])
m('s13', 'Nv.v', 'network_options', '(or_int (cf_pan c) 6754)', '(or_int (cf_pan c) 0)', 'wrong default PAN id', ['C57'])
m('s14', 'Nv.v', 'item_pan', '[Z.land pan 255; Z.land (Z.shiftr pan 8) 255]', '[Z.land (Z.shiftr pan 8) 255; Z.land pan 255]',
  'PAN id big endian', ['C52'])
m('s15', 'StartZnp.v', 'has_configured', 'AssertionError | CommandError _ => Some (DRet false)', 'AssertionError => Some (DRet false)',
  'a refusal to read the marker ends the start at once', [])
m('s16', 'StartZnp.v', 'validate_item', 'if value_eqb v (item_value item) then DRet tt else DRaise AssertionError', 'DRet tt',
  'stored values are not compared', ['C51', 'C72', 'C49'])
m('s17', 'StartZnp.v', 'boot', 'if value_eqb state (VInt 9) then DRet tt\n  else', 'if false then DRet tt\n  else',
  'the network is started although it runs', ['C56'])
m('s18', 'StartZnp.v', 'endpoints', '   mk_endpoint 110 260 5 0 [] 0 [];\n', '', 'an endpoint is missing', ['C54'])
m('s19', 'StartZnp.v', 'start_znp', 'add_to_group 242 group;;', 'add_to_group 1 group;;', 'the wrong endpoint joins the group', ['C55'])
m('s20', 'Nv.v', 'network_options', 'mk_options false', 'mk_options true', 'key distribution on by default', ['C57'])
m('s21', 'StartZnp.v', 'initialise', '''  soft_reset;;
  nv_write (item_startup 2);;
  soft_reset;;
''', '''  soft_reset;;
  nv_write (item_startup 2);;
''', 'no reset after choosing to clear the state', ['C95'])

# --- Host.v
m('h01', 'Host.v', 'go', "mk_host (step (ECall (JCommand sub cmd d x)) s) (Requesting (s_ntid s) sub cmd d x k)",
  "mk_host (step (ECall (JCommand sub cmd d x)) s) (Requesting (s_ntid s - 1) sub cmd d x k)",
  'the program awaits the wrong request', ['C96'])
m('h02', 'Host.v', 'go', "mk_host s (Ready (k r)) (h_waiters h) (h_trace h ++ [(t, ARequest sub cmd d x (Some r))])\n      | None => h",
  "mk_host s (Ready (k r)) (h_waiters h) (h_trace h ++ [(t, ARequest sub cmd d x (Some r))])\n      | None => mk_host s (Ready (k (Err TimeoutError))) (h_waiters h) (h_trace h ++ [(t, ARequest sub cmd d x (Some (Err TimeoutError)))])",
  'the program goes on before its request has ended', ['C96'])
m('h03', 'Host.v', 'go', "mk_host (step (ECall (JCommand sub cmd d [0])) s) (Ready k)",
  "mk_host (step (ECall (JCommand sub cmd [] [0])) s) (Ready k)",
  'the background request loses its arguments', ['C96'])
m('h04', 'Host.v', 'go', "(h_waiters h ++ [(m, timeout, s_ntid s)])", "(h_waiters h ++ [(m, timeout, 0)])",
  'the program awaits the wrong waiter', ['C96'])

# --- Life.v
m('l01', 'Life.v', 'usb_search', 'contains (lower s) "0451:" || contains (lower s) "1a86:7523"', 'contains (lower s) "0451:"',
  'the second adapter is not recognised', ['C61'])
m('l02', 'Life.v', 'usb_search', 'contains (lower s) "0451:" || contains (lower s) "1a86:7523"', 'contains s "0451:" || contains s "1a86:7523"',
  'ids are compared with regard to case', ['C61'])
m('l03', 'Life.v', 'port_matches', 'usb_search (p_device p) || usb_search (p_desc p) || usb_search (p_hwid p)', 'usb_search (p_device p) || usb_search (p_desc p)',
  'hardware id is not looked at', ['C61'])
m('l04', 'Life.v', 'detect_port', '  | _ :: _ :: _ => Err SerialException', '  | d :: _ :: _ => Ok d', 'the first of several adapters is used', ['C61'])
m('l05', 'Life.v', 'flow_flags', """if String.eqb f "hardware" then (false, true)
              else if String.eqb f "software" then (true, false)""", """if String.eqb f "hardware" then (true, false)
              else if String.eqb f "software" then (false, true)""", 'flow control swapped', ['C61'])
m('l06', 'Life.v', 'connect_args', 'mk_serial_args port (dc_baudrate c)', 'mk_serial_args port 115200', 'configured baud rate is ignored', ['C61'])
m('l07', 'Life.v', 'PROBE_LIMIT', 'Definition PROBE_LIMIT := 2000.', 'Definition PROBE_LIMIT := 6000.', 'probing waits longer', ['C62', 'C79'])
m('l08', 'Life.v', 'probe_catches', 'TimeoutError | SerialException | CommandError _ => true', 'TimeoutError | SerialException => true', 'an error response escapes from probing', ['C62'])
m('l09', 'Life.v', 'probe', 'opened && negb uart_set in', 'opened in', 'probing never closes', ['C62', 'C79'])
m('l10', 'Life.v', 'gw_close', 'mk_gateway false false (g_told x)', 'mk_gateway (g_open x) false (g_told x)', 'closing does not mark the gateway closed', ['C58', 'C77', 'C80'])
m('l12', 'Life.v', 'lost', '      if g_open x then\n', '      if true then\n', 'a loss after closing starts a reconnect', ['C58', 'C77', 'C80'])
m('l14', 'Life.v', 'lost', '          if a_app a\n', '          if true\n', 'a loss before the hand-over starts a reconnect', ['C77'])
m('l15', 'Life.v', 'loop_top', '(log (LClose t) (app_close s))', '(log (LClose t) s)', 'the loop does not close the old port', ['C60', 'C59', 'C78'])
m('l16', 'Life.v', 'startup_ended', 'if k_loop k then loop_top t s else at_stage t (KEnd r) s', 'at_stage t (KEnd r) s', 'one attempt only', ['C60'])
m('l17', 'Life.v', 'startup_ended', '    | Ok _ => at_stage t (KEnd r) s', '    | Ok _ => if k_loop k then loop_top t s else at_stage t (KEnd r) s', 'the loop goes on after a success', ['C60'])
m('l18', 'Life.v', 'startup_ended', '    | Err CancelledError => at_stage t (KEnd r) s\n', '', 'a cancelled attempt is repeated', ['C60'])
m('l20', 'Life.v', 'go_on', 'mk_api_obj (Some g) true', 'mk_api_obj (Some g) false', 'the application is not told of losses', ['C58', 'C77'])
m('l21', 'Life.v', 'go_on', '(with_cur (Some a) (with_apis (set_nth a (mk_api_obj (Some g) true) (y_apis s)) s))', '(with_apis (set_nth a (mk_api_obj (Some g) true) (y_apis s)) s)',
  'the application keeps the old API', ['C59', 'C78', 'C80'])
m('l22', 'Life.v', 'life_step', '  | VShutdown => match y_cur s with Some a => api_close a s | None => log (LError AttributeError) s end', '  | VShutdown => s',
  'shutdown does nothing', ['C80'])
m('l23', 'Life.v', 'go_on', "at_stage t (KEnd r) (log (LCancel t) s) | _ => loop_top t s end", "at_stage t (KEnd r) (log (LCancel t) s) | _ => startup_begins t r s end",
  'the first attempt is made without closing', ['C60', 'C59', 'C78'])
m('l24', 'Life.v', 'api_close', 'with_apis (set_nth a (mk_api_obj None (a_app x)) (y_apis s)) (gw_close g s)', 'with_apis (set_nth a (mk_api_obj None (a_app x)) (y_apis s)) s',
  'closing the API leaves the port open', ['C58', 'C59', 'C78', 'C80', 'C60'])
m('l25', 'Life.v', 'probe_task', '  | Err e => (Err e, false, false)', '  | Err e => (Err TimeoutError, false, false)', 'every failure to open counts as a time-out', ['C62'])
m('l26', 'Life.v', 'probe_task', 'if PROBE_LIMIT <=? pw_open_ms w + SETTLE_MS + ms then', 'if PROBE_LIMIT <? pw_open_ms w + SETTLE_MS + ms then', 'an answer at the limit counts', ['C62'])
m('l27', 'Life.v', 'contains', 'startswith s t || match s with EmptyString => false | String _ r => contains r t end', 'startswith s t',
  'the id has to be at the beginning', ['C61'])
# --- AppStart.v
m('t01', 'AppStart.v', 'concurrency', 'then 16 else 2', 'then 2 else 16', 'limits swapped', ['C82'])
m('t02', 'AppStart.v', 'app_startup', '  ping;;\n  let! version := ask_version in', '  let! version := ask_version in\n  ping;;', 'version before ping', ['C81'])
m('t03', 'AppStart.v', 'ping', 'CommandError _ => Some (DRaise GenericException) | _ => None', '_ => None', 'error of the ping is passed on unchanged', ['C81'])
m('t04', 'AppStart.v', 'check_product', 'if (z =? zStack12) || (z =? zStack3x0) || (z =? zStack30x) then DRet z else DRaise ValueError', 'DRet z', 'unknown products are accepted', ['C82'])
m('t05', 'AppStart.v', 'form_network', 'switch_led product LED_Off', 'switch_led product LED_On', 'LED is switched on', ['C85'])
m('t06', 'AppStart.v', 'switch_led', 'if product =? zStack3x0 then DRet tt else spawn UTIL "ledControl" (led_payload mode)', 'spawn UTIL "ledControl" (led_payload mode)', 'LED command for every product', ['C85'])
m('t07', 'AppStart.v', 'form_network', """  let! status := start_znp product (network_options c) 2948 false in
  switch_led product LED_Off;;
""", """  switch_led product LED_Off;;
  let! status := start_znp product (network_options c) 2948 false in
""", 'LED before the start', ['C85'])
m('t08', 'AppStart.v', 'form_network', 'start_znp product (network_options c) 2948 false', 'start_znp product (network_options (mk_config None None None None)) 2948 false', 'configuration is ignored', ['C83', 'C85'])
m('t09', 'AppStart.v', 'coordinator', 'DRet (i, n, join devs n i)', 'DRet (i, n, devs)', 'coordinator is not added', ['C84'])
m('t10', 'AppStart.v', 'app_startup', 'if auto_form then', 'if negb auto_form then', 'forms exactly when not asked to', ['C83', 'C85'])
m('t11', 'AppStart.v', 'coordinator', 'let! nwk := field data "shortaddr" in', 'let! nwk := field data "devicestate" in', 'wrong field for the address', ['C84'])
m('t12', 'AppStart.v', 'form_network', 'start_znp product (network_options c)', 'start_znp zStack12 (network_options c)', 'every stick is started like Z-Stack 1.2', ['C83', 'C85'])
m('t13', 'AppStart.v', 'app_startup', 'field version "product"', 'field version "majorrel"', 'wrong field for the product', ['C82', 'C86'])
m('t14', 'AppStart.v', 'ping', 'attempt (request SYS "ping" [("capabilities", VInt 1)] [0])', 'attempt (request SYS "ping" [] [0])', 'ping that cannot be encoded', ['C81'])
m('t15', 'AppStart.v', 'app_startup', 'mk_ready product (concurrency product)', 'mk_ready product 2', 'fixed limit', ['C82'])
m('t16', 'AppStart.v', 'form_network', '  switch_led product LED_Off;;\n', '', 'LED is left on', ['C85'])
# --- what received bytes lead to
m('q01', 'Uart.v', 'gw_data_received', '    | Err e => (buffer1, s, Err e)', '    | Err e => gw_data_received h buffer1 s r', 'a bad frame is skipped and the read goes on', ['C90'])
m('q02', 'Machine.v', 'app_handle', '(fold_left (fun s e => do_effect e s) effs (set_devs devs s), r)', '(fold_left (fun s e => do_effect e s) effs (set_devs devs s), Ok tt)', 'exceptions of the handler are swallowed', ['C91'])
m('q03', 'App.v', 'set_led', 'match version with\n  | None => Err KeyError', 'match version with\n  | None => Ok [ELed mode]', 'an unknown version counts as one with a LED', ['C91', 'C87'])
m('q04', 'App.v', 'handle_znp', '| Err e => (devs, [], Err e)\n    | Ok f =>', '| Err e => (devs, [], Ok tt)\n    | Ok f =>', 'messages that cannot be encoded again are ignored', ['C91'])
m('q05', 'Machine.v', 'dispatch', '| Ok false => dispatch r o s', '| Ok false => dispatch r (match w_seq w with Some q => with_seq o (Some q) | None => o end) s', 'a reply takes the sequence number of any waiter passed over', ['C92', 'C43'])
m('q06', 'App.v', 'handle_znp', '        let \'(effs, r) := handle_rest version devs o f nwk ieee in\n        (devs, effs, r)',
  '        let \'(effs, r) := handle_rest version devs o f nwk ieee in\n        ((if String.eqb (z_cmd o) "leaveInd" then filter (fun d => negb (match nwk with Some (VInt n) => snd d =? n | _ => false end)) devs else devs), effs, r)',
  'a device that leaves is removed', ['C93'])
m('q07', 'Machine.v', 'step', '| EClose => set_open false s ', '| EClose => s ', 'closing does not close', ['C94'])
m('q08', 'Machine.v', 'do_effect', 'spawn (JCommand UTIL "ledControl" (led_payload mode) [0]) (note (OEffect e) s)', 'set_wire (s_wire s ++ [[254; 2; 39; 10; 3; mode; 46]]) (note (OEffect e) s)', 'the LED command is written past the queue', ['C94', 'C31', 'C71'])
m('q09', 'Machine.v', 'app_handle', '(fold_left (fun s e => do_effect e s) effs (set_devs devs s), r)', '(fold_left (fun s e => do_effect e s) effs s, r)', 'the device table is not updated', ['C93', 'C42'])
m('q11', 'Machine.v', 'outcome_of_exn', '| CommandError c => if uses_sem j', '| CommandError c => if uses_sem j && negb (c =? 205)', 'one status is raised instead of returned', ['C70'])
m('q12', 'Machine.v', 'resume', 'match s_futs s i, t_obj k with\n        | FDone r, Some o => request_raw_resume t k o r s', 'match s_futs s i, t_obj k with\n        | FDone r, Some o => if s_open s then request_raw_resume t k o r s else s', 'a request waits for ever if the port is lost after its answer', ['C88', 'C69'])
m('q13', 'Machine.v', 'wait_timeout', 'FPending => if d <=? s_now s then raw_raise t (t_job k) TimeoutError (cancel_fut i s) else s', 'FPending => if (d <=? s_now s) && s_open s then raw_raise t (t_job k) TimeoutError (cancel_fut i s) else s', 'no time limit once the port is closed', ['C88', 'C37'])
m('q14', 'Machine.v', 'acquire_sem', 'if 0 <? s_sem s\n', 'if 1 <? s_sem s\n', 'one slot is never used', ['C88'])
m('q16', 'App.v', 'deliver_message', '| Err _ => []', '| Err _ => match nwk with Some (VInt n) => [EJoin n []] | _ => [] end', 'a message of an unknown device creates one', ['C92', 'C40'])
m('q17', 'App.v', 'message_content', 'do l <- get_int (z_payload o) "linkquality";', 'do l <- get_int (z_payload o) "transseqnumber";', 'wrong field for the link quality', ['C92', 'C40'])
m('q18', 'App.v', 'handle_rest', '(if d =? 0 then LED_Off else LED_On)', 'LED_On', 'the LED is never switched off', ['C92', 'C87'])
m('q19', 'Api.v', 'create_response_waiter', 'Ok (Some (mk_matcher AREQ AF "dataConfirm" [("transid", t)], None))', 'Ok (Some (mk_matcher AREQ AF "dataConfirm" [("transid", t)], sequence))', 'the waiter for the confirmation carries the sequence number', ['C24'])
m('q20', 'Machine.v', 'data_received', "let '(s, o, r) := dispatch (s_waiters s) o s in\n    match r with", "let '(s, o, r) := dispatch (s_waiters s) (with_seq o (Some 1)) s in\n    match r with", 'every message carries a sequence number', ['C92', 'C43'])

# ---- further wrong programs (corners, time limits, start-up contents)
m('r01', 'Machine.v', 'cancel', '| PSleep _ => finish t (OExn CancelledError) (free_sem (t_job k) s)', '| PSleep _ => finish t (OExn CancelledError) s', 'a multicast cancelled while it settles keeps its slot', ['C66', 'C88'])
m('r02', 'Machine.v', 'cancel', '| PWait i _ => raw_raise t (t_job k) CancelledError (cancel_fut i s)', '| PWait i _ => finish t (OExn CancelledError) (free_sem (t_job k) (cancel_fut i s))', 'a request cancelled while it waits for its answer keeps the link', ['C32', 'C88'])
m('r03', 'Machine.v', 'raw_return', 'goto t (PSleep (s_now s + 200)) s', 'goto t (PSleep (s_now s + 2000)) s', 'multicasts settle ten times as long', ['C22'])
m('r04', 'Machine.v', 'outcome_of_result', '| JRequest _ _ _ _ _ _ _ _ | JMulticast _ _ _ _ _ _ | JBroadcast _ _ _ _ _ _ _ _ => OStatus 0', '| JRequest _ _ _ _ _ _ _ _ | JMulticast _ _ _ _ _ _ | JBroadcast _ _ _ _ _ _ _ _ => OStatus 1', 'an accepted message is reported with an error status', ['C45'])
m('r05', 'Machine.v', 'dispatch', '| Some q => if q =? 0 then dispatch r o s else (s, with_seq o (Some q), Ok tt)', '| Some q => (s, with_seq o (Some q), Ok tt)', 'fixed: 0 is a sequence number (refutes the refutation)', ['C28', 'C104', 'C65'])
m('r06', 'App.v', 'get_device_nwk', 'match find (fun d => snd d =? n) devs with', 'match find (fun d => snd d =? n) (rev devs) with', 'of several devices with one short address the newest is taken', ['C40', 'C41'])
m('r07', 'App.v', 'IGNORED', '"resetInd"; "srcRtgInd";', '"resetInd"; "srcRtgInd"; "bindRsp";', 'binding replies are ignored', ['C41'])
m('r08', 'Zpi.v', 'from_cluster', 'let s := if profile =? ZHA_PROFILE then AF else ZDO in\n  let wanted :=\n    if profile =? ZHA_PROFILE', 'let s := if negb (profile =? 0) then AF else ZDO in\n  let wanted :=\n    if negb (profile =? 0)', 'fixed: every profile but 0 goes out as application message (refutes the refutation)', ['C23', 'C106'])
m('r10', 'Api.v', 'create_response_waiter', 'do a <- dict_getE (z_payload o) "dstaddr";\n        Ok (Some (mk_matcher AREQ ZDO rsp [("srcaddr", a)], sequence))', 'match dict_get (z_payload o) "dstaddr" with\n        | Some a => Ok (Some (mk_matcher AREQ ZDO rsp [("srcaddr", a)], sequence))\n        | None => Ok None\n        end', 'fixed: no waiter without destination (refutes the refutation)', ['C24', 'C107'])
m('r11', 'Uart.v', 'to_buffer', 'do hd <- py_bytes [SOF; len; cmd0; f_id f];', 'do hd <- (if 250 <? len then Err ValueError else py_bytes [SOF; len; cmd0; f_id f]);', 'fixed: frames over 250 bytes are refused (refutes the refutation)', ['C11', 'C109'])
m('r12', 'Uart.v', 'parser_write', 'if Nat.ltb MinMessageLength (length buffer) then', 'if Nat.leb MinMessageLength (length buffer) then', 'fixed: an empty frame is delivered with its last byte (refutes the refutation)', ['C10', 'C101'])
m('r13', 'Uart.v', 'parser_write', '(skipn frameLength buffer, from_buffer dataLength fcsPosition frameBuffer)', '(match from_buffer dataLength fcsPosition frameBuffer with Ok None => [] | _ => skipn frameLength buffer end, from_buffer dataLength fcsPosition frameBuffer)', 'after a bad checksum the byte that follows an empty frame is dropped, too', ['C09', 'C05'])
m('r14', 'StartZnp.v', 'needs_init', 'validate_item (item_channels (o_channels o)) SYS "osalNvRead" [0];;\n     validate_item (item_distribute', 'validate_item (item_distribute', 'the channels are not compared', ['C72'])
m('r15', 'StartZnp.v', 'boot', '[("state", VInt 9)]) 60000 in\n    request ZDO', '[("state", VInt 9)]) 6000 in\n    request ZDO', 'start-up waits only six seconds for the coordinator state', ['C56'])
m('r16', 'StartZnp.v', 'initialise', 'nv_write (item_startup 2);;', 'nv_write (item_startup 3);;', 'the whole configuration is cleared instead of the network state', ['C95', 'C97'])
m('r17', 'StartZnp.v', 'initialise', 'nv_write (item_logical 0);;', 'nv_write (item_logical 1);;', 'the stick becomes a router', ['C95', 'C83'])
m('r18', 'Nv.v', 'item_direct_cb', '("value", VBytes [1])', '("value", VBytes [0])', 'direct callbacks are switched off', ['C95', 'C83'])
m('r19', 'StartZnp.v', 'initialise', '[("isPrimary", VInt 1); ("channel", VInt (o_channels o))] [0];;\n     request APP_CNF "bdbSetChannel" [("isPrimary", VInt 0); ("channel", VInt 0)] [0]', '[("isPrimary", VInt 0); ("channel", VInt (o_channels o))] [0];;\n     request APP_CNF "bdbSetChannel" [("isPrimary", VInt 1); ("channel", VInt 0)] [0]', 'primary and secondary channels swapped', ['C83'])
m('r20', 'StartZnp.v', 'initialise', 'request APP_CNF "bdbStartCommissioning" [("mode", VInt 4)] [0];;\n     await_started started;;\n     request APP_CNF "bdbStartCommissioning" [("mode", VInt 2)] [0]', 'request APP_CNF "bdbStartCommissioning" [("mode", VInt 2)] [0];;\n     await_started started;;\n     request APP_CNF "bdbStartCommissioning" [("mode", VInt 4)] [0]', 'commissioning modes swapped', ['C83'])
m('r21', 'StartZnp.v', 'add_to_group', '("groupid", VInt group)] [0; 1] in', '("groupid", VInt group)] [0] in', 'a missing group ends the start', ['C55', 'C76'])
m('r22', 'StartZnp.v', 'add_to_group', '("namelen", VInt 0); ("groupname", VBytes [])', '("namelen", VInt 1); ("groupname", VBytes [])', 'a group name that is not there is announced', ['C55'])
m('r23', 'StartZnp.v', 'start_znp', 'boot;;\n  register_endpoints;;', 'register_endpoints;;\n  boot;;', 'endpoints are registered before the coordinator runs', ['C56'])
m('r24', 'StartZnp.v', 'register_endpoints', 'let! response := listen (mk_matcher AREQ ZDO "activeEpRsp" []) Timeouts_default in\n  spawn ZDO "activeEpReq" [("dstaddr", VInt 0); ("nwkaddrofinterest", VInt 0)];;', 'spawn ZDO "activeEpReq" [("dstaddr", VInt 0); ("nwkaddrofinterest", VInt 0)];;\n  let! response := listen (mk_matcher AREQ ZDO "activeEpRsp" []) Timeouts_default in', 'the list is asked for before start-up listens', ['C54'])
m('r25', 'StartZnp.v', 'configure', 'if backup && negb configured then DRaise TODO\n  else', 'if false then DRaise TODO\n  else', 'a backup is ignored', ['C53'])
m('r26', 'StartZnp.v', 'needs_init', '(validate_item (item_configured version) SYS "osalNvRead" [0; 2];;\n     validate_item (item_channels', '(validate_item (item_configured version) SYS "osalNvRead" [0];;\n     validate_item (item_channels', 'a stick without mark ends the start', ['C49', 'C76'])
m('r27', 'Life.v', 'api_close', '| Some g => with_apis (set_nth a (mk_api_obj None (a_app x)) (y_apis s)) (gw_close g s)', '| Some g => gw_close g s', 'a closed API keeps its gateway', ['C80'])
m('r28', 'Life.v', 'lost', 'if g_told x then s\n    else', 'if false then s\n    else', 'a loss is reported as often as it likes', ['C59', 'C78'])
m('r29', 'Machine.v', 'resume', '| PReg i timeout => goto t (PAwait i (s_now s + timeout)) s', '| PReg i timeout => goto t (PAwait i (s_now s + 10 * timeout)) s', 'a wait takes ten times as long', ['C37'])
m('r30', 'App.v', 'build_broadcast', '(Some ADDR_16BIT)', '(Some ADDR_BROADCAST)', 'broadcasts use another address mode', ['C22'])
m('r31', 'App.v', 'build_mrequest', '(if src_ep =? 0 then 1 else src_ep) 255 sequence data', '(if src_ep =? 0 then 1 else src_ep) 1 sequence data', 'multicasts go to endpoint 1 only', ['C22'])
m('r32', 'App.v', 'build_request', 'src_ep dst_ep sequence data 30 None)', 'src_ep dst_ep sequence data 0 None)', 'unicasts with radius 0', ['C21'])
m('r33', 'Types.v', 'Timeouts_reset', 'Timeouts_reset := 30000', 'Timeouts_reset := 6000', 'resets wait six seconds', ['C37', 'C38'])
m('r34', 'Machine.v', 'expected_of', 'match j with JCommand _ _ _ e | JRaw _ e => e | _ => [0] end', 'match j with JCommand _ _ _ e | JRaw _ e => e | _ => [0; 1] end', 'status 1 of a message counts as success', ['C45', 'C89'])
m('r35', 'Machine.v', 'request_raw_resume', "let '(s, x) := complete i r s in\n          raw_raise t (t_job k) (match x with Ok _ => CommandError c | Err e => e end) s", "raw_raise t (t_job k) (CommandError c) s", 'the reply waiter of a refused message stays registered', ['C29', 'C70'])
m('r36', 'Machine.v', 'cleanup', '| FPending | FCancelled => unregister i s\n    | FDone _ => s', '| FPending => unregister i s\n    | FCancelled | FDone _ => s', 'waiters of cancelled requests are never removed', ['C29'])
m('r38', 'Machine.v', 'start', '| Err e => finish t (OExn e) s\n      | Ok None =>', '| Err e => finish t (OStatus 0) s\n      | Ok None =>', 'a look-up that cannot be sent is reported as success', ['C89', 'C107'])
m('r39', 'AppStart.v', 'coordinator', 'DRet (i, n, join devs n i)', 'DRet (i, n, join [] n i)', 'start-up forgets the known devices', ['C84'])
m('r40', 'AppStart.v', 'form_network', '2948 false', '2948 true', 'start-up looks for a backup', ['C86'])
m('r41', 'Nv.v', 'item_configured_init', '("initvalue", VBytes [0])', '("initvalue", VBytes [85])', 'creating the mark already sets it', ['C97', 'C49'])
m('r42', 'Nv.v', 'network_options', '(Z.shiftl 1 11)', '(Z.shiftl 1 10)', 'wrong default channel', ['C57'])
m('r43', 'StartZnp.v', 'await_started', 'Some (DRaise GenericException)', 'Some (DRet (mk_zpi AREQ ZDO "stateChangeInd" 192 [] [] None))', 'a coordinator that does not start is taken for started', ['C56'])
m('r44', 'Host.v', 'go', '(h_waiters h ++ [(m, timeout, s_ntid s)]) (h_trace h ++ [(s_ntid s, AListen m timeout)])', '((m, timeout, s_ntid s) :: h_waiters h) (h_trace h ++ [(s_ntid s, AListen m timeout)])', 'an old waiter with the same arguments is awaited', ['C96'])
m('r45', 'Zpi.v', 'is_reset_command', '(String.eqb (z_cmd o) "resetReq" && sub_eqb (z_sub o) SYS) ||', '(startswith (z_cmd o) "reset" && sub_eqb (z_sub o) SYS) ||', 'the reset indication counts as a reset command', ['C38'])

# ---- the application with all its API objects (World.v)
m('y01', 'World.v', 'got_version', 'wnote (WNewSem q slots) (set_wsem (Some q) (set_sems (w_sems w ++ [slots]) (set_wversion (Some product) w))).', 'match w_sem w with\n  | Some q0 => wnote (WNewSem q0 slots) (set_sems (set_nth q0 slots (w_sems w)) (set_wversion (Some product) w))\n  | None => wnote (WNewSem q slots) (set_wsem (Some q) (set_sems (w_sems w ++ [slots]) (set_wversion (Some product) w)))\n  end.', 'a reconnect refills the semaphore object that is in use', ['C112'])
m('y02', 'World.v', 'op_leave', 'op_end n r (slot_change q 1 w)', 'op_end n r w', 'the slot of an operation that ends is lost', ['C112', 'C123'])
m('y03', 'World.v', 'op_leave', 'op_end n r (slot_change q 1 w)', 'op_end n r (slot_change (match w_sem w with Some q => q | None => q end) 1 w)', 'the slot is given back to the semaphore in use instead of the one it was taken from', ['C112'])
m('y04', 'World.v', 'op_cancel', '| OSettling q u => op_leave n q (OExn CancelledError) w', '| OSettling q u => op_end n (OExn CancelledError) w', 'cancelling in the pause loses the slot', ['C112'])
m('y05', 'World.v', 'op_admitted', '(wnote (WAdmitted n q a) (slot_change q (-1) w))', '(wnote (WAdmitted n q a) w)', 'no slot is taken', ['C112'])
m('y06', 'World.v', 'op_acquire', 'if 0 <? v then op_admitted n q w else op_goto n (OSlot q) w', 'if 0 <=? v then op_admitted n q w else op_goto n (OSlot q) w', 'one more than the semaphore has is admitted', ['C112'])
m('y07', 'World.v', 'op_run', '| OSlot q => match nth_error (w_sems w) q with Some v => if 0 <? v then op_admitted n q w else w | None => w end', '| OSlot q => match w_sem w with Some q => op_acquire n q w | None => w end', 'a waiting operation changes over to the new semaphore (the number waiting for the old one could be called after)', ['C114'])
m('y08', 'World.v', 'op_after', 'if settles (op_job o) then op_goto n (OSettling q (w_now w + 200)) w', 'if settles (op_job o) then op_goto n (OSettling q (w_now w + 6000000)) w', 'the pause takes hours', ['C123'])
m('y09', 'World.v', 'op_after', '| PDone (OExn e) => op_leave n q (outcome_of_exn (op_job o) e) w', '| PDone (OExn e) => op_leave n q (outcome_of_result (op_job o) None) w', 'a failed request is reported as success', ['C118'])
m('y10', 'World.v', 'op_after', '| PDone (OExn e) => op_leave n q (outcome_of_exn (op_job o) e) w', '| PDone (OExn e) => w', 'an operation whose request failed hangs', ['C123', 'C117'])
m('y11', 'World.v', 'op_admitted', '| _, _ => op_end n (OExn AttributeError) w\n  end.\n(** asyncio', '| _, _ => op_end n (OStatus 0) w\n  end.\n(** asyncio', 'without an API object success is reported', ['C118'])
m('y12', 'World.v', 'op_semaphore', '| Some q => op_acquire n q w\n  | None => op_end n (OExn AttributeError) w', '| Some q => op_acquire n q w\n  | None => op_goto n (OSlot 0) w', 'before the version is known operations wait for the first semaphore', ['C111'])
m('y13', 'World.v', 'world_effect', '| ELed mode, Some c => on_api c (spawn', '| ELed mode, Some c => on_api a (spawn', 'the LED command goes to the API object that received the message', ['C115'])
m('y14', 'World.v', 'world_effect', 'let w := wnote (WEffect a e) w in\n  match e,', 'let w := wnote (WEffect 0 e) w in\n  match e,', 'effects are told of the first API object', ['C115', 'C122'])
m('y15', 'World.v', 'world_handle', '(fold_left (world_effect a) effs (set_wdevs devs w), r)', '(fold_left (world_effect a) effs w, r)', 'the table is not updated', ['C122'])
m('y16', 'World.v', 'got_device', 'set_wdevs (join (w_devs w) nwk ieee) w', 'set_wdevs [(ieee, nwk)] w', 'start-up replaces the whole table', ['C122'])
m('y17', 'World.v', 'got_device', 'set_wdevs (join (w_devs w) nwk ieee) w', 'w', 'the coordinator is not put into the table', ['C122'])
m('y18', 'World.v', 'flags', '(Machine.set_open (match a_uart x with Some _ => true | None => false end) s)', '(Machine.set_open true s)', 'a closed API object still writes', ['C117'])
m('y19', 'World.v', 'flags', '(Machine.set_open (match a_uart x with Some _ => true | None => false end) s)', '(Machine.set_open (s_open s || match a_uart x with Some _ => true | None => false end) s)', 'an API object that was open once stays open', ['C117'])
m('y20', 'World.v', 'op_begin', 'op_semaphore n (put_op n (mk_op (op_job o) (Some obj) (Some (a, s_next s)) OBegin)\n              (wnote (WWaiter n a (s_next s)) (on_api a (wait_for m Timeouts_default q) w)))', 'op_semaphore n (put_op n (mk_op (op_job o) (Some obj) (Some (a, s_next s)) OBegin)\n              (wnote (WWaiter n a (s_next s)) (on_api 0 (wait_for m Timeouts_default q) w)))', 'reply waiters are always made in the first API object', ['C115'])
m('y21', 'World.v', 'op_admitted', 'op_after n (op_goto n (OInside q a (s_ntid s))\n          (on_api a (call_raw', 'op_after n (op_goto n (OInside q a (s_ntid s))\n          (on_api 0 (call_raw', 'requests always go to the first API object', ['C115', 'C118', 'C117'])
m('y22', 'World.v', 'call_raw', 'acquire_lock t k (note', 'granted t k (note', 'requests do not wait for the link', ['C116'])
m('y23', 'World.v', 'op_run', '| OOver _ => w\n    end\n  | None => w\n  end.\n(** task.cancel() *)', '| OOver _ => op_begin n o w\n    end\n  | None => w\n  end.\n(** task.cancel() *)', 'an operation that ended is run again', ['C119'])
m('y24', 'World.v', 'world_step', '| VTask a t => ops_after (on_api a (resume t) w)', '| VTask a t => on_api a (resume t) w', 'operations do not go on when their request has come back', ['C123'])
m('y25', 'World.v', 'sync', '| x :: l\', s :: ms\' => flags x s :: sync now l\' ms\'', '| x :: l\', s :: ms\' => flags x (if match a_uart x with Some _ => true | None => false end then s else new_api now) :: sync now l\' ms\'', 'closing an API object forgets its requests', ['C123', 'C116'])
m('y26', 'World.v', 'life_event_happens', 'set_apis (sync (w_now w) (y_apis l) (w_apis w)) (set_life l w)', 'match e with VLost _ => set_sems (map (fun _ => 2) (w_sems w)) (set_apis (sync (w_now w) (y_apis l) (w_apis w)) (set_life l w)) | _ => set_apis (sync (w_now w) (y_apis l) (w_apis w)) (set_life l w) end', 'a loss frees all slots', ['C112'])
m('y27', 'World.v', 'op_cancel', '| OInside q a t => op_after n (on_api a (Machine.cancel t) w)', '| OInside q a t => op_leave n q (OExn CancelledError) w', 'cancelling an operation leaves its request at the stick', ['C118'])
m('y28', 'World.v', 'world_step', 'if uses_sem j then wnote (WCalled (length (w_ops w))) (set_ops (w_ops w ++ [mk_op j None None OBegin]) w) else w', 'if uses_sem j then wnote (WCalled (length (w_ops w))) (set_ops (mk_op j None None OBegin :: w_ops w) w) else w', 'calls are numbered backwards', ['C119', 'C123'])
m('y29', 'World.v', 'world_received', 'if s_app s then world_handle a o w else (w, Ok tt)', 'world_handle a o w', 'messages are handled before start-up handed the API object to the application', ['C115'])
m('y30', 'World.v', 'op_admitted', '(on_api a (call_raw obj (option_map snd (op_waiter o)))', '(on_api a (call_raw obj (match op_waiter o with Some (b, i) => if Nat.eqb a b then Some i else None | None => None end))', 'fixed: the waiter id is passed on only to the API object it belongs to (refutes the refutation)', ['C120', 'C121'])

# ---- start-ups that make their requests themselves (Whole.v)
m('v01', 'Whole.v', 'falls_asleep', 'Some KSleep => until 5000', 'Some KSleep => until 1000', 'the loop sleeps one second', ['C131'])
m('v02', 'Whole.v', 'from_outside', '(x_until x t <=? w_now (x_world x)) || match r with', '(0 <=? w_now (x_world x)) || match r with', 'sleeps may end at any time', ['C131'])
m('v03', 'Whole.v', 'attempt_over', 'falls_asleep t (put_boot t (idle (b_auto b))', 'id (put_boot t (idle (b_auto b))', 'after a failed start-up the loop does not sleep again', ['C131'])
m('v04', 'Whole.v', 'next_part', 'match y_cur (w_life (x_world x)) with\n  | Some a => put_boot t (mk_boot (b_auto b) (Some (mk_part a', 'match (match b_part b with Some p => Some (r_api p) | None => y_cur (w_life (x_world x)) end) with\n  | Some a => put_boot t (mk_boot (b_auto b) (Some (mk_part a', 'fixed: a start-up keeps to the API object it pinged (refutes the refutation)', ['C129'])
m('v05', 'Whole.v', 'next_part', 'Some (mk_part a (Ready p) [])', 'Some (mk_part 0 (Ready p) [])', 'start-ups always talk to the first API object', ['C130'])
m('v06', 'Whole.v', 'part_goes', '(world_step (VApiCall a (JCommand sub cmd d x)) w, mk_part', '(world_step (VApiCall 0 (JCommand sub cmd d x)) w, mk_part', 'requests of start-ups are made to the first API object', ['C124'])
m('v07', 'Whole.v', 'whole_step', 'then next_part t part_ping x else x', 'then next_part t part_version x else x', 'start-up does not ping', ['C124', 'C125'])
m('v08', 'Whole.v', 'boot_goes', 'if known_product product\n        then', 'if 0 <=? product\n        then', 'an unknown product is accepted', ['C124', 'C125'])
m('v09', 'Whole.v', 'boot_goes', '(if b_auto b then part_form product c else part_device)', '(part_form product c)', 'the network is formed even if not asked for', ['C124', 'C125', 'C128'])
m('v10', 'Whole.v', 'whole_init', '(fun _ => idle true)', '(fun _ => idle false)', 'reconnect loops do not form the network', ['C126'])
m('v11', 'Whole.v', 'led_off', "(happens (VApiCall a (JCommand UTIL \"ledControl\" (led_payload LED_Off) [0])) x)", "(happens (VApiCall a (JCommand UTIL \"ledControl\" (led_payload LED_On) [0])) x)", 'the LED is switched on', ['C124'])
m('v12', 'Whole.v', 'part_form', '2948 false', '2948 true', 'start-up looks for a backup', ['C124', 'C125'])
m('v13', 'Whole.v', 'boot_goes', '(happens (VGotDevice t ieee nwk) x)', '(happens (VGotDevice t ieee 0) x)', 'the coordinator is put into the table with address 0 whatever it said', ['C124', 'C126'])
m('v14', 'Whole.v', 'boot_goes', 'happens (VGotVersion t product) x in', 'happens (VGotVersion t 0) x in', 'the semaphore always has two slots', ['C124', 'C126'])
m('v15', 'Whole.v', 'boot_goes', 'Ready (DRaise e) => attempt_over t (Err e) x', 'Ready (DRaise e) => attempt_over t (Ok tt) x', 'a failed start-up is taken for a success', ['C124', 'C125'])
m('v16', 'Whole.v', 'part_goes', "| Requesting t sub cmd d x k =>\n        match came_back s t with", "| Requesting t sub cmd d x k =>\n        match came_back s (t - 1) with", 'a request is answered with the answer of another task', ['C124'])
m('v17', 'Whole.v', 'attempt_over', '(put_boot t (idle (b_auto b))\n', '(put_boot t (mk_boot (b_auto b) None (b_deeds b))\n', 'the next attempt goes on with what the last one did', ['C125', 'C124'])
m('v18', 'Whole.v', 'boot_goes', 'if b_auto b then part_form product c else', 'if b_auto b then part_form 0 c else', 'the network is formed as for Z-Stack 1.2 whatever the product', ['C124', 'C125', 'C128'])
m('v19', 'Whole.v', 'boot_goes', 'Ready (DRaise e) => attempt_over t (Err e) x', 'Ready (DRaise e) => match e with TimeoutError => next_part t part_version x | _ => attempt_over t (Err e) x end', 'after a timeout start-up goes on with the version', ['C125'])
m('v20', 'Whole.v', 'boot_goes', '| Ok [] => next_part t part_device x\n        | Ok _ => next_part t part_device (led_off t x)', '| Ok [] => attempt_over t (Ok tt) x\n        | Ok _ => next_part t part_device (led_off t x)', 'on Z-Stack 3.x.0 start-up ends without asking for the addresses', ['C124', 'C125'])
m('v21', 'Whole.v', 'part_goes', '| Awaiting t m k =>\n        match came_back s t with', '| Awaiting t m k =>\n        match (match came_back s t with None => Some (Err TimeoutError) | r => r end) with', 'awaiting does not wait', ['C124'])
m('v22', 'Whole.v', 'attempt_over', 'r (w_now (x_world x))) (happens (VLife (VGo t r)) x))).', 'r (w_now (x_world x))) (happens (VLife (VGo t (Err TimeoutError))) x))).', 'the loop tries again after a success', ['C126'])
m('v23', 'Whole.v', 'boot_goes', 'Ready (DRaise e) => attempt_over t (Err e) x', 'Ready (DRaise e) => match e with TimeoutError => next_part t part_ping x | _ => attempt_over t (Err e) x end', 'after a timeout start-up begins again and never gives up', ['C134', 'C125'])
m('v24', 'Whole.v', 'part_goes', '| Requesting t sub cmd d x k =>\n        match came_back s t with', '| Requesting t sub cmd d x k =>\n        match (match came_back s t with Some (Err TimeoutError) => None | r => r end) with', 'a start-up whose request timed out waits on', ['C134'])
m('v25', 'StartZnp.v', 'initialise', 'let! started := listen (mk_matcher AREQ ZDO "stateChangeInd" [("state", VInt 9)]) 60000 in\n     ', 'let! started := listen (mk_matcher AREQ ZDO "stateChangeInd" [("state", VInt 9)]) 600000 in\n     ', 'start-up waits ten minutes for the new network', ['C134'])
m('v26', 'Whole.v', 'part_device', "let! data := request UTIL \"getDeviceInfo\" [] [0] in\n  let! ieee", "request SYS \"resetReq\" [(\"type\", VInt 1)] [0];;\n  let! data := request UTIL \"getDeviceInfo\" [] [0] in\n  let! ieee", 'every start-up resets the stick before it asks for the addresses', ['C133', 'C128', 'C124', 'C125'])
m('v27', 'Whole.v', 'part_goes', 'mk_part a (Ready k) ws, [(a, s_ntid s, ASpawn sub cmd d)])', 'mk_part a (Ready k) ws, [])', 'ghost: a command that start-up does not wait for is not its own', ['C133', 'C125'])
m('v28', 'Whole.v', 'from_outside', 'VApiCall _ _ | VGotVersion', 'VGotVersion', 'others may call the API', ['C133', 'C134'])
m('v29', 'Whole.v', 'boot_goes', '(mk_boot (b_auto b) (Some p\') (b_deeds b ++ ds))', '(mk_boot (b_auto b) (Some p\') (match p\' with mk_part _ (Requesting _ _ _ _ _ _) _ => [] | _ => b_deeds b ++ ds end))', 'ghost: what was done is forgotten at each request', ['C124', 'C125', 'C133'])
# ---- reconnect loops that try again (C135); why start-ups fail (C136), and what they do then (C137)
m('v30', 'Life.v', 'startup_ended', '| Err _ => if k_loop k then loop_top t s else at_stage t (KEnd r) s', '| Err SerialException => at_stage t (KEnd r) s\n    | Err _ => if k_loop k then loop_top t s else at_stage t (KEnd r) s', 'the loop gives up when the port cannot be opened', ['C135'])
m('v31', 'Life.v', 'go_on', '| _ => loop_top t s end\n    | KSleep', '| _ => s end\n    | KSleep', 'the loop never begins', ['C135'])
m('v32', 'Whole.v', 'falls_asleep', 'Some KSleep => until 5000', 'Some KSleep => until 3600000', 'the loop sleeps an hour', ['C135'])
m('v33', 'Whole.v', 'from_outside', '(x_until x t <=? w_now (x_world x)) || match', '(x_until x t <? x_until x t) || match', 'nobody wakes up', ['C135'])
m('v34', 'AppStart.v', 'ping', 'CommandError _ => Some (DRaise GenericException)', 'CommandError _ => Some (DRet (mk_zpi SRSP SYS "ping" 1 [] [] None))', 'a refused ping is ignored', ['C136', 'C137'])
m('v35', 'StartZnp.v', 'needs_init', "     DRet false)\n    (fun e => if is_assertion e then Some (DRet true) else None).", "     DRet false)\n    (fun e => match e with AssertionError | CommandError _ => Some (DRet true) | _ => None end).", 'a stick that refuses to read an item is formatted', ['C137'])
m('v36', 'StartZnp.v', 'await_started', 'CancelledError => None | _ => Some (DRaise GenericException)', 'CancelledError => None | _ => Some (DRet (mk_zpi AREQ ZDO "stateChangeInd" 192 [] [] None))', 'it does not matter whether the new network started', ['C137'])
m('v37', 'StartZnp.v', 'register_loop', 'request AF "register" (ep_vars e) [0];; DRet tt);;', 'attempt (request AF "register" (ep_vars e) [0];; DRet tt) (fun _ => Some (DRet tt)));;', 'endpoints that cannot be registered are left out', ['C137'])
m('v38', 'Whole.v', 'part_version', 'field version "product" in', 'field version "productid" in', 'the product is looked up under another name', ['C136'])
m('v39', 'StartZnp.v', 'boot', 'field result "devicestate" in', 'field result "state" in', 'the state of the device is looked up under a name that is not in the answer', ['C136'])
m('v40', 'Whole.v', 'boot_goes', 'else attempt_over t (Err ValueError) x', 'else attempt_over t (Ok tt) x', 'a start-up with an unknown product is taken for a success', ['C124', 'C125'])
m('v41', 'StartZnp.v', 'validate_pan', 'if value_eqb v (VBytes [255; 255]) then DRet tt else DRaise e', 'if value_eqb v (VBytes [255; 255]) then DRet tt else DRaise ValueError', 'another PAN id makes start-up fail', ['C136'])
m('v42', 'StartZnp.v', 'has_configured', 'AssertionError | CommandError _ => Some (DRet false)', 'AssertionError | CommandError _ | TimeoutError => Some (DRet false)', 'no answer about the mark is taken for an unconfigured stick', ['C137'])
m('v43', 'StartZnp.v', 'add_to_group', 'request ZDO "extAddGroup" [', '@DRaise unit ValueError;; request ZDO "extAddGroup" [', 'a stick that is not in the group makes start-up fail', ['C136'])
m('v44', 'Whole.v', 'part_goes', '| Some r => (w, mk_part a (Ready (k r)) ws, [(a, t, ARequest sub cmd d x (Some r))])', "| Some r => (w, mk_part a (Ready (k (match r with Err TimeoutError => Err GenericException | _ => r end))) ws, [(a, t, ARequest sub cmd d x (Some r))])", 'a timeout reaches the program as a general exception', ['C136', 'C124', 'C125'])
m('v45', 'CmdTable.v', 'cmd_table', '("devicestate", UINT8)', '("devstate", UINT8)', 'the definition of the answer names the state differently', ['C136'])
# ---- whoever waits for the link (C138-C141)
m('w01', 'Machine.v', 'acquire_lock', '| None, [] => granted t k s', '| None, _ => granted t k s', 'a new request overtakes those waiting for the link', ['C138', 'C139'])
m('w02', 'Machine.v', 'acquire_lock', '(set_queue (s_queue s ++ [t]) (goto t PLock s))', '(set_queue (t :: s_queue s) (goto t PLock s))', 'the one that came last gets the link first', ['C138', 'C139', 'C140', 'C141'])
m('w03', 'Machine.v', 'resume', '| None, h :: q => if h =? t then granted t k (set_queue q s) else s', '| None, h :: q => if existsb (Z.eqb t) (h :: q) then granted t k (set_queue (filter (fun x => negb (x =? t)) (h :: q)) s) else s', 'whoever asks first, not who waited longest, gets the free link', ['C138', 'C139'])
m('w04', 'Machine.v', 'dequeue', 'set_queue (filter (fun x => negb (x =? t)) (s_queue s)) s.', 'set_queue (s_queue s) s.', 'one that is cancelled while it waits for the link stays in the queue', ['C138', 'C139', 'C140', 'C141'])
m('w05', 'World.v', 'world_step', '| VTimeout a t => ops_after (on_api a (wait_timeout t) w)', '| VTimeout a t => if Nat.eqb (S a) (length (w_apis w)) then ops_after (on_api a (wait_timeout t) w) else w', 'the time limits of an API object are forgotten when the next one is made', ['C139', 'C140', 'C141'])
m('w06', 'Types.v', 'Timeouts_SREQ', 'Timeouts_SREQ := 6000.', 'Timeouts_SREQ := 600000.', 'a request waits ten minutes for its answer', ['C138', 'C139', 'C140', 'C141'])
# ---- why operations, waits and start-ups fail (C142, C143); waits for extended messages (C108); failed tries (C132)
m('w07', 'Machine.v', 'cleanup', '(snd x =? i) && (fst x <=? s_now s)', '(snd x =? i) && (fst x <=? s_now s + 5000)', 'a waiter is removed five seconds before its time is up', ['C142', 'C143'])
m('w08', 'Machine.v', 'send_and_wait', 'goto t (PWait i (s_now s + timeout)) s', 'goto t (PWait i (s_now s + timeout - 1000)) s', 'requests give up a second early', ['C142', 'C143'])
m('w09', 'Machine.v', 'resume', 'match s_futs s i with FDone r => finish t (ORet (Some r)) s | _ => s end', 'match s_futs s i with FDone r => finish t (if s_open s then ORet (Some r) else OExn AttributeError) s | _ => s end', 'a wait raises if the port was closed meanwhile', ['C142', 'C143'])
m('w10', 'Machine.v', 'resume', '| PReg i timeout => goto t (PAwait i (s_now s + timeout)) s', '| PReg i timeout => goto t (PAwait i (s_now s + Z.min timeout 10000)) s', 'nobody waits longer than ten seconds', ['C142', 'C143'])
m('w11', 'Machine.v', 'uart_send', 'else (s, Err AttributeError).', 'else (s, Err TimeoutError).', 'a closed port looks like a stick that does not answer', ['C142', 'C143'])
m('w12', 'Machine.v', 'cancel', '| PLock => finish t (OExn CancelledError) (free_sem (t_job k) (dequeue t s))', '| PLock => finish t (OExn TimeoutError) (free_sem (t_job k) (dequeue t s))', 'one cancelled while it waits for the link reports a time-out', ['C142', 'C143'])
m('w13', 'Api.v', 'sreq_timeout', '|| String.eqb command "startupFromApp"', '', 'startupFromApp gets six seconds', ['C142', 'C143'])
m('w14', 'Machine.v', 'unregister', 'filter (fun w => negb (w_id w =? i)) (s_waiters s)', 'filter (fun w => negb (i <=? w_id w)) (s_waiters s)', 'whoever came after the one answered is forgotten too', ['C142', 'C143', 'C108'])
m('w15', 'StartZnp.v', 'boot', '    await started;;\n    DRet tt.', '    let! st := await started in\n    let! again := field st "devicestate" in\n    DRet tt.', 'the state is looked up again in the indication, which has no such field', ['C143', 'C136'])
m('w16', 'Machine.v', 'data_received', "let '(s, o, r) := dispatch (s_waiters s) o s in\n    match r with", "let '(s, o, r) := (match z_sub o with AF => (s, o, Ok tt) | _ => dispatch (s_waiters s) o s end) in\n    match r with", 'messages for the application complete no waits', ['C108', 'C142', 'C143'])
m('w17', 'Life.v', 'startup_ended', '| Err _ => if k_loop k then loop_top t s', '| Err TimeoutError => if k_loop k then at_stage t KSleep s else at_stage t (KEnd r) s\n    | Err _ => if k_loop k then loop_top t s', 'after a time-out the loop tries again without closing the port', ['C132'])
m('w18', 'Machine.v', 'dispatch', '| None => dispatch r o s\n          end', '| None => match w_matcher w with mk_matcher SRSP _ _ _ => dispatch r o s | _ => (s, o, Ok tt) end\n          end', 'an indication ends only the first wait for it', ['C108', 'C142', 'C143'])
m('w19', 'Machine.v', 'request_raw_resume', '| None => raw_raise t (t_job k) (CommandError c) s', '| None => raw_raise t (t_job k) (if s_open s then CommandError c else AttributeError) s', 'a refusal read after the port was closed is blamed on the port', ['C142'])

# ---- constants, comparisons and lookups
m('g01', 'Base.v', 'le_bytes', '| S k => z mod 256 :: le_bytes k (z / 256)', '| S k => le_bytes k (z / 256) ++ [z mod 256]', 'numbers are sent with the high byte first', ['C12', 'C20'])
m('g02', 'Base.v', 'from_bytes_signed', 'if u <? m / 2 then', 'if u <=? m / 2 then', 'the least signed byte is read as the greatest plus one', ['C12'])
m('g03', 'Base.v', 'endswith', 'String.substring (n - m) m s', 'String.substring 0 m s', 'beginnings of names are taken for their ends', ['C24', 'C146'])
m('g04', 'Buffalo.v', 'value_eqb', '  | VInt x, VInt y => x =? y\n', '  | VInt x, VInt y => true\n', 'any two numbers are taken to be equal', ['C26', 'C55', 'C56', 'C146'])
m('g05', 'Buffalo.v', 'neighbor_eqb', ' && (n_lqi a =? n_lqi b)', '', 'the link quality of neighbours is not compared', ['C146'])
m('g06', 'Base.v', 'replace_req', 'String "R" (String "s" (String "p" (replace_req r)))', 'String "R" (String "s" (String "p" r))', 'only the first Req of a name is replaced', ['C146'])
m('g07', 'Types.v', 'sub_val', 'APP_CNF => 15', 'APP_CNF => 14', 'wrong number of a subsystem', ['C01', 'C11', 'C95'])
m('g08', 'Types.v', 'sub_of', '| 15 => Ok APP_CNF | 21 => Ok GREENPOWER', '| 15 => Ok APP_CNF', 'frames of one subsystem are not accepted', ['C01', 'C03'])
m('g09', 'Types.v', 'ct_of', '3 => Ok SRSP', '3 => Ok AREQ', 'responses are taken for indications', ['C01', 'C02'])
m('g10', 'Types.v', 'ADDR_GROUP', 'ADDR_GROUP := 1.', 'ADDR_GROUP := 2.', 'multicasts go to the device with the number of the group', ['C22'])
m('g11', 'Types.v', 'ADDR_BROADCAST', 'ADDR_BROADCAST := 15.', 'ADDR_BROADCAST := 2.', 'permission to join is sent with another address mode', ['C46'])
m('g12', 'Types.v', 'LED_On', 'LED_On := 1.', 'LED_On := 2.', 'the LED blinks instead of being on', ['C87'])
m('g13', 'Types.v', 'zStack3x0', 'zStack3x0 := 1.', 'zStack3x0 := 2.', 'the wrong firmware gets sixteen slots', ['C66', 'C82'])
m('g14', 'Types.v', 'Timeouts_default', 'Timeouts_default := 10000.', 'Timeouts_default := 20000.', 'reply waiters live for twenty seconds', ['C147'])
m('g15', 'Uart.v', 'SOF', 'SOF : Z := 254.', 'SOF : Z := 253.', 'another start byte, in both directions', ['C11', 'C01'])
m('g16', 'Uart.v', 'checksum', 'fold_left Z.lxor values 0', 'fold_left Z.lxor values 255', 'another checksum, in both directions', ['C11', 'C02'])
m('g17', 'Nv.v', 'PANID', 'Definition PANID := 131.', 'Definition PANID := 130.', 'the network id is stored under another number', ['C52', 'C72', 'C95'])
m('g18', 'Nv.v', 'ZNP_HAS_CONFIGURED_ZSTACK3', 'ZNP_HAS_CONFIGURED_ZSTACK3 := 96.', 'ZNP_HAS_CONFIGURED_ZSTACK3 := 3840.', 'the mark of the other firmware is used', ['C48', 'C72', 'C97'])
m('g19', 'Nv.v', 'item_channels', 'VBytes [Z.land mask 255; Z.land (Z.shiftr mask 8) 255; Z.land (Z.shiftr mask 16) 255; Z.land (Z.shiftr mask 24) 255]',
  'VBytes [Z.land (Z.shiftr mask 24) 255; Z.land (Z.shiftr mask 16) 255; Z.land (Z.shiftr mask 8) 255; Z.land mask 255]', 'the channel mask is stored with the high byte first', ['C52', 'C72', 'C95'])
m('g20', 'Nv.v', 'item_tc_link_key', '255; 90; 105; 103', '255; 90; 73; 103', 'the link key of the trust center is misspelt', ['C95'])
m('g21', 'Zpi.v', 'ALL_ROUTERS_AND_COORDINATOR', 'ALL_ROUTERS_AND_COORDINATOR : Z := 65532', 'ALL_ROUTERS_AND_COORDINATOR : Z := 65535', 'permission to join is sent to sleeping devices too', ['C46'])
m('g22', 'Life.v', 'lower_ascii', 'Nat.leb 65 n', 'Nat.leb 66 n', 'the letter A is not lowered: an adapter 1A86:7523 is not found', ['C61'])
m('g23', 'Life.v', 'SETTLE_MS', 'SETTLE_MS := 1000.', 'SETTLE_MS := 0.', 'no time to settle after opening', ['C62', 'C79'])
m('g24', 'App.v', 'ieee_eqb', 'list_eq_dec Z.eq_dec a b then', 'list_eq_dec Z.eq_dec (firstn 4 a) (firstn 4 b) then', 'devices are told apart by half of their address', ['C42', 'C93'])
m('g25', 'StartZnp.v', 'ep_vars', '("appdevver", VInt 0)', '("appdevver", VInt 1)', 'endpoints are registered with another version', ['C54'])
m('g26', 'StartZnp.v', 'is_in', 'VList l => existsb (Z.eqb x) l', 'VList l => existsb (Z.eqb x) (tl l)', 'the first active endpoint is registered again', ['C54', 'C74'])
m('g27', 'Base.v', 'byte_okb', '(0 <=? b) && (b <? 256)', '(0 <=? b) && (b <=? 256)', 'bytes may be 256', ['C11'])
m('g29', 'World.v', 'starting', 'KRequests => true | _ => false', 'KRequests | KEnd _ => true | _ => false', 'an ended start-up still takes answers', ['C112'])
m('g30', 'Whole.v', 'known_product', ' || (p =? zStack30x)', '', 'a firmware that is supported is taken for an unknown one', ['C136', 'C143', 'C145'])

# ---- the port, forming, the device section, and what few mutants have broken so far
m('k01', 'Port.v', 'greeting', 'greeting : list Z := [239]', 'greeting : list Z := [254]', 'the byte written on opening is the start of a frame', ['C148'])
m('k02', 'Port.v', 'port_bytes', 'greeting ++ concat (s_wire s)', 'greeting ++ concat (tl (s_wire s))', 'the first request does not leave the port', ['C148'])
m('k03', 'Form.v', 'form_call', '| None => DRaise KeyError', '| None => form_network 2 c', 'forming without a known version guesses one', ['C149'])
m('k04', 'Form.v', 'form_call', 'Some product => form_network product c', 'Some product => form_network product (mk_config (cf_key c) pan_id (cf_ext c) (Some channel))', 'the arguments of form_network are used', ['C149'])
m('k05', 'Form.v', 'form_call', 'Some product => form_network product c', 'Some product => attempt (form_network product c) (fun _ => Some (DRet Resumed))', 'failures of forming are hidden', ['C149'])
m('k06', 'Config.v', 'known_key', 'String.eqb k "path" || String.eqb k "baudrate" || String.eqb k "flow_control"', 'true', 'unknown keys are ignored', ['C150'])
m('k07', 'Config.v', 'BAUDRATE_DEFAULT', 'BAUDRATE_DEFAULT := 115200', 'BAUDRATE_DEFAULT := 38400', 'another baud rate by default', ['C150'])
m('k08', 'Config.v', 'check_path', 'if negb (String.eqb s "") && exists_ s then Some s else if String.eqb s "auto" then Some s else None', 'Some s', 'any path is accepted', ['C150'])
m('k09', 'Config.v', 'check_flow', 'if String.eqb s "hardware" || String.eqb s "software" then Some (Some s) else None', 'Some (Some s)', 'any flow control is accepted', ['C150'])
m('k10', 'Config.v', 'check_baudrate', 'CInt z => Some z', 'CInt z => if 0 <? z then Some z else None', 'baud rates are checked to be positive', ['C150'])
m('k11', 'Config.v', 'schema_device', 'Some f => f | None => CNone end', 'Some f => f | None => CStr "hardware" end', 'hardware flow control by default', ['C150'])
m('k12', 'Config.v', 'probe_device', '  | None => None\n  | Some c =>\n    Some (probe', '  | None => Some (Ok false, false)\n  | Some c =>\n    Some (probe', 'probing with a bad section answers False', ['C150'])
m('k13', 'Config.v', 'probe_device', '| Err e => mk_probe_world (pw_open_ms w) (Err e) None', '| Err e => w', 'the port is opened though none was chosen', ['C150'])
m('k14', 'Config.v', 'check_path', 'if negb (String.eqb s "") && exists_ s then Some s else if String.eqb s "auto" then Some s else None', 'if String.eqb s "auto" then None else if negb (String.eqb s "") && exists_ s then Some s else None', 'auto is refused', ['C150'])
m('k15', 'Life.v', 'probe_task', '| None => (Err TimeoutError, true, true)', '| None => (Err TimeoutError, false, true)', 'the port stays open if nothing answers', ['C79', 'C62'])
m('k16', 'Life.v', 'probe_task', 'then (Err TimeoutError, false, true)\n    else', 'then (Err TimeoutError, true, true)\n    else', 'a slow port is closed all the same', ['C79'])
m('k17', 'Life.v', 'connect_args', 'if String.eqb (dc_path c) "auto"', 'if startswith (dc_path c) "auto"', 'paths that begin with auto are not used', ['C61', 'C150'])
m('k18', 'StartZnp.v', 'register_endpoints', '(mk_matcher AREQ ZDO "activeEpRsp" []) Timeouts_default in', '(mk_matcher AREQ ZDO "activeEpRsp" []) 60000 in', 'the list of endpoints is awaited for a minute', ['C147'])
m('k19', 'StartZnp.v', 'register_endpoints', '(mk_matcher AREQ ZDO "activeEpRsp" []) Timeouts_default in', '(mk_matcher AREQ ZDO "activeEpRsp" [("srcaddr", VInt 0)]) Timeouts_default in', 'the list of endpoints is awaited from the coordinator only', ['C147'])
m('k20', 'World.v', 'op_begin', 'on_api a (wait_for m Timeouts_default q) w', 'on_api a (wait_for m Timeouts_SREQ q) w', 'operations wait six seconds for their reply', ['C147', 'C112'])
m('k21', 'Machine.v', 'request_raw', '(mk_matcher AREQ SYS "resetInd" []) Timeouts_reset s', '(mk_matcher AREQ SYS "resetInd" []) Timeouts_SREQ s', 'a reset has six seconds', ['C147', 'C38'])
m('k22', 'Nv.v', 'network_options', '(or_int (cf_pan c) 6754)', '(or_int (cf_pan c) 65535)', 'another network id by default', ['C57'])
m('k23', 'Nv.v', 'or_int', 'Some z => if z =? 0 then d else z', 'Some z => z', 'a mask of no channels is used', ['C57'])
m('k24', 'Api.v', 'create_response_waiter', '[("srcaddr", a)], sequence))', '[("srcaddr", a)], None))', 'replies are handed over without the number of the request', ['C146', 'C147', 'C34'])
m('k25', 'Uart.v', 'MinMessageLength', 'MinMessageLength : nat := 5', 'MinMessageLength : nat := 4', 'a frame without payload is delivered with its last byte', ['C101', 'C10'])
m('k26', 'Uart.v', 'gw_chunks', 'gw_chunks h buffer1 s1 r in', 'gw_chunks h [] s1 r in', 'every read starts a new frame', ['C04'])
m('k27', 'Uart.v', 'gw_data_received', '      | Err e => (buffer1, s1, Err e)\n      | Ok _ => gw', '      | Err _ => gw_data_received h buffer1 s1 r\n      | Ok _ => gw', 'a refused message does not end the read', ['C90', 'C09'])
m('k28', 'Buffalo.v', 'read_neighbor_lqi', '(Z.land pj 3) dep lq', '(Z.land pj 1) dep lq', 'one bit of permit join is lost', ['C105', 'C13'])
m('k29', 'Zpi.v', 'from_cluster', 'let s := if profile =? ZHA_PROFILE then AF else ZDO in\n  let wanted :=\n    if profile =? ZHA_PROFILE', 'let s := if (profile =? ZHA_PROFILE) || (profile =? 49246) then AF else ZDO in\n  let wanted :=\n    if (profile =? ZHA_PROFILE) || (profile =? 49246)', 'light link messages go out as application messages', ['C23', 'C106'])
m('k30', 'Zpi.v', 'from_cluster', 'read_parameters (a ++ skipn 1 data) ps);', 'read_parameters (if cluster <? 2 then skipn 1 data else a ++ skipn 1 data) ps);', 'address look-ups are written properly', ['C110', 'C64'])
# traffic as a whole (C154, C155)
m('n01', 'Machine.v', 'app_handle', '(fold_left (fun s e => do_effect e s) effs (set_devs devs s), r)', '(fold_left (fun s e => do_effect e s) (effs ++ filter (fun e => match e with EMsg _ _ _ _ _ _ _ _ => true | _ => false end) effs) (set_devs devs s), r)', 'messages are handed over twice', ['C154', 'C41', 'C42'])
m('n02', 'App.v', 'handle_znp', '(devs1, EJoin n i :: effs, r)', '(devs1, effs ++ [EJoin n i], r)', 'zigpy hears the announcement before the join', ['C154', 'C42'])
m('n03', 'World.v', 'world_received', '| Ok _ => if s_app s then world_handle a o w else (w, Ok tt)', '| Ok _ => world_handle a o w', 'messages are handed over before the application listens', ['C155'])
m('n04', 'World.v', 'world_handle', '(fold_left (world_effect a) effs (set_wdevs devs w), r)', '(fold_left (world_effect a) effs w, r)', 'joins are forgotten', ['C155', 'C122'])
m('n05', 'World.v', 'world_received', '    | Err e => (w, Err e)\n    | Ok _ => if', '    | Err e => (fst (world_handle a o w), Err e)\n    | Ok _ => if', 'a message at which a listener stumbles is handed over nevertheless', ['C155'])
m('n06', 'World.v', 'world_received', "let '(s, o, r) := dispatch (s_waiters s) o s in\n    let w := on_api a (fun _ => s) w in", "let '(s, _, r) := dispatch (s_waiters s) o s in\n    let w := on_api a (fun _ => s) w in", 'across reconnects replies are not attributed to their requests', ['C155'])
m('n07', 'Life.v', 'api_close', '(mk_api_obj None (a_app x))', '(mk_api_obj None false)', 'a closed API object forgets the application', ['C155'])
m('n08', 'World.v', 'world_receive', '(s_buf s) w data in', '[] w data in', 'every read begins a new frame', ['C155'])
m('n09', 'World.v', 'world_effect', '| ELed mode, Some c => on_api c', '| ELed mode, Some _ => on_api a', 'the light of the stick that the message came from is switched', ['C115'])
m('n10', 'World.v', 'got_device', '(set_wdevs (join (w_devs w) nwk ieee) w)', '(set_wdevs [(ieee, nwk)] w)', 'a start-up forgets all devices', ['C155', 'C122'])
m('n11', 'Machine.v', 'request_raw_resume', '      | Some i =>\n        if registered s i then', '      | Some i =>\n        if i =? 0 then raw_raise t (t_job k) (CommandError c) s else\n        if registered s i then', 'a refused request leaves its reply waiter behind if that was the first one', ['C147', 'C148'])
m('n12', 'Machine.v', 'data_received', 'let s := note (OReceived o) s in\n    let \'(s, o, r) := dispatch (s_waiters s) o s in', 'let s := note (OReceived o) s in\n    let \'(s, o, r) := dispatch (rev (s_waiters s)) o s in', 'waiters are asked in the wrong order', ['C26', 'C65'])
# start-up from every stored state (C156, C157)
m('o01', 'StartZnp.v', 'needs_init', 'validate_item (item_channels (o_channels o)) SYS "osalNvRead" [0];;', 'validate_item (item_channels (o_channels o)) SYS "osalNvRead" [0; 2];;', 'a missing channel list leads to an initialisation', ['C157'])
m('o02', 'StartZnp.v', 'configure', '      initialise version o;;\n', '      (if configured then @DRaise unit ValueError else DRet tt);;\n      initialise version o;;\n', 'a configured stick is never initialised again, start fails', ['C156', 'C157', 'C76'])
m('o03', 'StartZnp.v', 'needs_init', 'validate_item (item_channels (o_channels o)) SYS "osalNvRead" [0];;\n     validate_item (item_distribute (o_distribute o)) SYS "osalNvRead" [0];;', 'validate_item (item_distribute (o_distribute o)) SYS "osalNvRead" [0];;\n     validate_item (item_channels (o_channels o)) SYS "osalNvRead" [0];;', 'the flag is compared before the channels', ['C157', 'C152'])
m('o04', 'StartZnp.v', 'register_endpoints', '(mk_matcher AREQ ZDO "activeEpRsp" []) Timeouts_default in', '(mk_matcher AREQ ZDO "activeEpRsp" [("nwkaddr", VInt 0)]) Timeouts_default in', "only the stick's own list of endpoints is taken", ['C156', 'C74'])
m('o05', 'StartZnp.v', 'validate_pan', '       else DRet tt)\n     else None)', '       else DRaise e)\n     else None)', 'another network is refused on Z-Stack 1.2, too', ['C156', 'C72'])
m('o06', 'StartZnp.v', 'initialise', '  soft_reset;;\n  nv_write (item_startup 2);;', '  nv_write (item_configured_init version);;\n  soft_reset;;\n  nv_write (item_startup 2);;', 'an item without a value is written first', ['C156', 'C95'])
m('o07', 'StartZnp.v', 'validate_pan', '(validate_item (item_pan (o_pan o)) SYS "osalNvRead" [0];;', '(validate_item (item_pan (o_pan o)) SYS "osalNvRead" [0; 2];;', 'a missing network id is taken for another one', ['C157'])
m('o08', 'StartZnp.v', 'has_configured', 'AssertionError | CommandError _ => Some (DRet false)', 'AssertionError => Some (DRaise ValueError) | CommandError _ => Some (DRet false)', 'a stick with another mark is refused', ['C156', 'C157', 'C76'])
# the mark and what it stands for (C158, C159)
m('zz01', 'Nv.v', 'item_configured_init', '("initlen", VInt 1); ("initvalue", VBytes [0])]', '("initlen", VInt 1); ("initvalue", VBytes [85])]', 'the mark is created set', ['C158', 'C48'])
m('zz02', 'StartZnp.v', 'initialise', '  nv_write (item_ext (o_ext o));;\n  (if stack3', '  nv_write (item_configured version);;\n  nv_write (item_ext (o_ext o));;\n  (if stack3', 'the mark is written before the last settings, too', ['C158', 'C48', 'C127'])
m('zz03', 'StartZnp.v', 'initialise', '     nv_write (item_key (o_key o));;\n     request APP_CNF', '     request APP_CNF', 'the network key is not stored on Z-Stack 3', ['C158', 'C72'])
m('zz04', 'StartZnp.v', 'initialise', '  soft_reset;;\n  nv_write (item_startup 2);;', '  nv_write [("id", VInt (configured_id version)); ("offset", VInt 0); ("len", VInt 1); ("value", VBytes [0])];;\n  soft_reset;;\n  nv_write (item_startup 2);;', 'the mark is taken away before anything is changed', ['C159', 'C156', 'C95'])
m('zz05', 'StartZnp.v', 'start_znp', '   | Restored => nv_write (item_channels (o_channels o));; DRet tt', '   | Restored => nv_write (item_channels 2048);; DRet tt', 'a restored stick gets the default channel', ['C158', 'C95', 'C72'])
m('zz06', 'Life.v', 'lost', '          if a_app a\n          then log (LReconnect g', '          if a_app a && negb (existsb (fun k => k_loop k && match k_stage k with KEnd _ => false | _ => true end) (y_tasks s))\n          then log (LReconnect g', 'a second reconnect loop is not started while one is at work', ['C160', 'C161'])
m('zz07', 'Life.v', 'startup_ended', '    | Err _ => if k_loop k then loop_top t s else', '    | Err _ => if k_loop k then at_stage t KSleep s else', 'a reconnect loop closes nothing after a failed attempt', ['C161', 'C132'])
m('zz08', 'Whole.v', 'next_part', '  | Some a => put_boot t (mk_boot (b_auto b) (Some (mk_part a (Ready p) [])) (b_deeds b)) x\n', '  | Some a => put_boot t (mk_boot (b_auto b) (Some (mk_part (match b_deeds b with (a1, _, _) :: _ => a1 | [] => a end) (Ready p) [])) (b_deeds b)) x\n', 'a start-up stays with the API object it began with', ['C160', 'C129', 'C130'])
m('zz09', 'Whole.v', 'falls_asleep', '  | Some KSleep => until 5000', '  | Some KSleep => until 30000', 'half a minute between attempts', ['C161', 'C153'])
# start-ups one by one (C162)
m('zz10', 'Whole.v', 'led_off', '  match y_cur (w_life w) with\n  | Some a =>\n    match nth_error (w_apis w) a with\n    | Some s =>\n        let b', '  match option_map Nat.pred (y_cur (w_life w)) with\n  | Some a =>\n    match nth_error (w_apis w) a with\n    | Some s =>\n        let b', 'the LED command goes to the previous API object', ['C162'])
m('zz11', 'Life.v', 'lost', '(with_tasks (y_tasks s ++ [mk_coroutine true KBegin]) s)', '(with_tasks (y_tasks s ++ [mk_coroutine true KBegin; mk_coroutine true KBegin]) s)', 'two reconnect loops are started at once', ['C162', 'C77'])
m('zz12', 'Life.v', 'go_on', '    | KEnd _ => s\n', '    | KEnd _ => if k_loop k then loop_top t s else s\n', 'a reconnect loop that ended can begin again', ['C162'])
m('zz13', 'Life.v', 'life_step', '  | VShutdown => match y_cur s with Some a => api_close a s |', '  | VShutdown => match y_cur s with Some a => with_cur None (api_close a s) |', 'shutdown lets go of the API object', ['C162'])
# ports of start-ups that are alone (C164, C165)
m('zz15', 'Life.v', 'go_on', '(mk_api_obj (Some g) true)', '(mk_api_obj (if k_loop k then None else Some g) true)', 'after a reconnect the API object does not get its port', ['C164', 'C165'])
m('zz16', 'Whole.v', 'next_part', '(Some (mk_part a (Ready p) []))', '(Some (mk_part 0 (Ready p) []))', 'all requests of start-ups go to the first API object', ['C164', 'C165', 'C162'])
m('zz17', 'Whole.v', 'boot_goes', 'else attempt_over t (Err ValueError) x', 'else attempt_over t (Err AttributeError) x', 'an unknown product is reported as AttributeError', ['C165', 'C145'])
