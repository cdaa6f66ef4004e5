{"id": "C01", "title": "A sent frame is read back unchanged", "statement": "Serialising a frame and feeding the bytes one by one to an idle parser yields nothing before the last byte and, on the last byte, exactly that frame (same type, subsystem, command id and data, with its length and checksum), leaving the parser idle. This holds for every non-empty payload of at most 255 bytes.", "quantifier": "every command type, subsystem, command id and non-empty payload of at most 255 bytes", "why_tests_cant": "The payload space is 256^255; a test samples a handful of frames and cannot rule out a payload whose bytes (for example an embedded start byte) confuse the parser.", "anchors": ["zigpy_cc/uart.py:UnpiFrame.to_buffer", "zigpy_cc/uart.py:UnpiFrame.from_buffer", "zigpy_cc/uart.py:Parser.write"]}
{"id": "C02", "title": "Every delivered frame was on the wire", "statement": "Whenever the parser hands out a frame, the bytes it removed from its input are exactly the serialisation of that frame, checksum included: no frame is ever invented, merged or altered, and no frame with a wrong checksum is handed out.", "quantifier": "every byte history and every next byte", "why_tests_cant": "Requires a statement about all byte histories, including hostile ones.", "anchors": ["zigpy_cc/uart.py:Parser.write", "zigpy_cc/uart.py:UnpiFrame.from_buffer", "zigpy_cc/uart.py:UnpiFrame.calculate_checksum"]}
{"id": "C03", "title": "A stream of frames is delivered completely, once and in order", "statement": "Feeding the concatenated serialisations of any list of frames delivers exactly these frames, in order, each once; the only exception is a last frame with an empty payload, whose five bytes stay buffered until one more byte arrives.", "quantifier": "every list of frames with payloads of 0..255 bytes, of any length", "why_tests_cant": "Unbounded list length and payload space.", "anchors": ["zigpy_cc/uart.py:Parser.write", "zigpy_cc/uart.py:Gateway.data_received"]}
{"id": "C04", "title": "Delivery does not depend on how the serial port chops the stream", "statement": "Splitting a byte stream into arbitrary read chunks does not change which frames reach the API, nor their order, nor the parser state, as long as no frame makes the receive path raise.", "quantifier": "every byte stream and every way of cutting it into chunks (including empty chunks)", "why_tests_cant": "There are exponentially many chunkings of every stream.", "anchors": ["zigpy_cc/uart.py:Gateway.data_received", "zigpy_cc/uart.py:Parser.write"]}
{"id": "C05", "title": "A corrupted byte never turns into a delivered frame", "statement": "Changing any single byte of a serialised frame after its length byte (command bytes, payload or checksum) to any other value makes the receiver consume the frame without delivering anything.", "quantifier": "every frame, every position from the first command byte to the checksum, every replacement value", "why_tests_cant": "All positions times all replacement values times all payloads.", "anchors": ["zigpy_cc/uart.py:UnpiFrame.from_buffer", "zigpy_cc/uart.py:UnpiFrame.calculate_checksum"]}
{"id": "C06", "title": "Line noise between frames is discarded", "statement": "On an idle parser, any run of bytes that contains no start byte delivers nothing and leaves the parser idle, so noise between frames neither produces nor loses frames.", "quantifier": "every noise byte string without 0xFE, interleaved with every list of non-empty frames", "why_tests_cant": "Arbitrary noise of arbitrary length.", "anchors": ["zigpy_cc/uart.py:Parser.write"]}
{"id": "C07", "title": "The receive buffer is bounded", "statement": "Whatever bytes arrive, the parser never retains more than 259 bytes between two bytes.", "quantifier": "every byte history of any length", "why_tests_cant": "A leak only shows on some unbounded history.", "anchors": ["zigpy_cc/uart.py:Parser.write"]}
{"id": "C08", "title": "The parser recovers on a quiet line", "statement": "From any state reached by any byte history, 259 consecutive bytes without a start byte always bring the parser back to idle, after which complete frames are delivered normally.", "quantifier": "every byte history and every following noise of at least 259 bytes without 0xFE", "why_tests_cant": "Quantifies over all reachable parser states.", "anchors": ["zigpy_cc/uart.py:Parser.write"]}
{"id": "C09", "title": "A bad frame does not take its neighbours down", "statement": "A frame that cannot be interpreted (unknown command type, unknown subsystem, unknown command, undecodable payload) does not prevent the other frames received from being delivered.", "quantifier": "every chunk of bytes containing an uninterpretable frame followed by other frames", "why_tests_cant": "The failing input depends on both the frame content and the chunk boundaries chosen by the operating system.", "anchors": ["zigpy_cc/uart.py:Gateway.data_received", "zigpy_cc/uart.py:UnpiFrame.__init__", "zigpy_cc/api.py:API.data_received", "zigpy_cc/zpi_object.py:ZpiObject.from_unpi_frame"]}
{"id": "C10", "title": "A complete frame is delivered as soon as its last byte arrives", "statement": "Every complete frame, including one with an empty payload, is delivered when its checksum byte arrives, without waiting for further input.", "quantifier": "every frame, payload sizes 0..255", "why_tests_cant": "The failing class (empty payloads) is not visible unless all sizes are considered.", "anchors": ["zigpy_cc/uart.py:Parser.write", "zigpy_cc/uart.py:MinMessageLength"]}
{"id": "C11", "title": "Outgoing frames are well formed or refused", "statement": "Sending a frame either writes start byte, true payload length, type and subsystem packed in one byte, command id, payload and xor checksum in one piece, or raises and writes nothing; it is refused exactly when the payload is longer than 255 bytes or the command id is not a byte. In particular no frame larger than the protocol's 250-byte payload limit is written.", "quantifier": "every frame", "why_tests_cant": "All payload sizes and ids.", "anchors": ["zigpy_cc/uart.py:UnpiFrame.to_buffer", "zigpy_cc/uart.py:Gateway.send", "zigpy_cc/uart.py:MaxDataSize"]}
{"id": "C12", "title": "Payload encode/decode round trip", "statement": "For every parameter list, encoding a payload whose values fit the declared types and decoding the bytes gives back exactly that payload, whatever bytes follow.", "quantifier": "every parameter list (in particular both lists of every command in the definition table) and every fitting payload", "why_tests_cant": "Value spaces are unbounded products; the tests use one payload per shape.", "anchors": ["zigpy_cc/buffalo.py:Buffalo.write_parameter", "zigpy_cc/buffalo.py:Buffalo.read_parameter", "zigpy_cc/zpi_object.py:ZpiObject.read_parameters", "zigpy_cc/zpi_object.py:ZpiObject.to_unpi_frame"]}
{"id": "C13", "title": "Decoding loses nothing", "statement": "If a received payload decodes and all its types can be written, re-encoding the decoded object reproduces exactly the bytes that were consumed (apart from the bits of a neighbour entry that the decoder masks out).", "quantifier": "every parameter list without repeated names (no list of the table repeats one) and every byte string", "why_tests_cant": "The application relies on it for every incoming ZDO message.", "anchors": ["zigpy_cc/zpi_object.py:ZpiObject.from_unpi_frame", "zigpy_cc/zpi_object.py:ZpiObject.to_unpi_frame", "zigpy_cc/zigbee/application.py:ControllerApplication.handle_znp"]}
{"id": "C14", "title": "A truncated payload never decodes", "statement": "If a payload decodes, every proper prefix of the bytes it consumed raises an error: no field is ever made up from missing bytes.", "quantifier": "every parameter list, byte string and cut point", "why_tests_cant": "All cut points of all payloads.", "anchors": ["zigpy_cc/buffalo.py:Buffalo.read", "zigpy_cc/zpi_object.py:ZpiObject.read_parameters"]}
{"id": "C15", "title": "Trailing bytes do not change a decoded payload", "statement": "Appending any bytes to a decodable payload gives the same decoded payload.", "quantifier": "every parameter list, byte string and suffix", "why_tests_cant": "Infinite suffixes.", "anchors": ["zigpy_cc/zpi_object.py:ZpiObject.read_parameters"]}
{"id": "C16", "title": "Values are never silently truncated when encoding", "statement": "If encoding an integer parameter succeeds the value fits its declared width and is recoverable from the bytes; a value that does not fit raises.", "quantifier": "every parameter list and every payload, well-typed or not", "why_tests_cant": "All integers.", "anchors": ["zigpy_cc/buffalo.py:Buffalo.write", "zigpy_cc/buffalo.py:Buffalo.write_parameter"]}
{"id": "C17", "title": "Commands are unambiguous", "statement": "Within a subsystem no two commands share a name or an id, so looking a command up by name and looking the resulting id up again gives the same command, and no command's parameter list repeats a name.", "quantifier": "every subsystem and command of the definition table", "why_tests_cant": "Finite but 235 commands with two lists each; no test visits them.", "anchors": ["zigpy_cc/definition.py:Definition", "zigpy_cc/zpi_object.py:ZpiObject.from_command", "zigpy_cc/zpi_object.py:ZpiObject.from_unpi_frame"]}
{"id": "C18", "title": "End-to-end wire round trip", "statement": "For every command of the table whose request parameters are of supported, decodable types, every fitting payload whose encoding is 1..255 bytes survives: build the object, frame it, serialise it, parse the bytes and decode the frame gives the same type, subsystem, command and payload.", "quantifier": "every command, every fitting payload", "why_tests_cant": "Product of all commands and payloads.", "anchors": ["zigpy_cc/zpi_object.py:ZpiObject.from_command", "zigpy_cc/zpi_object.py:ZpiObject.to_unpi_frame", "zigpy_cc/uart.py:UnpiFrame.to_buffer", "zigpy_cc/uart.py:Parser.write", "zigpy_cc/zpi_object.py:ZpiObject.from_unpi_frame"]}
{"id": "C19", "title": "Every message the table defines can be decoded", "statement": "For every command of the table there are bytes from which the incoming message can be decoded.", "quantifier": "every command of the definition table, every payload", "why_tests_cant": "Some commands fail for every payload; a test per command is needed and missing.", "anchors": ["zigpy_cc/buffalo.py:Buffalo.read_parameter", "zigpy_cc/definition.py:Definition"]}
{"id": "C20", "title": "ZDO requests are translated faithfully", "statement": "For a ZDO request on a supported cluster the bytes sent to the stick are the destination address (little endian) followed by the caller's ZDO payload without its sequence byte; for permit-join they are additionally preceded by the address mode, which is broadcast exactly for the routers-and-coordinator address. A payload that is too short raises instead of sending.", "quantifier": "every cluster, address, sequence number and payload", "why_tests_cant": "All payload contents and lengths for all clusters.", "anchors": ["zigpy_cc/zpi_object.py:ZpiObject.from_cluster", "zigpy_cc/zigbee/application.py:ControllerApplication.request"]}
{"id": "C21", "title": "ZCL requests are translated faithfully", "statement": "A ZCL unicast is sent as AF dataRequest carrying exactly the caller's address, endpoints, cluster, sequence number, radius 30 and payload; it is refused (raises, nothing sent) exactly when the payload exceeds 245 bytes or a field is out of range.", "quantifier": "every address, endpoint, cluster, sequence and payload", "why_tests_cant": "All field values and payload lengths.", "anchors": ["zigpy_cc/zpi_object.py:ZpiObject.from_cluster", "zigpy_cc/zpi_object.py:ZpiObject.to_unpi_frame", "zigpy_cc/uart.py:UnpiFrame.to_buffer"]}
{"id": "C22", "title": "Multicasts and broadcasts are translated faithfully", "statement": "A multicast or broadcast is sent as AF dataRequestExt carrying the given address mode, the group or broadcast address as eight little-endian bytes, the endpoints, cluster, sequence number, radius and payload.", "quantifier": "every group or broadcast address, endpoint, cluster, sequence, radius and payload", "why_tests_cant": "All field values and payload lengths.", "anchors": ["zigpy_cc/zpi_object.py:ZpiObject.from_cluster", "zigpy_cc/zigbee/application.py:ControllerApplication.mrequest", "zigpy_cc/zigbee/application.py:ControllerApplication.broadcast"]}
{"id": "C23", "title": "Application messages of every profile go out as application messages", "statement": "A request on any non-ZDO profile is sent as an AF data request.", "quantifier": "every profile id other than 0, every cluster", "why_tests_cant": "Tests only use the home-automation profile.", "anchors": ["zigpy_cc/zpi_object.py:ZpiObject.from_cluster"]}
{"id": "C24", "title": "The right reply is awaited", "statement": "For a data request the awaited confirmation is exactly an AF dataConfirm with the same transaction id; for a ZDO request with a defined response it is exactly that response with the request's destination as source; a reply of another kind or from another device never completes it. Creating the waiter never fails for a request the application can build.", "quantifier": "every request object and every received message", "why_tests_cant": "All pairs of requests and messages.", "anchors": ["zigpy_cc/api.py:API.create_response_waiter", "zigpy_cc/api.py:Waiter.match"]}
{"id": "C25", "title": "A waiter is completed at most once", "statement": "Over any history of requests, received frames, timeouts, cancellations and closes: waiter ids are never reused, a waiter completed with a message keeps that message, and completing never raises even if the waiter was cancelled.", "quantifier": "every history of events", "why_tests_cant": "Interleavings of timers, cancellations and frames are unbounded.", "anchors": ["zigpy_cc/api.py:API.wait_for", "zigpy_cc/api.py:Waiter.set_result", "zigpy_cc/api.py:API.data_received"]}
{"id": "C26", "title": "A received message completes exactly the waiters it answers", "statement": "A received message completes precisely the registered waiters it matches, oldest first, up to and including the first one that carries a sequence number; all the others stay registered and pending, in their order.", "quantifier": "every set of registered waiters and every received message", "why_tests_cant": "All waiter tables and messages.", "anchors": ["zigpy_cc/api.py:API.data_received", "zigpy_cc/api.py:Waiter.match"]}
{"id": "C27", "title": "Concurrent identical requests are answered first come, first served", "statement": "If several ZDO requests to the same device for the same command are outstanding, the n-th reply is attributed to the n-th request: its sequence number is handed to the application with that reply.", "quantifier": "every number of outstanding requests with non-zero sequence numbers", "why_tests_cant": "Unbounded number of concurrent requests.", "anchors": ["zigpy_cc/api.py:API.data_received", "zigpy_cc/api.py:Waiter.sequence"]}
{"id": "C28", "title": "Every sequence number works", "statement": "A ZDO reply is delivered to the application for every sequence number the caller may use, 0 to 255.", "quantifier": "every sequence number, every ZDO reply", "why_tests_cant": "The failing value is one of 256 and needs the whole receive path.", "anchors": ["zigpy_cc/api.py:API.data_received", "zigpy_cc/zigbee/application.py:ControllerApplication.handle_znp"]}
{"id": "C29", "title": "Waiters do not leak", "statement": "In every reachable state each registered waiter has a pending clean-up timer due no later than its timeout plus 100 ms after registration; once all due timers have run, no waiter older than that is registered.", "quantifier": "every history of events", "why_tests_cant": "A leak needs an unusual history (timeouts, cancellations, lost replies).", "anchors": ["zigpy_cc/api.py:API.wait_for", "zigpy_cc/api.py:API._request_raw"]}
{"id": "C30", "title": "Clean-up touches only its own waiter", "statement": "When a clean-up timer fires it removes at most the waiter it was created for; a waiter that is still waiting within its time limit is never removed by anything but a matching message, its own timer or the failure of its own request.", "quantifier": "every history of events", "why_tests_cant": "All interleavings.", "anchors": ["zigpy_cc/api.py:API.wait_for"]}
{"id": "C31", "title": "Synchronous requests never overlap", "statement": "At any time at most one request is between acquiring the link and finishing; hence between the frame of one request and its completion no other request's frame is written.", "quantifier": "every history of concurrent requests, replies, timeouts, cancellations and closes", "why_tests_cant": "All interleavings of any number of tasks.", "anchors": ["zigpy_cc/api.py:API.request_raw", "zigpy_cc/api.py:API._lock"]}
{"id": "C32", "title": "The link is always handed on", "statement": "However a request ends (reply, error status, timeout, cancellation, encoding error, closed port) the link is released and given to the longest-waiting request, so requests are served in arrival order.", "quantifier": "every history of events", "why_tests_cant": "All exit paths times all interleavings.", "anchors": ["zigpy_cc/api.py:API.request_raw", "zigpy_cc/api.py:API._request_raw"]}
{"id": "C33", "title": "A request returns the answer to its own command", "statement": "If a request for a synchronous command succeeds, the returned message is a synchronous response of the same subsystem and command that arrived while the request was outstanding, and its status, if it has one, is among the expected ones.", "quantifier": "every history of events", "why_tests_cant": "All interleavings and all reply contents.", "anchors": ["zigpy_cc/api.py:API._request_raw"]}
{"id": "C34", "title": "An error status is reported to the caller", "statement": "If the stick answers a request with a status that is not expected, the caller gets a command error carrying that status, and the waiter created for the final reply is completed and unregistered.", "quantifier": "every history of events and every status", "why_tests_cant": "The failing case needs the final reply or its timeout to come before the error status.", "anchors": ["zigpy_cc/api.py:API._request_raw", "zigpy_cc/exception.py:CommandError", "zigpy_cc/zigbee/application.py:ControllerApplication.request"]}
{"id": "C35", "title": "A late answer is not taken for the answer of a later request", "statement": "A response belonging to a request that already timed out never completes a later request for the same command.", "quantifier": "every history of events", "why_tests_cant": "Needs a particular timing of timeout and late reply.", "anchors": ["zigpy_cc/api.py:API.data_received", "zigpy_cc/api.py:API._request_raw"]}
{"id": "C36", "title": "No more requests than the stick supports", "statement": "At any time at most 16 (Z-Stack 3.x.0) or 2 (others) application requests, multicasts, broadcasts and permit calls are past admission; the slot is returned on every exit path, and admission is first come first served.", "quantifier": "every history of events", "why_tests_cant": "All interleavings.", "anchors": ["zigpy_cc/zigbee/application.py:ControllerApplication.startup", "zigpy_cc/zigbee/application.py:ControllerApplication.request", "zigpy_cc/zigbee/application.py:ControllerApplication.mrequest", "zigpy_cc/zigbee/application.py:ControllerApplication.broadcast", "zigpy_cc/zigbee/application.py:ControllerApplication.permit_ncp"]}
{"id": "C37", "title": "Requests are time-limited", "statement": "Once a request's frame is written, the request can finish no later than its limit: 6 s for synchronous commands, 20 s for network start commands, 30 s for a reset; with a time-out error if nothing arrived, leaving the link free.", "quantifier": "every history of events", "why_tests_cant": "Real-time behaviour over all schedules.", "anchors": ["zigpy_cc/api.py:API._request_raw", "zigpy_cc/api.py:Waiter.wait", "zigpy_cc/types.py:Timeouts"]}
{"id": "C38", "title": "Reset commands wait for the reset indication", "statement": "A reset request completes successfully exactly with the reset indication of the SYS subsystem; other asynchronous requests complete immediately after writing; request objects that are not requests are refused without writing.", "quantifier": "every request object and history", "why_tests_cant": "All command objects.", "anchors": ["zigpy_cc/api.py:API._request_raw", "zigpy_cc/zpi_object.py:ZpiObject.is_reset_command"]}
{"id": "C39", "title": "Only asynchronous indications reach the application logic", "statement": "Received synchronous responses and requests, and the indications on the ignore list, cause no join, no message, no LED change.", "quantifier": "every received message", "why_tests_cant": "All messages.", "anchors": ["zigpy_cc/zigbee/application.py:ControllerApplication.handle_znp", "zigpy_cc/zigbee/application.py:IGNORED"]}
{"id": "C40", "title": "Incoming ZCL messages are delivered intact", "statement": "An incoming AF message from a known short address results in exactly one delivery, to the device with that address, with the cluster, source and destination endpoint, link quality and payload bytes that were on the wire; from an unknown address it results in none and no error.", "quantifier": "every payload, every device table", "why_tests_cant": "All payloads and device tables.", "anchors": ["zigpy_cc/zigbee/application.py:ControllerApplication.handle_znp"]}
{"id": "C41", "title": "ZDO replies are delivered intact", "statement": "A ZDO reply on the known list from a known device, answering a registered request, results in exactly one delivery whose data is the request's sequence number followed by the reply bytes without the address prefix, on the corresponding ZDO cluster.", "quantifier": "every reply command on the list, payload and device table", "why_tests_cant": "All payloads; relies on re-encoding being lossless.", "anchors": ["zigpy_cc/zigbee/application.py:ControllerApplication.handle_znp", "zigpy_cc/zigbee/application.py:REQUESTS"]}
{"id": "C42", "title": "A device announcement joins the device", "statement": "A device announcement makes the application register the announced short and IEEE address exactly once, before any message of it is delivered.", "quantifier": "every announcement and device table", "why_tests_cant": "All addresses and tables.", "anchors": ["zigpy_cc/zigbee/application.py:ControllerApplication.handle_znp"]}
{"id": "C43", "title": "Unsolicited ZDO replies are dropped", "statement": "A ZDO reply that no registered waiter with a sequence number matched is not delivered as a message.", "quantifier": "every reply and waiter table", "why_tests_cant": "All tables.", "anchors": ["zigpy_cc/zigbee/application.py:ControllerApplication.handle_znp"]}
{"id": "C44", "title": "Extended incoming messages are delivered", "statement": "An incoming AF message with a 64-bit source address from a known device is delivered like one with a short address.", "quantifier": "every payload and device table", "why_tests_cant": "No test sends such a message.", "anchors": ["zigpy_cc/zigbee/application.py:ControllerApplication.handle_znp", "zigpy_cc/definition.py:Definition"]}
{"id": "C45", "title": "Send results are mapped correctly", "statement": "A send operation reports status 0 exactly if the stick accepted the frame, and reports the stick's status as error exactly if the stick refused it.", "quantifier": "every history of a send operation", "why_tests_cant": "All statuses and schedules.", "anchors": ["zigpy_cc/zigbee/application.py:ControllerApplication.request", "zigpy_cc/zigbee/application.py:ControllerApplication.mrequest", "zigpy_cc/zigbee/application.py:ControllerApplication.broadcast"]}
{"id": "C46", "title": "Permit-join is bounded and broadcast", "statement": "Permit-join is refused for durations outside 0..254 and otherwise sends exactly one permit-join request with that duration to all routers and the coordinator.", "quantifier": "every duration", "why_tests_cant": "All integers.", "anchors": ["zigpy_cc/zigbee/application.py:ControllerApplication.permit_ncp"]}
{"id": "C47", "title": "A configured coordinator is not rewritten", "statement": "If the stick's stored configuration matches the requested one, starting never resets the stick and never writes configuration; the result is 'resumed'.", "quantifier": "every sequence of stick answers", "why_tests_cant": "All answer sequences.", "anchors": ["zigpy_cc/zigbee/start_znp.py:start_znp", "zigpy_cc/zigbee/start_znp.py:needsToBeInitialised"]}
{"id": "C48", "title": "The 'configured' marker is written last", "statement": "During initialisation the marker that declares the stick configured is written only after every other configuration write of that initialisation has been acknowledged, whatever the stick answers and wherever the run is interrupted.", "quantifier": "every sequence of stick answers and every crash point", "why_tests_cant": "All crash points times answers.", "anchors": ["zigpy_cc/zigbee/start_znp.py:initialise"]}
{"id": "C49", "title": "Interrupted first initialisation is redone", "statement": "If the marker was not set before, a run interrupted at any point before the marker was written is followed by a complete initialisation at the next start.", "quantifier": "every crash point, every requested configuration, every initial stored state without marker", "why_tests_cant": "All crash points.", "anchors": ["zigpy_cc/zigbee/start_znp.py:start_znp", "zigpy_cc/zigbee/start_znp.py:initialise", "zigpy_cc/zigbee/start_znp.py:needsToBeInitialised"]}
{"id": "C50", "title": "Interrupted re-initialisation is redone", "statement": "If a run that re-initialises an already marked stick is interrupted at any point, the next start re-initialises it.", "quantifier": "every crash point, every stored state", "why_tests_cant": "All crash points and stored states.", "anchors": ["zigpy_cc/zigbee/start_znp.py:start_znp", "zigpy_cc/zigbee/start_znp.py:needsToBeInitialised"]}
{"id": "C51", "title": "Start-up converges", "statement": "On a stick that stores what is written, after a completed start the stored network key, PAN id, extended PAN id, channel list and key-distribution flag are the requested ones, and the next start with the same configuration resumes without writing.", "quantifier": "every requested configuration, firmware version and initial stored state", "why_tests_cant": "All configurations and initial states.", "anchors": ["zigpy_cc/zigbee/start_znp.py:start_znp"]}
{"id": "C52", "title": "Configuration items are well formed", "statement": "Every configuration item written or read has a declared length equal to its value length and a value that encodes the requested setting (little endian PAN id, serialised extended PAN id, channel mask, 16-byte key).", "quantifier": "every requested configuration", "why_tests_cant": "All keys, PAN ids and channel masks.", "anchors": ["zigpy_cc/zigbee/nv_items.py:Items"]}
{"id": "C53", "title": "Start result is truthful", "statement": "Start returns 'reset' or 'restored' only if initialisation ran to completion and 'resumed' only if nothing was re-initialised; 'restored' only on Z-Stack 1.2 sticks whose marker was missing.", "quantifier": "every sequence of stick answers", "why_tests_cant": "All answer sequences.", "anchors": ["zigpy_cc/zigbee/start_znp.py:start_znp"]}
{"id": "C54", "title": "All endpoints get registered exactly once", "statement": "After a completed start every required endpoint was either reported active by the stick or registered exactly once by the run, and no endpoint reported active is registered again; registrations carry true cluster counts.", "quantifier": "every active endpoint list and answer sequence", "why_tests_cant": "All subsets of endpoints.", "anchors": ["zigpy_cc/zigbee/start_znp.py:registerEndpoints", "zigpy_cc/zigbee/start_znp.py:Endpoints"]}
{"id": "C55", "title": "The green power group is joined exactly if missing", "statement": "A completed start adds endpoint 242 to the given group exactly if the stick reports it is not a member.", "quantifier": "every answer sequence", "why_tests_cant": "All answers.", "anchors": ["zigpy_cc/zigbee/start_znp.py:addToGroup"]}
{"id": "C56", "title": "The coordinator is started exactly if it is not running", "statement": "Start issues a network start exactly if the stick does not report the coordinator state, and then returns only after the coordinator state was indicated.", "quantifier": "every answer sequence", "why_tests_cant": "All device states.", "anchors": ["zigpy_cc/zigbee/start_znp.py:boot"]}
{"id": "C57", "title": "Missing network options fall back to safe defaults", "statement": "Every network option that is not configured (or zero) takes the documented default, and every configured one is used unchanged; the resulting options always have a non-zero channel mask, a 16-byte key and 8-byte extended PAN id.", "quantifier": "every network configuration", "why_tests_cant": "All configurations.", "anchors": ["zigpy_cc/types.py:NetworkOptions"]}
{"id": "C58", "title": "A deliberate close does not reconnect, a lost port does", "statement": "When the serial port goes away, a reconnect is started exactly if the port was not closed deliberately; once the port was closed by the application, no reconnect is started for it.", "quantifier": "every history of open, close and loss events", "why_tests_cant": "All histories.", "anchors": ["zigpy_cc/uart.py:Gateway.connection_lost", "zigpy_cc/uart.py:Gateway.close", "zigpy_cc/zigbee/application.py:ControllerApplication.connection_lost"]}
{"id": "C59", "title": "Reconnecting does not pile up", "statement": "There is at most one reconnect loop at any time and at most one open serial port of the application.", "quantifier": "every history of loss, failure and success events", "why_tests_cant": "Needs a loss at a particular point of a running reconnect.", "anchors": ["zigpy_cc/zigbee/application.py:ControllerApplication.reconnect"]}
{"id": "C60", "title": "Reconnect keeps trying and stops on success", "statement": "A reconnect loop closes the previous port before each attempt, retries after any failure, and ends exactly when a start-up succeeded.", "quantifier": "every sequence of attempt outcomes", "why_tests_cant": "Unbounded number of attempts.", "anchors": ["zigpy_cc/zigbee/application.py:ControllerApplication.reconnect"]}
{"id": "C61", "title": "Auto detection picks a unique adapter", "statement": "Automatic port selection returns a port exactly if exactly one attached port matches a TI adapter, and raises otherwise; explicitly configured ports are used unchanged, and hardware and software flow control are never enabled together.", "quantifier": "every list of attached ports and every flow-control setting", "why_tests_cant": "All port lists.", "anchors": ["zigpy_cc/uart.py:detect_port", "zigpy_cc/uart.py:connect"]}
{"id": "C62", "title": "Probing always closes the port", "statement": "Probing returns true exactly if the port opened and the stick answered the version request within two seconds, false on time-out, serial error or command error, and in every case the port is closed afterwards.", "quantifier": "every outcome of opening and requesting", "why_tests_cant": "All outcomes.", "anchors": ["zigpy_cc/api.py:API.probe"]}
{"id": "C63", "title": "The parser falls back into step on a busy line", "statement": "A receiver that starts listening in the middle of a frame of a continuous stream of valid frames delivers correct frames again after finitely many frames.", "quantifier": "every frame stream and every starting offset", "why_tests_cant": "Needs an unbounded stream; every finite test either resynchronises or looks like it might.", "anchors": ["zigpy_cc/uart.py:Parser.write"]}
{"id": "C64", "title": "Address look-ups reach the stick intact", "statement": "A ZDO NWK_addr_req or IEEE_addr_req reaches the stick with the address asked about, the request type and the start index the caller passed; other ZDO requests carry the caller's destination and arguments.", "quantifier": "every destination, address, request type and start index", "why_tests_cant": "Needs to compare every byte of the arguments with the bytes sent.", "anchors": ["zigpy_cc/zpi_object.py:ZpiObject.from_cluster"]}
{"id": "C65", "title": "A received message completes exactly the waiters it answers, zero counting as no sequence number", "statement": "A received message completes precisely the registered waiters it matches, oldest first, up to and including the first one that carries a non-zero sequence number; all the others stay registered and pending, in their order.", "quantifier": "every set of registered waiters and every received message", "why_tests_cant": "All waiter tables and messages; the exact version of the claim that is refuted for sequence number 0.", "anchors": ["zigpy_cc/api.py:API.data_received", "zigpy_cc/api.py:Waiter.match"]}
{"id": "C66", "title": "Admission is bounded and slots come back", "statement": "At any time at most 16 (Z-Stack 3.x.0) or 2 (others) application requests, multicasts, broadcasts and permit calls are past admission, occupied and free slots always add up to that number, and with a free slot a waiting operation is admitted when it runs.", "quantifier": "every history of events", "why_tests_cant": "All interleavings; the exact version of the claim that is refuted for the order of admission.", "anchors": ["zigpy_cc/zigbee/application.py:ControllerApplication.startup", "zigpy_cc/zigbee/application.py:ControllerApplication.request", "zigpy_cc/zigbee/application.py:ControllerApplication.mrequest", "zigpy_cc/zigbee/application.py:ControllerApplication.broadcast", "zigpy_cc/zigbee/application.py:ControllerApplication.permit_ncp"]}
{"id": "C67", "title": "Matching a message never raises", "statement": "In every reachable state, comparing any decodable received message with any waiter registered by the driver itself gives yes or no and never raises, so no message can stop the delivery of another one by being looked at.", "quantifier": "every history of events and every received frame", "why_tests_cant": "A missing payload field for one command out of all of them would be enough.", "anchors": ["zigpy_cc/api.py:Waiter.match", "zigpy_cc/api.py:API.data_received", "zigpy_cc/zigbee/application.py:ControllerApplication.request"]}
{"id": "C68", "title": "An idle link is used at once", "statement": "If the port is open, nobody holds or waits for the link and a slot is free, a request that can be encoded writes its frame in its first step.", "quantifier": "every reachable state and every request", "why_tests_cant": "All reachable states.", "anchors": ["zigpy_cc/api.py:API._request_raw", "zigpy_cc/zigbee/application.py:ControllerApplication.request"]}
{"id": "C69", "title": "An answer that arrives is returned", "statement": "If a command called through API.request waits for its response and the bytes of a response to it, with a payload and with an expected status if it has one, arrive within the time limit, then at its next turn it ends by returning exactly that message.", "quantifier": "every reachable state in which no half frame is buffered and nobody called wait_for for that response, every such response", "why_tests_cant": "From bytes through parser, decoder, waiters and request for all commands.", "anchors": ["zigpy_cc/api.py:API._request_raw", "zigpy_cc/api.py:API.data_received", "zigpy_cc/uart.py:Parser.write"]}
{"id": "C70", "title": "What an unexpected status leads to", "statement": "A response with an unexpected status makes the request end with that status and completes and removes its reply waiter; if that waiter was already removed, the request ends with a KeyError, and nothing else can happen.", "quantifier": "every state in which a request was answered", "why_tests_cant": "All interleavings of clean-up and answers; exact version of a refuted claim.", "anchors": ["zigpy_cc/api.py:API._request_raw", "zigpy_cc/api.py:API.wait_for"]}
{"id": "C71", "title": "Only whole frames of requests are written", "statement": "Everything written to the port, in order, is a sequence of whole frames, each the encoding of a request somebody made, and no request is written twice.", "quantifier": "every history of events", "why_tests_cant": "All interleavings, all requests.", "anchors": ["zigpy_cc/api.py:API._request_raw", "zigpy_cc/uart.py:Gateway.send"]}
{"id": "C72", "title": "Start initialises exactly when the validated settings differ", "statement": "A completed start initialises the stick (and then all requested settings are stored) exactly if the marker, channel list, key-distribution flag or network key differ from the requested ones or, on Z-Stack 3 with a stored PAN id other than FFFF, the PAN id or extended PAN id differ; otherwise it changes nothing.", "quantifier": "every stored state, requested configuration and firmware version", "why_tests_cant": "All stored states; exact version of claims refuted for PAN ids.", "anchors": ["zigpy_cc/zigbee/start_znp.py:needsToBeInitialised", "zigpy_cc/zigbee/start_znp.py:start_znp"]}
{"id": "C73", "title": "What can come back from a request or a wait", "statement": "A request made with API.request ends by returning a message whose status, if it has one, is expected, or by raising, but never AssertionError (which start-up takes for a differing setting); a wait ends by returning a message that matches or by raising, never AssertionError. Only an asynchronous command that is not a reset returns nothing.", "quantifier": "every history of events", "why_tests_cant": "All interleavings, all requests; this is what the theorems about starting assume of the request layer.", "anchors": ["zigpy_cc/api.py:API.request", "zigpy_cc/api.py:API._request_raw", "zigpy_cc/api.py:API.wait_for", "zigpy_cc/api.py:Waiter.wait"]}
{"id": "C74", "title": "Endpoints are registered exactly against the one list awaited", "statement": "A completed start awaits exactly one active endpoint list, registers each required endpoint missing in it exactly once with an acknowledged request, and nothing else.", "quantifier": "every answer sequence", "why_tests_cant": "Exact version of a claim refuted because the list may be that of another device.", "anchors": ["zigpy_cc/zigbee/start_znp.py:registerEndpoints", "zigpy_cc/zigbee/start_znp.py:Endpoints"]}
{"id": "C75", "title": "Every start-up request can be sent", "statement": "Every request made by start-up for valid network options and a 16-bit group is a known command with all its parameters in range: building and encoding it never raises, and its frame stays within the 250 bytes allowed.", "quantifier": "every requested configuration, answer sequence and crash point", "why_tests_cant": "Every combination of options must fit every field of every command.", "anchors": ["zigpy_cc/zigbee/start_znp.py:start_znp", "zigpy_cc/zigbee/nv_items.py:Items", "zigpy_cc/zpi_object.py:ZpiObject.from_command", "zigpy_cc/zpi_object.py:ZpiObject.to_unpi_frame"]}
{"id": "C76", "title": "Start completes on a working stick", "statement": "On a stick that answers every request with success, stores what is written and sends every awaited indication, start returns, from every stored state except, possibly, one with the marker set and a compared item missing (with the channel list missing, start fails with the stick's error; exactly which of these states fail for ever: C157).", "quantifier": "every stored state, requested configuration and firmware version, every endpoint list and device state", "why_tests_cant": "All stored states and options; a test starts from one.", "anchors": ["zigpy_cc/zigbee/start_znp.py:start_znp", "zigpy_cc/zigbee/start_znp.py:needsToBeInitialised", "zigpy_cc/zigbee/start_znp.py:initialise"]}
{"id": "C77", "title": "When a lost port starts a reconnect", "statement": "The loss of a port starts a reconnect loop exactly if start-up had got the connection (one second after opening) and the port was not closed by then; nothing else starts a loop, and each port starts at most one.", "quantifier": "every history of start, shutdown, loss, failure, success and cancellation events", "why_tests_cant": "All interleavings; exact version of a refuted claim.", "anchors": ["zigpy_cc/uart.py:Gateway.connection_lost", "zigpy_cc/api.py:API.connection_lost", "zigpy_cc/zigbee/application.py:ControllerApplication.connection_lost"]}
{"id": "C78", "title": "One loop and one port in calm histories", "statement": "If the user starts once and cancels nothing, and no port is lost while a start-up makes its requests, then there is never more than one coroutine starting, one reconnect loop or one open port, and whenever a loop waits for its next attempt no port is open. A second start opens a second port, and a cancelled attempt leaves a port open that the application does not own.", "quantifier": "every such history, of any length", "why_tests_cant": "All interleavings of any length; exact version of a refuted claim.", "anchors": ["zigpy_cc/zigbee/application.py:ControllerApplication.reconnect", "zigpy_cc/zigbee/application.py:ControllerApplication.startup", "zigpy_cc/api.py:API.new"]}
{"id": "C79", "title": "When probing leaves the port open", "statement": "After probing the port is still open exactly if opening it succeeded but took at least one second.", "quantifier": "every outcome and duration of opening and requesting", "why_tests_cant": "Depends on timing; exact version of a refuted claim.", "anchors": ["zigpy_cc/api.py:API.probe", "zigpy_cc/api.py:API._probe", "zigpy_cc/uart.py:connect"]}
{"id": "C80", "title": "What shutdown guarantees", "statement": "After a shutdown at a moment when nothing is starting or reconnecting, in a calm history, no port is open and nothing but another start opens one or starts a loop; a reconnect loop that is running is not stopped by shutdown and can open the port again.", "quantifier": "every calm history before and every history after the shutdown", "why_tests_cant": "All continuations of all histories.", "anchors": ["zigpy_cc/zigbee/application.py:ControllerApplication.shutdown", "zigpy_cc/api.py:API.close", "zigpy_cc/zigbee/application.py:ControllerApplication.reconnect"]}
{"id": "C81", "title": "Start-up first asks whether the stick is alive", "statement": "The first thing an application start-up sends is a ping; unless it is answered with success nothing else is sent and start-up does not complete; a refused ping is reported as an exception.", "quantifier": "every configuration, answer sequence and crash point", "why_tests_cant": "All answers and interruptions; a test plays one.", "anchors": ["zigpy_cc/zigbee/application.py:ControllerApplication.startup", "zigpy_cc/api.py:API.request"]}
{"id": "C82", "title": "Admission limit by reported product", "statement": "A completed start-up allows 16 requests at a time if the stick reports Z-Stack 3.x.0 and 2 otherwise; a stick reporting an unknown product is refused with a ValueError after exactly the two requests ping and version.", "quantifier": "every configuration, answer sequence and crash point", "why_tests_cant": "All reported versions; the limit is what the theorems about concurrent requests use.", "anchors": ["zigpy_cc/zigbee/application.py:ControllerApplication.startup", "zigpy_cc/api.py:API.version", "zigpy_cc/types.py:ZnpVersion"]}
{"id": "C83", "title": "Start-up applies the configured network", "statement": "A completed start-up with auto_form leaves the stick with the configured network (the configuration's values or the documented defaults): it resumes an accepted stick without changing it and otherwise initialises it completely; without auto_form exactly ping, version and getDeviceInfo are sent. A stick that is accepted, or not to be formed, is never changed, not even by a start-up that fails or is interrupted.", "quantifier": "every configuration, stored state, firmware version, answer sequence and crash point", "why_tests_cant": "All stored states and crash points.", "anchors": ["zigpy_cc/zigbee/application.py:ControllerApplication.startup", "zigpy_cc/zigbee/application.py:ControllerApplication.form_network", "zigpy_cc/zigbee/start_znp.py:start_znp", "zigpy_cc/types.py:NetworkOptions"]}
{"id": "C84", "title": "The coordinator is registered under its reported addresses", "statement": "A completed start-up ends with a device information request; the application's own addresses are those of its answer, the coordinator is registered in the device table under them, and every other device keeps its entry. Every decodable answer has these addresses.", "quantifier": "every answer sequence and device table", "why_tests_cant": "All answers and device tables.", "anchors": ["zigpy_cc/zigbee/application.py:ControllerApplication.startup", "zigpy_cc/zigbee/application.py:Coordinator"]}
{"id": "C85", "title": "LED is switched off once after forming", "statement": "Start-up switches the LED off exactly once, and only after the network was formed; on Z-Stack 3.x.0 and without auto_form no LED command is sent.", "quantifier": "every configuration, answer sequence and crash point", "why_tests_cant": "All versions and interruptions.", "anchors": ["zigpy_cc/zigbee/application.py:ControllerApplication.form_network", "zigpy_cc/zigbee/application.py:ControllerApplication.set_led"]}
{"id": "C86", "title": "Every request of application start-up can be sent and start-up completes on a working stick", "statement": "Every request of an application start-up with a valid configuration is a known command that encodes into a frame of at most 250 data bytes; on a stick that answers every request with success and stores what is written, start-up completes with the stick's version and addresses (from every stored state that has no marker or all compared items).", "quantifier": "every configuration and stored state, firmware version, device table", "why_tests_cant": "All configurations and stored states.", "anchors": ["zigpy_cc/zigbee/application.py:ControllerApplication.startup", "zigpy_cc/zigbee/application.py:ControllerApplication.form_network", "zigpy_cc/zigbee/start_znp.py:start_znp", "zigpy_cc/zpi_object.py:ZpiObject.from_command"]}
{"id": "C87", "title": "The LED follows permission to join", "statement": "A decoded permit-join indication switches the LED on if its duration is not zero and off if it is, and a permit-join response (whatever its status) switches it on; no other message touches the LED, and none does on Z-Stack 3.x.0. Before the version is known such a message ends in a KeyError without any effect.", "quantifier": "every decodable message and device table", "why_tests_cant": "All messages and versions.", "anchors": ["zigpy_cc/zigbee/application.py:ControllerApplication.handle_znp", "zigpy_cc/zigbee/application.py:ControllerApplication.set_led"]}
{"id": "C88", "title": "Nothing hangs", "statement": "If nothing new is called and the stick falls silent, every operation that was called ends: after a number of rounds bounded by the number of unfinished operations - each round letting the time limits pass and then giving every unfinished operation its turn - none is left, whatever cancellations, clean-ups and closing of the port happen meanwhile and in whatever order the turns come.", "quantifier": "every reachable state, semaphore size of at least 1, and every sequence of fair rounds", "why_tests_cant": "Deadlocks between the semaphore, the request lock and the waiters depend on unbounded interleavings.", "anchors": ["zigpy_cc/api.py:API.request_raw", "zigpy_cc/api.py:API._request_raw", "zigpy_cc/api.py:Waiter.wait", "zigpy_cc/zigbee/application.py:ControllerApplication.request", "zigpy_cc/zigbee/application.py:ControllerApplication.mrequest", "zigpy_cc/zigbee/application.py:ControllerApplication.broadcast"]}
{"id": "C89", "title": "Success is reported only for an accepted message", "statement": "If a request, multicast or broadcast returns status 0, then it wrote the frame of exactly that message, and - if the command is one that the stick answers synchronously - while it held the link the stick's response to that command arrived, with status 0 or without a status.", "quantifier": "every reachable state and operation", "why_tests_cant": "All interleavings of requests, answers, timeouts and cancellations.", "anchors": ["zigpy_cc/zigbee/application.py:ControllerApplication.request", "zigpy_cc/zigbee/application.py:ControllerApplication.mrequest", "zigpy_cc/zigbee/application.py:ControllerApplication.broadcast", "zigpy_cc/api.py:API._request_raw"]}
{"id": "C90", "title": "What a read with a bad message loses", "statement": "A read that consists of whole, checksummed, non-empty messages hands them over one by one up to and including the first that cannot be interpreted or is refused, raises that message's exception, and loses all messages behind it in the same read; the next read starts afresh. In any read that fails, whatever it contains, the bytes after the failing one have no influence.", "quantifier": "every list of reads, each any list of messages, every receiver, every byte sequence", "why_tests_cant": "All message lists and read boundaries.", "anchors": ["zigpy_cc/uart.py:Gateway.data_received", "zigpy_cc/uart.py:Parser.write"]}
{"id": "C91", "title": "Which messages make receiving fail", "statement": "A message that cannot be decoded changes nothing and raises. A decoded one makes receiving fail exactly if an application is set, it is asynchronous, and it is either one of nine commands that can be read but not written again (exception from the re-encoding), or a permit-join message while the firmware version is not known yet (KeyError).", "quantifier": "every decodable message and every reachable state in which user-made waits name fields that exist and sequence numbers are bytes", "why_tests_cant": "All messages of the table against all states.", "anchors": ["zigpy_cc/api.py:API.data_received", "zigpy_cc/zigbee/application.py:ControllerApplication.handle_znp", "zigpy_cc/buffalo.py:Buffalo.write_parameter", "zigpy_cc/zpi_object.py:ZpiObject.to_unpi_frame"]}
{"id": "C92", "title": "Everything handed to zigpy stems from a received message", "statement": "In every history, whatever the application hands to zigpy or does to the LED is preceded by a received message that calls for exactly this - an announcement, an incoming message of a device in the table, a reply, a permit-join message - with only this message's other consequences in between. A ZDO reply is passed on only under the non-zero sequence number of a request to that node for which it is the reply and which a caller made.", "quantifier": "every history of calls, received bytes, timeouts, cancellations and closings", "why_tests_cant": "No test enumerates histories; spurious deliveries only show in the histories that cause them.", "anchors": ["zigpy_cc/zigbee/application.py:ControllerApplication.handle_znp", "zigpy_cc/api.py:API.data_received", "zigpy_cc/api.py:API.create_response_waiter"]}
{"id": "C93", "title": "The device table follows the announcements", "statement": "At any time the device table is the initial one brought up to date with the announcements received so far: a device has the short address of its last announcement if there was one and else its initial one; nothing else adds, changes or removes an entry, known devices keep their place and none is entered twice.", "quantifier": "every initial table and every history", "why_tests_cant": "All histories.", "anchors": ["zigpy_cc/zigbee/application.py:ControllerApplication.handle_znp"]}
{"id": "C94", "title": "Receiving sends nothing; closing is final", "statement": "Receiving bytes writes nothing, takes or frees neither the link nor a slot, and changes no running operation; all it can start is an LED command. After close nothing is ever written by that API object.", "quantifier": "every state and every byte sequence; every continuation after close", "why_tests_cant": "All states and byte sequences.", "anchors": ["zigpy_cc/api.py:API.data_received", "zigpy_cc/api.py:API.close", "zigpy_cc/api.py:API._request_raw", "zigpy_cc/zigbee/application.py:ControllerApplication.handle_znp"]}
{"id": "C95", "title": "An initialisation changes the stick in a fixed order", "statement": "The commands of a start that change the stick (reset, write, creation of an item) are a prefix of one fixed sequence: reset, startup option, reset, device type, key distribution, direct callbacks, channels, PAN id, extended PAN id, network key (and the trust centre key on Z-Stack 1.2), creation of the configured mark, the mark; after all of these the channels may be written once more. Each is sent only after the one before it was answered. A start that returns has sent nothing of it, or all of it, as its result says.", "quantifier": "every configuration, answer sequence, stored state and crash point", "why_tests_cant": "All answer sequences and crash points.", "anchors": ["zigpy_cc/zigbee/start_znp.py:initialise", "zigpy_cc/zigbee/start_znp.py:start_znp"]}
{"id": "C96", "title": "A start-up program on the link", "statement": "While a start-up program runs on the API, whatever other operations, received bytes, timeouts, cancellations and closings happen meanwhile: what it does and sees is one of its runs; an answer it sees was received while the frame of exactly this request was outstanding and is the response to it; an indication it sees was received; each of its tasks writes only the frame of its own command, and only after everything the program did earlier has been answered or has failed.", "quantifier": "every program of requests, waits and background requests, every reachable state and every history", "why_tests_cant": "All interleavings of a start-up with other traffic.", "anchors": ["zigpy_cc/zigbee/start_znp.py:start_znp", "zigpy_cc/api.py:API.request", "zigpy_cc/api.py:API._request_raw", "zigpy_cc/api.py:API.wait_for", "zigpy_cc/api.py:Waiter.wait"]}
{"id": "C97", "title": "The configured mark reaches the link last", "statement": "In the bytes on the link: when start-up writes the frame that stores the configured mark, the value stored is 0x55, and before this, for every requested setting, start-up wrote the frame that stores exactly its bytes, and the stick's response with status 0 was received while that frame was outstanding.", "quantifier": "every configuration, reachable state and history of a start on the link", "why_tests_cant": "All interleavings and crash points, down to the bytes.", "anchors": ["zigpy_cc/zigbee/start_znp.py:initialise", "zigpy_cc/zigbee/start_znp.py:start_znp", "zigpy_cc/api.py:API._request_raw", "zigpy_cc/uart.py:UnpiFrame.to_buffer"]}
{"id": "C98", "title": "A configured stick is left alone on the link", "statement": "If the stick has the requested configuration and answers reads with what it stores, then no frame that start-up puts on the link is a reset, a write or the creation of an item, and the stored configuration stays as it is.", "quantifier": "every configuration, reachable state and history of a start on the link", "why_tests_cant": "All interleavings and crash points, down to the bytes.", "anchors": ["zigpy_cc/zigbee/start_znp.py:needsToBeInitialised", "zigpy_cc/zigbee/start_znp.py:start_znp", "zigpy_cc/api.py:API._request_raw"]}
{"id": "C99", "title": "Nothing hangs, whatever else goes on", "statement": "While new operations are called, bytes are received, operations are cancelled and the port is lost, every operation that was unfinished comes to an end after a number of rounds bounded by seven times the number of operations unfinished in the beginning or called meanwhile, if in each round the time limits pass and then every operation unfinished at its beginning gets its turn; and there is a moment in between when nothing is unfinished.", "quantifier": "every reachable state, semaphore size of at least 1, and every history made of such rounds", "why_tests_cant": "Deadlocks and starvation depend on unbounded interleavings.", "anchors": ["zigpy_cc/api.py:API.request_raw", "zigpy_cc/api.py:API._request_raw", "zigpy_cc/api.py:Waiter.wait", "zigpy_cc/zigbee/application.py:ControllerApplication.request", "zigpy_cc/zigbee/application.py:ControllerApplication.mrequest", "zigpy_cc/zigbee/application.py:ControllerApplication.broadcast"]}
{"id": "C100", "title": "Start-up comes to an end", "statement": "Whatever the stick says or does not say and whatever other operations, cancellations and closings happen meanwhile, start_znp and the application's start-up (once the port is open) return or raise: after a number of rounds bounded in terms of the number of operations, if in each round the time limits pass and then every unfinished operation and start-up itself get their turn.", "quantifier": "every configuration, reachable state and history made of such rounds", "why_tests_cant": "All interleavings of a start-up with other traffic.", "anchors": ["zigpy_cc/zigbee/start_znp.py:start_znp", "zigpy_cc/zigbee/application.py:ControllerApplication.startup", "zigpy_cc/api.py:API.request", "zigpy_cc/api.py:API._request_raw", "zigpy_cc/api.py:Waiter.wait"]}
{"id": "C101", "title": "When a frame of a stream is delivered", "statement": "At every moment of the reception of a stream of valid frames exactly the frames that have arrived are delivered, in order, each once: a frame with payload with its last byte, a frame without payload with the byte that follows it.", "quantifier": "every list of valid frames and every prefix of its bytes", "why_tests_cant": "All prefixes of all streams.", "anchors": ["zigpy_cc/uart.py:Parser.write", "zigpy_cc/uart.py:UnpiFrame.from_buffer"]}
{"id": "C102", "title": "How the parser falls back into step", "statement": "Whatever bytes were received before, if in the frames that follow the start byte occurs only at frame starts, then the frames that are lost are the first ones, all of them begin within 259 bytes, at most one wrong outcome (a frame nobody sent, or an exception) is seen in their place, and from then on the frames are delivered as if the stream had begun there.", "quantifier": "every byte history and every list of valid frames without the start byte inside", "why_tests_cant": "All histories against all streams.", "anchors": ["zigpy_cc/uart.py:Parser.write", "zigpy_cc/uart.py:UnpiFrame.from_buffer", "zigpy_cc/uart.py:Gateway.data_received"]}
{"id": "C103", "title": "The first answer decides", "statement": "An operation that sends a synchronous request and ends otherwise than by a timeout, a cancellation or a refusal to send is decided by the first response to its command that is received between its write and its release of the link: it reports this response's status if that is unexpected, and else succeeds with this response. A reset is decided in the same way by the first reset announcement. Later responses received before the operation runs again change nothing.", "quantifier": "every history in which user-made waits name fields that the received messages have", "why_tests_cant": "All interleavings of requests with answers, repeated and stale ones included.", "anchors": ["zigpy_cc/api.py:API._request_raw", "zigpy_cc/api.py:API.data_received", "zigpy_cc/api.py:Waiter.set_result"]}
{"id": "C104", "title": "Which request a reply goes to", "statement": "Of the requests that wait for the same kind of reply from the same node, oldest first, one reply completes all without a usable sequence number (none or 0) up to and including the first with one, is handed to zigpy once, under that number, and is dropped if there is none; all other waiting requests go on waiting. Several replies in a row are handed over under the numbers that this rule gives.", "quantifier": "every reachable state in which the node is known and those who wait for this reply name its node, every reply frame and every sequence of replies", "why_tests_cant": "All sets of waiting requests.", "anchors": ["zigpy_cc/api.py:API.data_received", "zigpy_cc/api.py:Waiter.match", "zigpy_cc/zigbee/application.py:ControllerApplication.handle_znp"]}
{"id": "C105", "title": "Neighbour tables byte for byte", "statement": "A mgmtLqiRsp is accepted exactly if after address, status, total, start index and count n it has at least n entries of 22 bytes. What is handed to zigpy is the sequence number, status, total, start index, count and the n entries, in which only the top bit of the device-type byte and the upper six bits of the permit-join byte are cleared; what follows the entries is dropped.", "quantifier": "every frame, device table and sequence number", "why_tests_cant": "All entry contents and counts.", "anchors": ["zigpy_cc/buffalo.py:Buffalo.read_neighbor_lqi", "zigpy_cc/buffalo.py:Buffalo.write_neighbor_lqi", "zigpy_cc/zigbee/application.py:ControllerApplication.handle_znp"]}
{"id": "C106", "title": "Outside profile 260 only address, cluster and data count", "statement": "For every profile other than 260 the object built for a message, and the exception if none can be built, depends on destination, cluster and data alone: not on the profile, the endpoints, the radius or the address mode; the sequence number is only carried along.", "quantifier": "every pair of profiles other than 260 and all other arguments", "why_tests_cant": "All argument combinations.", "anchors": ["zigpy_cc/zpi_object.py:ZpiObject.from_cluster"]}
{"id": "C107", "title": "Look-ups that await a reply end at once", "statement": "A request for cluster 0, 1 or 12 outside profile 260 that awaits a reply ends with an exception in its first step (KeyError if address and data are well formed), with nothing written, no waiter left, and the link and the slots untouched.", "quantifier": "every state and all arguments", "why_tests_cant": "All states.", "anchors": ["zigpy_cc/api.py:API.create_response_waiter", "zigpy_cc/zigbee/application.py:ControllerApplication.request"]}
{"id": "C108", "title": "What an extended incoming message does", "statement": "Receiving a decodable incomingMsgExt completes the waits made for it and changes nothing else: nothing is handed to zigpy, no device is changed, nothing is written or started.", "quantifier": "every state and every such frame", "why_tests_cant": "All states and frames.", "anchors": ["zigpy_cc/zigbee/application.py:ControllerApplication.handle_znp", "zigpy_cc/api.py:API.data_received"]}
{"id": "C109", "title": "Which application messages have a frame and how long it is", "statement": "A unicast of profile 260 has a frame exactly if its fields fit and it has at most 245 bytes of data, and its payload length is 10 more than that of the data, hence within the protocol limit of 250 exactly up to 240 bytes; for multicasts and broadcasts the limits are 235 and 230 bytes and the payload is 20 bytes longer than the data.", "quantifier": "all arguments", "why_tests_cant": "All sizes and field values.", "anchors": ["zigpy_cc/zpi_object.py:ZpiObject.from_cluster", "zigpy_cc/uart.py:UnpiFrame.to_buffer", "zigpy_cc/uart.py:MaxDataSize"]}
{"id": "C110", "title": "The bytes of an address look-up", "statement": "A NWK_addr_req or IEEE_addr_req built from a zigpy message puts on the link the short address of the node to be asked followed by the address asked for, in the fields meant for address, request type and start index; request type and start index of the message are dropped.", "quantifier": "all addresses, arguments and trailing bytes", "why_tests_cant": "All arguments.", "anchors": ["zigpy_cc/zpi_object.py:ZpiObject.from_cluster", "zigpy_cc/uart.py:UnpiFrame.to_buffer"]}
{"id": "C111", "title": "Requests before the stick has told its version", "statement": "Until the stick's version is known no request is admitted or written. An operation that runs ends in that step with an exception: that of building its message, that of making its reply waiter, or AttributeError. At most its reply waiter is left behind.", "quantifier": "every history of the application, its API objects and their links before the first version answer", "why_tests_cant": "All interleavings of start-up and requests.", "anchors": ["zigpy_cc/zigbee/application.py:ControllerApplication.request", "zigpy_cc/zigbee/application.py:ControllerApplication.mrequest", "zigpy_cc/zigbee/application.py:ControllerApplication.broadcast", "zigpy_cc/zigbee/application.py:ControllerApplication.startup"]}
{"id": "C112", "title": "Slots of every semaphore across reconnects", "statement": "At every moment of every history with any number of lost connections and start-ups, each semaphore object has as many slots as its stick's product, an operation is admitted only while fewer than that many have a slot of it, none is lost, and each semaphore object is made once.", "quantifier": "every history of the application with all its API objects, every moment of it", "why_tests_cant": "All interleavings of requests with reconnects.", "anchors": ["zigpy_cc/zigbee/application.py:ControllerApplication.startup", "zigpy_cc/zigbee/application.py:ControllerApplication.request", "zigpy_cc/zigbee/application.py:ControllerApplication.connection_lost", "zigpy_cc/zigbee/application.py:ControllerApplication.reconnect"]}
{"id": "C113", "title": "Never too many requests at the stick in use", "statement": "However often the connection was lost and made again, at most as many requests as the product of the stick takes have a slot and are at the stick in use.", "quantifier": "every history of the application with all its API objects", "why_tests_cant": "All interleavings of requests with reconnects.", "anchors": ["zigpy_cc/zigbee/application.py:ControllerApplication.startup", "zigpy_cc/zigbee/application.py:ControllerApplication.request"]}
{"id": "C114", "title": "Who can be too many at a new stick", "statement": "An operation that has a slot of an older semaphore object was called before the newer one was made; those called after the last version answer keep within the limit it gave.", "quantifier": "every history of the application with all its API objects", "why_tests_cant": "All interleavings of requests with reconnects.", "anchors": ["zigpy_cc/zigbee/application.py:ControllerApplication.startup", "zigpy_cc/zigbee/application.py:ControllerApplication.request"]}
{"id": "C115", "title": "What one stick sends concerns one API object", "statement": "Bytes from one stick change no operation, slot, version or connection, write nothing, and tell only of effects and errors of that stick's API object; of the other API objects only the one in use changes, and only by LED commands called on it. An operation that runs touches only the API object in use.", "quantifier": "every state of the application with all its API objects, all bytes, every operation", "why_tests_cant": "All states, with late bytes of closed connections.", "anchors": ["zigpy_cc/api.py:API.data_received", "zigpy_cc/zigbee/application.py:ControllerApplication.handle_znp", "zigpy_cc/zigbee/application.py:ControllerApplication.request"]}
{"id": "C116", "title": "Exclusive links across reconnects", "statement": "In each API object, whatever happened to it and to the others, at most one request holds the link, only the holder writes, and no second frame is written before the writer of the first has released the link; no request writes twice.", "quantifier": "every history of the application with all its API objects", "why_tests_cant": "All interleavings of requests with reconnects.", "anchors": ["zigpy_cc/api.py:API._request_raw", "zigpy_cc/api.py:API.request_raw", "zigpy_cc/zigbee/application.py:ControllerApplication.connection_lost"]}
{"id": "C117", "title": "A closed link stays silent", "statement": "Once the link of an API object that start-up handed to the application is closed, nothing is ever written to it again. While the API object in use is closed no operation that runs writes anything anywhere, and one that finds a slot and the link free ends in its first step with an exception.", "quantifier": "every reachable state and every continuation", "why_tests_cant": "All interleavings of requests with losses.", "anchors": ["zigpy_cc/api.py:API.close", "zigpy_cc/api.py:API.connection_lost", "zigpy_cc/api.py:API._request_raw", "zigpy_cc/zigbee/application.py:ControllerApplication.request"]}
{"id": "C118", "title": "What success means across reconnects", "statement": "An operation that reports success was admitted to an API object, which wrote the frame of its message; if that is synchronous, this API object received, between write and release, a response to its command whose status, if it has one, is 0.", "quantifier": "every history of the application with all its API objects", "why_tests_cant": "All interleavings of requests with reconnects.", "anchors": ["zigpy_cc/zigbee/application.py:ControllerApplication.request", "zigpy_cc/api.py:API._request_raw"]}
{"id": "C119", "title": "Every operation is admitted and ends at most once", "statement": "Across reconnects operations are numbered in the order of their calls, each is admitted at most once and ends at most once, both after its call; it is not admitted after its end, and only to a semaphore object that was made before. What happened is never undone.", "quantifier": "every history of the application with all its API objects", "why_tests_cant": "All interleavings of requests with reconnects.", "anchors": ["zigpy_cc/zigbee/application.py:ControllerApplication.request", "zigpy_cc/zigbee/application.py:ControllerApplication.mrequest", "zigpy_cc/zigbee/application.py:ControllerApplication.broadcast"]}
{"id": "C120", "title": "A refusal completes nobody else's waiter", "statement": "The refusal of a request removes no reply waiter but the one made for that request.", "quantifier": "every history of the application with all its API objects", "why_tests_cant": "All interleavings of requests with reconnects.", "anchors": ["zigpy_cc/api.py:API._request_raw", "zigpy_cc/zigbee/application.py:ControllerApplication.request"]}
{"id": "C121", "title": "What a refusal does across reconnects", "statement": "When a synchronous request that was refused runs again, the number of its reply waiter is looked up in the API object the request was sent to, wherever that waiter was made: if registered there, that waiter is completed and the status reported; if not, KeyError is raised and no waiter changed; without a reply waiter the status is reported.", "quantifier": "every reachable state in which such a request has its refusal", "why_tests_cant": "All interleavings of requests with reconnects.", "anchors": ["zigpy_cc/api.py:API._request_raw", "zigpy_cc/zigbee/application.py:ControllerApplication.request"]}
{"id": "C122", "title": "The device table across reconnects", "statement": "At every moment the short address that the application has for a device is the one told last: by an announcement the application handled or by start-up for the coordinator, and if there was none the one it began with. Every join stems from a device announcement that the named API object received, with these two addresses.", "quantifier": "every initial table and every history of the application with all its API objects", "why_tests_cant": "All interleavings of announcements with reconnects.", "anchors": ["zigpy_cc/zigbee/application.py:ControllerApplication.handle_znp", "zigpy_cc/zigbee/application.py:ControllerApplication.startup"]}
{"id": "C123", "title": "Nothing hangs across lost connections", "statement": "In rounds in which at least T ms pass (30 s or more, and no less than any time limit given to wait_for) and then every unfinished operation and every unfinished coroutine of every API object, closed or open, gets its turn, whatever else happens meanwhile - new calls, received bytes, losses of the connection, reconnects - there is, after at most nine rounds per operation and seven per other request, a moment at which nothing is unfinished; so everything that was unfinished at the beginning has ended.", "quantifier": "every reachable state of the application with all its API objects, every such sequence of rounds", "why_tests_cant": "All interleavings of requests with reconnects; liveness.", "anchors": ["zigpy_cc/zigbee/application.py:ControllerApplication.request", "zigpy_cc/zigbee/application.py:ControllerApplication.reconnect", "zigpy_cc/api.py:API._request_raw", "zigpy_cc/api.py:API.wait_for"]}
{"id": "C124", "title": "What a successful start-up did", "statement": "Every start-up that ends well, called by the user or by a reconnect loop, pinged, asked for the version and got a known product, formed the network if told to (all of start_znp, then at most one LED command) and last asked for the coordinator's addresses; the semaphore and the table entry it left are those of the answers. Whatever any start-up was answered was received on that link while its own request was outstanding there; whatever it awaited was received on that link.", "quantifier": "every network configuration and every history of the application whose start-ups make their requests themselves", "why_tests_cant": "All interleavings of several start-ups with requests, received bytes, losses of the connection and reconnects.", "anchors": ["zigpy_cc/zigbee/application.py:ControllerApplication.startup", "zigpy_cc/zigbee/application.py:ControllerApplication.form_network", "zigpy_cc/zigbee/application.py:ControllerApplication.reconnect", "zigpy_cc/zigbee/start_znp.py:start_znp"]}
{"id": "C125", "title": "Start-ups keep to their program across lost connections", "statement": "Whatever happens to the connections, and whoever else starts up meanwhile, the requests of a start-up and their order, and how it ends, are those of a run of the start-up program against some stick, except for the moment of the LED command and the message that ends a wait.", "quantifier": "every network configuration and every history of the application whose start-ups make their requests themselves", "why_tests_cant": "All interleavings of several start-ups with requests, received bytes, losses of the connection and reconnects.", "anchors": ["zigpy_cc/zigbee/application.py:ControllerApplication.startup", "zigpy_cc/zigbee/application.py:ControllerApplication.form_network", "zigpy_cc/zigbee/start_znp.py:start_znp"]}
{"id": "C126", "title": "What the application knows comes from the stick", "statement": "Every semaphore the application ever makes has 16 slots or 2 according to the product in an answer to a version request that was received while that request was outstanding; every entry for the coordinator is that of an answer to getDeviceInfo received so. The start-ups of a reconnect loop form the network if need be.", "quantifier": "every network configuration and every history of the application whose start-ups make their requests themselves", "why_tests_cant": "All interleavings of several start-ups with requests, received bytes, losses of the connection and reconnects.", "anchors": ["zigpy_cc/zigbee/application.py:ControllerApplication.startup", "zigpy_cc/zigbee/application.py:ControllerApplication.reconnect"]}
{"id": "C127", "title": "The configured mark comes last across lost connections", "statement": "Every frame with which a start-up writes the configured mark is preceded, on the same link, by frames of the same start-up that stored each of the settings, each acknowledged while outstanding; so no start-up marks a stick that lacks settings, whenever the connection is lost (a mark that was set before can remain over an interrupted initialisation: C50, C158).", "quantifier": "every network configuration and every history of the application whose start-ups make their requests themselves", "why_tests_cant": "All interleavings of several start-ups with requests, received bytes, losses of the connection and reconnects.", "anchors": ["zigpy_cc/zigbee/start_znp.py:initialise", "zigpy_cc/zigbee/start_znp.py:start_znp", "zigpy_cc/zigbee/application.py:ControllerApplication.reconnect"]}
{"id": "C128", "title": "Reconnecting to a configured stick changes nothing", "statement": "If the stick has the requested settings, or the network is not to be formed, no start-up of the application, over or under way, changes what is stored or puts a frame on any link that could (write, item init, reset). If a forming start-up ends well, the stick had the settings and is unchanged, or it has them afterwards.", "quantifier": "every network configuration and every history of the application whose start-ups make their requests themselves; every stick that keeps what it is told to store", "why_tests_cant": "All interleavings of several start-ups with requests, received bytes, losses of the connection and reconnects.", "anchors": ["zigpy_cc/zigbee/start_znp.py:start_znp", "zigpy_cc/zigbee/application.py:ControllerApplication.form_network", "zigpy_cc/zigbee/application.py:ControllerApplication.reconnect"]}
{"id": "C129", "title": "A start-up talks to one API object", "statement": "All requests of one start-up are made to one API object.", "quantifier": "every network configuration and every history of the application whose start-ups make their requests themselves", "why_tests_cant": "All interleavings of several start-ups with requests, received bytes, losses of the connection and reconnects.", "anchors": ["zigpy_cc/zigbee/application.py:ControllerApplication.startup"]}
{"id": "C130", "title": "To which API object a start-up talks", "statement": "Of one start-up, the ping, the version request, all requests of start_znp, the LED command and the address request are each made to one API object; each of these parts is made to the one that the application has at the moment at which the part begins.", "quantifier": "every network configuration and every history of the application whose start-ups make their requests themselves", "why_tests_cant": "All interleavings of several start-ups with requests, received bytes, losses of the connection and reconnects.", "anchors": ["zigpy_cc/zigbee/application.py:ControllerApplication.startup", "zigpy_cc/zigbee/application.py:ControllerApplication.form_network", "zigpy_cc/zigbee/application.py:ControllerApplication.set_led"]}
{"id": "C131", "title": "Start-up is not tried more than once in five seconds", "statement": "Between a reconnect loop's opening the port, or the failure of its start-up, and its next opening of the port at least five seconds pass.", "quantifier": "every network configuration and every history of the application whose start-ups make their requests themselves", "why_tests_cant": "All interleavings of several start-ups with requests, received bytes, losses of the connection and reconnects.", "anchors": ["zigpy_cc/zigbee/application.py:ControllerApplication.reconnect"]}
{"id": "C132", "title": "How the end of a start-up reaches its caller", "statement": "After a start-up that ends well, and after every start-up that the user calls, its coroutine ends with that outcome and tries no more. After a start-up of a reconnect loop that fails (but for cancellation) the loop next closes the application's API object, to try again.", "quantifier": "every network configuration and every history of the application whose start-ups make their requests themselves", "why_tests_cant": "All interleavings of several start-ups with requests, received bytes, losses of the connection and reconnects.", "anchors": ["zigpy_cc/zigbee/application.py:ControllerApplication.startup", "zigpy_cc/zigbee/application.py:ControllerApplication.reconnect"]}
{"id": "C133", "title": "Every frame has an author, and only forming start-ups change the stick", "statement": "Every frame on any link is a request of a start-up, the message of an operation the user called, or sets the LED. A frame that writes or creates a stored item or resets the stick is always that of a start-up that is to form the network; so whoever writes the configured mark, the same start-up had stored all settings on that link, each acknowledged.", "quantifier": "every network configuration and every history of the application whose start-ups make their requests themselves", "why_tests_cant": "All interleavings of several start-ups with requests, received bytes, losses of the connection and reconnects.", "anchors": ["zigpy_cc/zigbee/application.py:ControllerApplication.startup", "zigpy_cc/zigbee/application.py:ControllerApplication.request", "zigpy_cc/zigbee/application.py:ControllerApplication.set_led", "zigpy_cc/zigbee/start_znp.py:initialise"]}
{"id": "C134", "title": "No start-up hangs across lost connections", "statement": "In rounds in which at least T ms pass (T at least a minute, the longest time limit of a start-up), then every unfinished operation and every unfinished coroutine of every API object, closed or open, gets its turn, and so does every start-up, whatever else happens meanwhile - new calls, received bytes, losses of the connection, other start-ups -, every attempt at a start-up that makes its requests ends after a number of rounds bounded by 108 times one plus nine per operation and seven per request or wait, unfinished or new, whether or not anything answers.", "quantifier": "every valid network configuration, every reachable state of the application whose start-ups make their requests themselves, every such sequence of rounds", "why_tests_cant": "All interleavings of several start-ups with requests, received bytes, losses of the connection and reconnects. Liveness.", "anchors": ["zigpy_cc/zigbee/application.py:ControllerApplication.startup", "zigpy_cc/zigbee/application.py:ControllerApplication.reconnect", "zigpy_cc/zigbee/start_znp.py:start_znp", "zigpy_cc/api.py:API._request_raw", "zigpy_cc/api.py:API.wait_for"]}
{"id": "C135", "title": "A reconnect loop tries again until it succeeds", "statement": "In rounds in which at least T ms pass (T at least a minute), then every unfinished operation, every unfinished coroutine of every API object and every coroutine that sleeps gets its turn, and every start-up gets its turn, whatever else happens meanwhile: a reconnect loop that has not ended opens the port again after a number of rounds bounded by two plus 108 times one plus nine per operation and seven per request or wait, unfinished or new; or it has ended, and then because a start-up succeeded or because it was cancelled.", "quantifier": "every valid network configuration, every reachable state of the application whose start-ups make their requests themselves, every such sequence of rounds, whether or not the port can be opened and anything answers", "why_tests_cant": "All interleavings of several start-ups with requests, received bytes, losses of the connection and reconnects. Liveness.", "anchors": ["zigpy_cc/zigbee/application.py:ControllerApplication.reconnect", "zigpy_cc/zigbee/application.py:ControllerApplication.startup", "zigpy_cc/uart.py:connect"]}
{"id": "C136", "title": "A start-up fails only for a reason", "statement": "A start-up fails only because of its last act: that request failed (and with the same exception; a refused ping with a general one), that wait failed (while the network is formed with a general exception, unless cancelled), the wait for the list of endpoints was ended by a message that is no such list, or the product that the stick reported is unknown. So a start-up all of whose requests were answered and whose waits ended with what was awaited, by a stick of a known product, succeeds: no answer lacks what is looked up in it, and no stored value makes it fail.", "quantifier": "every network configuration and every history of the application whose start-ups make their requests themselves", "why_tests_cant": "All interleavings of several start-ups with requests, received bytes, losses of the connection and reconnects.", "anchors": ["zigpy_cc/zigbee/application.py:ControllerApplication.startup", "zigpy_cc/zigbee/start_znp.py:start_znp", "zigpy_cc/zigbee/start_znp.py:needsToBeInitialised", "zigpy_cc/zigbee/start_znp.py:initialise"]}
{"id": "C137", "title": "A failure ends a start-up", "statement": "Any request or wait of a start-up that fails is the last thing this start-up does: no further request is made. The one exception is a refusal to read the configured mark right after ping and version, which is taken to mean that the stick is not configured.", "quantifier": "every network configuration and every history of the application whose start-ups make their requests themselves", "why_tests_cant": "All interleavings of several start-ups with requests, received bytes, losses of the connection and reconnects.", "anchors": ["zigpy_cc/zigbee/application.py:ControllerApplication.startup", "zigpy_cc/zigbee/start_znp.py:start_znp", "zigpy_cc/zigbee/start_znp.py:needsToBeInitialised", "zigpy_cc/zigbee/start_znp.py:initialise"]}
{"id": "C138", "title": "Whoever waits for the link waits only for those ahead", "statement": "In rounds in which at least T ms pass (T at least every time limit of the link and of the coroutine in question) and then everybody unfinished gets its turn, however many further calls are made and whatever is received meanwhile: whoever holds the link has ended after two rounds; whoever waits for the link after four and two for each one that waits ahead of it; an operation that was admitted after two and two for each one waiting; a request or wait of its own, which needs no slot, after three and two for each one that waits when its first round is over.", "quantifier": "every reachable state, every such sequence of rounds with any other events in between", "why_tests_cant": "All interleavings of several start-ups with requests, received bytes, losses of the connection and reconnects. Liveness: no call made later can delay an exchange that is already waiting.", "anchors": ["zigpy_cc/api.py:API._request_raw", "zigpy_cc/api.py:API.wait_for", "zigpy_cc/zigbee/application.py:ControllerApplication.request"]}
{"id": "C139", "title": "Whoever waits for a link waits only for those ahead, also when connections are lost", "statement": "In rounds in which at least T ms pass (T at least 30 s and the time limit of the coroutine in question) and then every unfinished operation and coroutine gets its turn, however many operations are called, requests made, connections lost and API objects made meanwhile, on each API object, closed or open: whoever holds its link has ended after two rounds; whoever waits for it after four and two for each one that waits ahead; any other coroutine of it after three and two for each one that waits for this link when the first round is over; and an operation that has a slot and talks to it one round later.", "quantifier": "every reachable state of the application with all its API objects, every such sequence of rounds with any other events in between", "why_tests_cant": "All interleavings of several start-ups with requests, received bytes, losses of the connection and reconnects. Liveness.", "anchors": ["zigpy_cc/api.py:API._request_raw", "zigpy_cc/api.py:API.wait_for", "zigpy_cc/zigbee/application.py:ControllerApplication.request", "zigpy_cc/zigbee/application.py:ControllerApplication.reconnect"]}
{"id": "C140", "title": "Start-ups end however much others do", "statement": "In rounds as in C134: if when a round begins never more than M wait for the same link, every attempt at a start-up that makes its requests ends within 108 times 4 + 2M rounds, however many operations are called, requests made, connections lost and other start-ups begun meanwhile, and whether or not anything answers.", "quantifier": "every valid network configuration, every reachable state of the application whose start-ups make their requests themselves, every such sequence of rounds, every M", "why_tests_cant": "All interleavings of several start-ups with requests, received bytes, losses of the connection and reconnects. Liveness under an endless load.", "anchors": ["zigpy_cc/zigbee/application.py:ControllerApplication.startup", "zigpy_cc/zigbee/application.py:ControllerApplication.reconnect", "zigpy_cc/zigbee/start_znp.py:start_znp", "zigpy_cc/api.py:API._request_raw", "zigpy_cc/api.py:API.wait_for"]}
{"id": "C141", "title": "A reconnect loop tries again however much others do", "statement": "In rounds as in C135: if when a round begins never more than M wait for the same link, a reconnect loop that has not ended opens the port again within two plus 108 times 4 + 2M rounds, or has ended because a start-up succeeded or because it was cancelled, however much others do meanwhile.", "quantifier": "every valid network configuration, every reachable state of the application whose start-ups make their requests themselves, every such sequence of rounds, every M, whether or not the port can be opened and anything answers", "why_tests_cant": "All interleavings of several start-ups with requests, received bytes, losses of the connection and reconnects. Liveness under an endless load.", "anchors": ["zigpy_cc/zigbee/application.py:ControllerApplication.reconnect", "zigpy_cc/zigbee/application.py:ControllerApplication.startup", "zigpy_cc/uart.py:connect"]}
{"id": "C142", "title": "Why an operation raises", "statement": "An operation that sends something raises only for one of these reasons: it was cancelled; it cannot be put into a frame (and then with that exception); the port was closed (AttributeError); at some moment its frame had been out for the time limit (20 s for bdbStartCommissioning and startupFromApp, 6 s for other requests, 30 s for a reset) and no answer to it had been received since (TimeoutError); a response received while its frame was out has a status it does not expect (CommandError with that status, or KeyError if it also waits for a reply). A wait raises only because it was cancelled, or because at some moment it had lasted for its time limit and every message that answers it received since it began had been taken by the reply waiter of a request (TimeoutError).", "quantifier": "every sequence of events from a fresh API object in which no received message lacks a parameter that a wait compares, every operation and wait with a positive time limit", "why_tests_cant": "All interleavings of several start-ups with requests, received bytes, losses of the connection and reconnects. An answer that arrived in time may be missed only in a rare interleaving.", "anchors": ["zigpy_cc/api.py:API._request_raw", "zigpy_cc/api.py:API.wait_for", "zigpy_cc/api.py:API.request_raw", "zigpy_cc/zigbee/application.py:ControllerApplication.request"]}
{"id": "C143", "title": "Why a start-up fails, down to the link, and when it succeeds", "statement": "A start-up that runs on the request machine together with anything else fails only because of its last act, and for one of these reasons: that request was cancelled; the port was closed; at some moment its frame had been out for the time limit and no answer had been received since; a response received while its frame was out has a status it does not expect; that wait was cancelled, or at some moment it had lasted for its time limit and every message of that kind had been taken by the reply waiter of a request; the product that the stick reported is unknown. So if none of these happens to any act of it and, in rounds as in C100, everybody gets their turn, it succeeds within that many rounds, whatever is stored in the stick and whatever else goes on.", "quantifier": "every valid network configuration, every sequence of events in which no received message lacks a parameter that a wait compares, before and during the start-up; for success every sequence of rounds", "why_tests_cant": "All interleavings of several start-ups with requests, received bytes, losses of the connection and reconnects. Includes liveness.", "anchors": ["zigpy_cc/zigbee/application.py:ControllerApplication.startup", "zigpy_cc/zigbee/start_znp.py:start_znp", "zigpy_cc/api.py:API._request_raw", "zigpy_cc/api.py:API.wait_for"]}
{"id": "C144", "title": "Why a request, a wait or an operation raises, across losses of the connection", "statement": "Whatever happens to the application and all its API objects: a request of an API object raises only because it was cancelled, itself or together with the operation that awaited it; because it cannot be put into a frame; because its API object had no port when it ended (AttributeError); because at some moment its frame had been out for the time limit and that API object had received no answer to it since (TimeoutError); or because a response that this API object received while the frame was out has a status it does not expect (CommandError with that status, or KeyError if the operation also waits for a reply). A wait raises only because it was cancelled, or because at some moment it had lasted for its time limit and every message that answers it, received by its API object since it began, had been taken by the reply waiter of an operation (TimeoutError). An operation of the application raises only because it was cancelled; because it cannot be put into a frame; because there was no semaphore or no API object to use when it went on (AttributeError); or because the request it made raised that exception for one of these reasons, and a CommandError only if it is the permission to join.", "quantifier": "every sequence of events of the application with all its API objects, in which no received message lacks a parameter that a wait compares; every request, every wait with a positive time limit, every operation", "why_tests_cant": "All interleavings of several start-ups with requests, received bytes, losses of the connection and reconnects. Losses of the connection and reconnects at any moment.", "anchors": ["zigpy_cc/api.py:API._request_raw", "zigpy_cc/api.py:API.wait_for", "zigpy_cc/api.py:API.request_raw", "zigpy_cc/zigbee/application.py:ControllerApplication.request", "zigpy_cc/zigbee/application.py:ControllerApplication.connection_lost"]}
{"id": "C145", "title": "Why a start-up fails across losses of the connection, and when it succeeds", "statement": "Whatever happens to the application, its API objects and its start-ups: an attempt at a start-up fails only because of its last act, and for one of these reasons: that request was cancelled; its API object had no port when it ended; at some moment its frame had been out for the time limit and that API object had received no answer since; a response that this API object received while the frame was out has a status it does not expect; that wait was cancelled; at some moment it had lasted for its time limit and every message of that kind had been taken by the reply waiter of an operation; it was ended by a message that refused an operation; the product that the stick reported is unknown. So an attempt none of whose acts meets with any of these succeeds, and in rounds as in C140 it does so within that many rounds, whatever else goes on.", "quantifier": "every valid network configuration, every sequence of events of the application whose start-ups make their requests themselves, in which no received message lacks a parameter that a wait compares; for success in time every sequence of rounds and every M", "why_tests_cant": "All interleavings of several start-ups with requests, received bytes, losses of the connection and reconnects. Includes liveness, with losses of the connection and reconnects at any moment.", "anchors": ["zigpy_cc/zigbee/application.py:ControllerApplication.startup", "zigpy_cc/zigbee/application.py:ControllerApplication.reconnect", "zigpy_cc/zigbee/start_znp.py:start_znp", "zigpy_cc/api.py:API._request_raw", "zigpy_cc/api.py:API.wait_for"]}
{"id": "C146", "title": "What matches a waiter, and what an operation waits for", "statement": "A message matches a waiter if and only if type, subsystem and name are those asked for and every field asked for is there with an equal value (numbers with numbers, bytes with bytes, lists with lists); it does not match if the kind differs or, before a missing field is met, a value differs; otherwise the lookup raises KeyError. The waiter for the reply to a message that is sent: for a synchronous data request the confirmation with its transaction id; for a synchronous request whose name ends with Req and whose subsystem has a command with Rsp for each Req in that name, that command from the address it is sent to, with the number of the request; else none. It cannot be made (KeyError) exactly if the id or the address is missing or the subsystem has no commands.", "quantifier": "every waiter, every message, every number", "why_tests_cant": "Field by field and name by name; the tests use single messages.", "anchors": ["zigpy_cc/api.py:Waiter.match", "zigpy_cc/api.py:API.create_response_waiter"]}
{"id": "C147", "title": "Whose each waiter is, what it waits for and for how long", "statement": "Every waiter that is registered was made by some call: by wait_for, for the message and the time it was given; by a synchronous request, for the synchronous response with the same subsystem and name, for 20 s if the command is bdbStartCommissioning or startupFromApp and else for 6 s; by a reset, for the announcement resetInd, for 30 s; or by a request or group message of the application, for the reply that C146 says, for 10 s. This also holds for the waiters of every API object across losses of the connection. Start-up itself waits, besides its requests, only for the list of endpoints (10 s) and for the announcement that the stick has become the coordinator (60 s).", "quantifier": "every reachable state of the request machine and of the application with all its API objects; every execution of start-up", "why_tests_cant": "All interleavings of several start-ups with requests, received bytes, losses of the connection and reconnects. Which waiters are there depends on the interleaving.", "anchors": ["zigpy_cc/api.py:API.wait_for", "zigpy_cc/api.py:API.create_response_waiter", "zigpy_cc/api.py:API._request_raw", "zigpy_cc/zigbee/start_znp.py:boot", "zigpy_cc/zigbee/start_znp.py:registerEndpoints"]}
{"id": "C148", "title": "What the stick reads", "statement": "A stick that reads its serial line as TI's receiver does (start byte, length, two command bytes, data, checksum, one byte at a time) reads, after the byte that is written when the port is opened, exactly one message for every request that was written, in the order in which they were written, each with the type, subsystem, number and encoded parameters of that request, and is then ready for the next (besides the byte EF and these frames nothing is written); from any part of the bytes that has arrived so far it reads the first of these messages and nothing else. This holds on every link across losses of the connection. The message of a command carries, encoded as the command table says, the parameters the command was called with. The receiver is defined for any bytes: it skips noise before a frame and forgets a frame whose checksum is wrong.", "quantifier": "every reachable state of the request machine and of the application with all its API objects, every number of bytes that have arrived", "why_tests_cant": "Depends on the whole history of the link; no test reads back what is written.", "anchors": ["zigpy_cc/uart.py:Gateway.send", "zigpy_cc/uart.py:Gateway.write", "zigpy_cc/uart.py:UnpiFrame.to_buffer", "zigpy_cc/uart.py:connect", "zigpy_cc/api.py:API._request_raw"]}
{"id": "C149", "title": "Forming the network by itself", "statement": "form_network called by a user of the application: before any start-up has learned the version it raises KeyError and sends nothing; the channel, PAN id and extended PAN id it is called with have no effect. After a start-up without forming it sends and sees what a start-up with forming would, but for the moment of the start-up's last request, and every successful start-up with forming is such a pair. On the link, whatever else goes on: a stick that already has the configured network is not changed, however the call ends; any other has the configured network, mark last, when the call returns. The call ends within 100 times the factor of C100 rounds; it raises only because its last act failed, for one of the reasons of C143; if the stick works as in C143 it succeeds.", "quantifier": "every version, arguments, valid network configuration; every execution; every reachable state of the request machine and every sequence of events or rounds during the call", "why_tests_cant": "All interleavings of several start-ups with requests, received bytes, losses of the connection and reconnects. The tests do not call form_network on its own.", "anchors": ["zigpy_cc/zigbee/application.py:ControllerApplication.form_network", "zigpy_cc/zigbee/application.py:ControllerApplication.startup", "zigpy_cc/zigbee/start_znp.py:start_znp"]}
{"id": "C150", "title": "The device section of the configuration", "statement": "A device section is accepted exactly if it has a path that is \"auto\" or a non-empty name of something that exists, a baud rate that is an integer or no baud rate, a flow control that is \"hardware\", \"software\" or None or no flow control, and no other key; it then means that path, that baud rate (115200 if none, booleans count as 1 and 0) and that flow control (None if none), in whatever order the keys are written. The port is opened at that path, or at the only attached adapter if it is \"auto\", with that baud rate and exactly the flags of that flow control; if it cannot be chosen the path is \"auto\" and there is not exactly one adapter. Probing with a section that is not accepted raises and opens nothing; with \"auto\" and not exactly one adapter it returns False and leaves nothing open; otherwise the result depends on the stick alone.", "quantifier": "every section with distinct string keys, every file system, every list of attached ports", "why_tests_cant": "The tests use one path and one baud rate, with a port that is mocked.", "anchors": ["zigpy_cc/config.py:SCHEMA_DEVICE", "zigpy_cc/uart.py:connect", "zigpy_cc/uart.py:detect_port", "zigpy_cc/api.py:API.probe"]}
{"id": "C151", "title": "Every course that the stick can bring about happens", "statement": "From any reachable state in which the port is open and no request, listener or half frame is left: take any sequence of requests, listeners and outcomes in which each answer is a message that a frame with a payload decodes to and that answers its request, each refusal comes from such an answer with an unexpected status, and everything else runs out of time or is cancelled. The start-up (likewise start_znp, likewise form_network) does exactly this on the link under some sequence of events if and only if the program on its own can, and it can end there in a given way if and only if the program on its own can. So what is possible for the program alone, refutations included, is not lost on the link.", "quantifier": "every configuration, version, option, limit of requests, reachable state at rest, sequence of acts", "why_tests_cant": "Existence of an execution for every trace; tests show single ones.", "anchors": ["zigpy_cc/zigbee/application.py:ControllerApplication.startup", "zigpy_cc/zigbee/application.py:ControllerApplication.form_network", "zigpy_cc/zigbee/start_znp.py:start_znp", "zigpy_cc/api.py:API._request_raw", "zigpy_cc/api.py:API.data_received", "zigpy_cc/uart.py:Gateway.data_received"]}
{"id": "C152", "title": "Everything a start-up says, byte by byte", "statement": "The frames that start_znp, form_network and the start-up of the application ask to send, in order and byte by byte, are: the marker is read; the marker, channel list, key-distribution flag, network key, PAN id and extended PAN id are read in this order, stopping anywhere, on Z-Stack 3 the PAN id possibly once more; possibly the initialisation (two soft resets, start-up option 2, coordinator, flag, direct call-backs, channels, PAN id, extended PAN id, the key and the forming of the network as the firmware wants it, the marker created and written); the device information; possibly the start-up command with delay 100; the request for the active endpoints; of the thirteen required endpoints some, each with its own profile, device, version, latency and clusters; the search for the group and possibly its addition, with endpoint 242; possibly the channel list again; for form_network then the light off, unless it is Z-Stack 3.x.0; for the start-up a ping and the version request before and the device information after it. If it returns it has sent a whole such sequence, else the beginning of one.", "quantifier": "every version, valid options, group and configuration, every execution and every end", "why_tests_cant": "All interleavings of several start-ups with requests, received bytes, losses of the connection and reconnects. The tests look at single requests.", "anchors": ["zigpy_cc/zigbee/start_znp.py:start_znp", "zigpy_cc/zigbee/start_znp.py:initialise", "zigpy_cc/zigbee/start_znp.py:registerEndpoints", "zigpy_cc/zigbee/start_znp.py:addToGroup", "zigpy_cc/zigbee/start_znp.py:boot", "zigpy_cc/zigbee/start_znp.py:needsToBeInitialised", "zigpy_cc/zigbee/start_znp.py:validate_item", "zigpy_cc/zigbee/start_znp.py:Endpoint.__init__", "zigpy_cc/zigbee/application.py:ControllerApplication.startup", "zigpy_cc/zigbee/application.py:ControllerApplication.form_network", "zigpy_cc/zigbee/nv_items.py:Items.znpHasConfiguredInit", "zigpy_cc/zigbee/nv_items.py:Items.znpHasConfigured", "zigpy_cc/zigbee/nv_items.py:Items.panID", "zigpy_cc/zigbee/nv_items.py:Items.extendedPanID", "zigpy_cc/zigbee/nv_items.py:Items.channelList", "zigpy_cc/zigbee/nv_items.py:Items.networkKeyDistribute", "zigpy_cc/zigbee/nv_items.py:Items.networkKey", "zigpy_cc/zigbee/nv_items.py:Items.startupOption", "zigpy_cc/zigbee/nv_items.py:Items.logicalType", "zigpy_cc/zigbee/nv_items.py:Items.zdoDirectCb", "zigpy_cc/zigbee/nv_items.py:Items.tcLinkKey"]}
{"id": "C153", "title": "The turn of a start-up or reconnect loop that waits", "statement": "A start-up or reconnect loop that is cancelled while it waits (before it begins, asleep between two attempts, or while the port settles) ends at once with CancelledError, notes no attempt, changes no other coroutine, no link and no API object (so a port that was settling stays open), and stays ended whatever happens later. Not cancelled, its turn changes nothing before its time has come. After the sleep its turn is one attempt, noted with the time: if the port opens there is one more gateway, open, and the port has one second to settle; if not, there is no gateway more.", "quantifier": "every configuration, state, coroutine and result of the wait; for 'stays ended' every reachable state and every sequence of events", "why_tests_cant": "All interleavings of several start-ups with requests, received bytes, losses of the connection and reconnects. The tests let no time pass and cancel nothing.", "anchors": ["zigpy_cc/zigbee/application.py:ControllerApplication.reconnect", "zigpy_cc/zigbee/application.py:ControllerApplication.startup", "zigpy_cc/api.py:API.new", "zigpy_cc/uart.py:connect"]}
{"id": "C154", "title": "Traffic is handed to zigpy completely, once and in order", "statement": "Once the version is known and the application listens, what zigpy is handed (joins and messages) over a whole run is exactly what the messages received lead to, one after the other in the order of receipt: an announcement leads to one join and then one message to the device announced; an incoming message to one message, with its cluster, endpoints, link quality and data, to the first device that has its source address in the table as the announcements before it made it, and to nothing if there is none; a reply that is passed on to at most one message, under the number of a request of that kind to that address, and to none only if it was attributed to no request, the number is not a byte, or the address is unknown; every other message to nothing. Nothing is handed over that no message led to. If nothing was raised while receiving, the messages received are, in order, those that the frames in the bytes that arrived decode to, however the bytes were cut up. (wait_for listeners that compare a field which a message lacks are excluded: they raise.)", "quantifier": "every limit of requests, version, device table and sequence of events", "why_tests_cant": "Depends on the whole history: every message received, in order, with the table as it was then; tests deliver single messages.", "anchors": ["zigpy_cc/zigbee/application.py:ControllerApplication.handle_znp", "zigpy_cc/api.py:API.data_received", "zigpy_cc/uart.py:Gateway.data_received", "zigpy_cc/uart.py:Parser.write"]}
{"id": "C155", "title": "Traffic across lost connections", "statement": "Take any moment at which the application listens to an API object and some start-up has learned the version, and whatever happens afterwards, connections lost and new API objects made included. What zigpy is handed from then on because of this API object (joins and messages) is exactly what the messages it receives lead to, one after the other, as in C154, each with the device table as everything before it made it: announcements that came over any API object and the coordinators that start-ups entered. A reply goes out under the number of a request that some operation of the application made, of that kind and to that address. The device table is the old one with those changes. As long as nothing is raised while receiving from it, the messages are those that the frames in the bytes that arrived at this API object decode to, beginning with the bytes already buffered. Before the application listens to an API object nothing is handed over because of it. (wait_for listeners that compare a field which a message lacks are excluded from the first claim: they raise.)", "quantifier": "every reachable state of the application with all its API objects, every API object, every sequence of events", "why_tests_cant": "Depends on the whole history of several links; tests have one and deliver single messages.", "anchors": ["zigpy_cc/zigbee/application.py:ControllerApplication.handle_znp", "zigpy_cc/zigbee/application.py:ControllerApplication.startup", "zigpy_cc/api.py:API.data_received", "zigpy_cc/api.py:API.set_application", "zigpy_cc/uart.py:Gateway.data_received"]}
{"id": "C156", "title": "Start-up can succeed from every stored state, and the known faults happen on the link", "statement": "From every reachable state in which the port is open and nothing else goes on, whatever the stick stores: some sequence of events lets the start-up succeed, every answer in it being a message that a frame decodes to and true of what is stored at that moment; it reports the product and the addresses the stick told, and if it was to form the network, the stick then stores what is required. On the link, likewise, each of the known faults happens: (a) a Z-Stack 1.2 stick with the mark and the common settings is accepted and left alone whatever network it stores (C51); (b) for every marked stick that does not store what is required there is an initialisation that has changed it, has not written the mark and stops, such that the next start from any state at rest resumes and changes nothing (C50); (c) a list of endpoints from any address is taken, and the endpoints in it are not registered (C54). The stored items are assumed to fit a frame and the stick not to be locked out in the sense of C157.", "quantifier": "every limit of requests, reachable state at rest, firmware, valid configuration, stored state, address and list", "why_tests_cant": "Existence of an execution from each of infinitely many states; tests show single ones, with one stored state.", "anchors": ["zigpy_cc/zigbee/application.py:ControllerApplication.startup", "zigpy_cc/zigbee/start_znp.py:start_znp", "zigpy_cc/zigbee/start_znp.py:needsToBeInitialised", "zigpy_cc/zigbee/start_znp.py:initialise", "zigpy_cc/zigbee/start_znp.py:registerEndpoints", "zigpy_cc/api.py:API._request_raw", "zigpy_cc/api.py:API.data_received"]}
{"id": "C157", "title": "Stored states that lock start-up out", "statement": "Whatever a stick stores, a start-up that is to form the network can succeed on the link, from every reachable state in which nothing else goes on, exactly if the stick is not locked out. Locked out means: the mark is set, and of the channel list, key-distribution flag, network key, PAN id and extended PAN id, in this order, the first one that is not stored as requested is not stored at all. Then every start, from every state of the link and whatever else goes on, returns nothing and makes only requests that change nothing, so that every later start with these options fails too. (An item with other bytes leads to an initialisation instead, so a stick that is locked out for one configuration may not be for another.)", "quantifier": "every limit of requests, reachable state, firmware, valid configuration, stored state and sequence of events", "why_tests_cant": "Needs a stick that lost one item and all executions on it; the tests have no such stick.", "anchors": ["zigpy_cc/zigbee/start_znp.py:needsToBeInitialised", "zigpy_cc/zigbee/start_znp.py:validate_item", "zigpy_cc/zigbee/start_znp.py:start_znp", "zigpy_cc/zigbee/application.py:ControllerApplication.startup", "zigpy_cc/zigbee/application.py:ControllerApplication.form_network", "zigpy_cc/api.py:API._request_raw"]}
{"id": "C158", "title": "The mark of a stick that only one configuration was applied to can be believed", "statement": "Call a stick honest if its mark, when set, means that the whole requested configuration is stored; every stick without the mark is. A start, a start-up of the application (with or without forming, on its own or on the link among whatever else goes on) leaves an honest stick honest, however it ends: completed, failed, or cut off anywhere, with its last write stored or not. So a stick that begins without the mark and serves any number of start-ups with one configuration, one after the other, across losses of the connection, is at every such moment either unmarked or holds the whole configuration; after every start-up that formed the network and ended well it holds the whole configuration, PAN id and extended PAN id included, on every firmware; and it is never locked out in the sense of C157. The faults of C50 and C51 therefore need a stick that was marked before the configuration was first applied to it.", "quantifier": "every valid configuration, firmware, execution, crash point and stored state; every number of start-ups in any reachable histories; a stick that keeps what it is told to store", "why_tests_cant": "An invariant over unboundedly many start-ups, each cut off anywhere.", "anchors": ["zigpy_cc/zigbee/start_znp.py:start_znp", "zigpy_cc/zigbee/start_znp.py:initialise", "zigpy_cc/zigbee/start_znp.py:needsToBeInitialised", "zigpy_cc/zigbee/application.py:ControllerApplication.startup", "zigpy_cc/zigbee/application.py:ControllerApplication.reconnect"]}
{"id": "C159", "title": "How a stick comes to be locked out", "statement": "A start can leave a stick locked out (C157) that was not locked out before exactly if the stick is marked and not accepted, i.e. was set up before and is to be set up again: then, on the link, there is a sequence of events in which the start is cut off after a reset that lost the channel list and kept the mark. A start-up of the application can lock a stick out only if it is to form the network and the stick is marked and not accepted.", "quantifier": "every reachable state at rest, valid options, firmware and stored items that fit a frame; every execution and crash point; a stick whose resets may change any item but set no mark", "why_tests_cant": "Existence of an execution from each of infinitely many states, and absence from all others.", "anchors": ["zigpy_cc/zigbee/start_znp.py:start_znp", "zigpy_cc/zigbee/start_znp.py:initialise", "zigpy_cc/zigbee/start_znp.py:needsToBeInitialised", "zigpy_cc/zigbee/application.py:ControllerApplication.startup"]}
{"id": "C160", "title": "Start-ups that overlap can lock a stick out", "statement": "C158 needs that start-ups are served one after the other: although the user called start-up only once, two reconnect loops can be forming the network over one link at the same time, one of them resetting the stick before the other writes the mark, so that the latter ends with success and yet leaves a stick, unmarked before, that is marked, lacks settings and is locked out (C157) if the connection is lost then.", "quantifier": "there is an execution of the application, with the frames on the links in that order, and a course of the stick's storage that fits them", "why_tests_cant": "Needs two losses of the connection half a second before a time-out and a reset of one start-up between two writes of another.", "anchors": ["zigpy_cc/zigbee/application.py:ControllerApplication.reconnect", "zigpy_cc/zigbee/application.py:ControllerApplication.startup", "zigpy_cc/zigbee/application.py:ControllerApplication.connection_lost", "zigpy_cc/zigbee/start_znp.py:initialise"]}
{"id": "C161", "title": "Two reconnect loops can keep each other from reconnecting", "statement": "However many attempts one waits for, there is an execution with that many failed start-ups and no successful one in which the user calls start-up once, the connection is lost only twice, the port can be opened whenever it is tried, nobody is cancelled, and no stick ever has time to answer, because every link over which anything was sent is closed before any time passes: an attempt that fails closes the API object that the application uses now, which is the one that the other loop has just begun to use.", "quantifier": "every number of attempts; every configuration and device table", "why_tests_cant": "Needs arbitrarily long executions with two loops whose time-outs of six seconds meet sleeps of five seconds and one.", "anchors": ["zigpy_cc/zigbee/application.py:ControllerApplication.reconnect", "zigpy_cc/zigbee/application.py:ControllerApplication.startup", "zigpy_cc/zigbee/application.py:ControllerApplication.connection_lost", "zigpy_cc/api.py:API.close", "zigpy_cc/uart.py:connect"]}
{"id": "C162", "title": "Start-ups that come one after the other talk to one API object each", "statement": "If start-up is called, and a reconnect loop is started by a lost connection, only when all earlier start-ups and loops have ended, then at any time at most one of them is at work, everything that one attempt does, over or under way, it does to one API object, and while it makes its requests this is the API object that the application uses. (Without that, C129, C160 and C161 show what can happen.)", "quantifier": "every configuration, device table and execution in which start-ups and loops come one by one; every attempt", "why_tests_cant": "Quantifies over all executions of several coroutines; tests start one application once.", "anchors": ["zigpy_cc/zigbee/application.py:ControllerApplication.reconnect", "zigpy_cc/zigbee/application.py:ControllerApplication.startup", "zigpy_cc/zigbee/application.py:ControllerApplication.connection_lost"]}
{"id": "C163", "title": "Start-ups that come one by one never lock a stick out", "statement": "If start-up is called, and a reconnect loop is started by a lost connection, only when all earlier start-ups and loops have ended (as in C162), then what they do happens attempt by attempt: all that the ended attempts did, in the order in which they ended, and then what the one under way did so far. Hence a stick that was not marked and serves all of this in the order in which it happened, the request under way included, has the whole configuration stored whenever it is marked, and is never locked out (C157).", "quantifier": "every valid configuration, device table, firmware, stored state without mark, and execution in which start-ups and loops come one by one; every crash point", "why_tests_cant": "Quantifies over executions with any number of attempts and losses of the connection, and over what a stick stores on each of them.", "anchors": ["zigpy_cc/zigbee/application.py:ControllerApplication.reconnect", "zigpy_cc/zigbee/application.py:ControllerApplication.startup", "zigpy_cc/zigbee/application.py:ControllerApplication.connection_lost", "zigpy_cc/zigbee/start_znp.py:start_znp", "zigpy_cc/zigbee/start_znp.py:initialise"]}
{"id": "C164", "title": "Nobody closes the link of a start-up that is alone", "statement": "If start-up is called, and a reconnect loop is started by a lost connection, only when all earlier start-ups and loops have ended (as in C162), and the user does not shut the application down, then whenever an attempt makes its requests its API object is the one that the application uses, this has a port, and the port has not been closed. (In C161, where loops overlap, each attempt's link is closed before any answer can come.)", "quantifier": "every configuration, device table and execution in which start-ups and loops come one by one without a shutdown; every attempt under way", "why_tests_cant": "Quantifies over all executions, with any number of failed attempts and lost connections.", "anchors": ["zigpy_cc/zigbee/application.py:ControllerApplication.reconnect", "zigpy_cc/zigbee/application.py:ControllerApplication.startup", "zigpy_cc/zigbee/application.py:ControllerApplication.connection_lost", "zigpy_cc/api.py:API.close", "zigpy_cc/uart.py:Gateway.close"]}
{"id": "C165", "title": "A start-up that is alone never fails because its port was closed", "statement": "If start-up is called, and a reconnect loop is started by a lost connection, only when all earlier start-ups and loops have ended (as in C162), and the user does not shut the application down, then no attempt at a start-up ends with AttributeError, and none of its requests does: what an attempt fails of is one of the other reasons of C145 (cancelled, unanswered, refused, unknown product). As in C145, received messages have the fields that those who wait look for.", "quantifier": "every valid configuration, device table and execution in which start-ups and loops come one by one without a shutdown; every attempt that ended", "why_tests_cant": "Quantifies over all executions, with any number of failed attempts and lost connections, and every point at which a port might be closed.", "anchors": ["zigpy_cc/zigbee/application.py:ControllerApplication.reconnect", "zigpy_cc/zigbee/application.py:ControllerApplication.startup", "zigpy_cc/zigbee/application.py:ControllerApplication.connection_lost", "zigpy_cc/api.py:API.request_raw", "zigpy_cc/api.py:API.close"]}
{"id": "C166", "title": "A start-up that is alone and is served succeeds", "statement": "If start-up is called, and a reconnect loop is started by a lost connection, only when all earlier start-ups and loops have ended (as in C162), and the user does not shut the application down, then every attempt at a start-up that ended succeeded if none of its requests was cancelled, stayed unanswered for the time limit or was refused, none of its waits was cancelled, lasted for its time limit in vain or was ended by the refusal of an operation, and the product that the stick reported is known. Unlike in C145, nothing need be assumed about ports. So if this holds of its attempts, a start-up that makes its requests succeeds within the rounds of C140. As in C145, received messages have the fields that those who wait look for.", "quantifier": "every valid configuration, device table and execution in which start-ups and loops come one by one without a shutdown; every attempt that ended", "why_tests_cant": "Quantifies over all executions, with any number of failed attempts and lost connections.", "anchors": ["zigpy_cc/zigbee/application.py:ControllerApplication.reconnect", "zigpy_cc/zigbee/application.py:ControllerApplication.startup", "zigpy_cc/zigbee/start_znp.py:start_znp", "zigpy_cc/api.py:API.request_raw"]}
