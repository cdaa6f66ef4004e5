#!/usr/bin/env python3
"""Writes /verif/properties.jsonl (one JSON object per line)."""
import json, os
P = []
def p(title, statement, quantifier, why, anchors):
    P.append(dict(id="C%02d" % (len(P)+1), title=title, statement=statement,
                  quantifier=quantifier, why_tests_cant=why, anchors=anchors))

U="zigpy_cc/uart.py"; Z="zigpy_cc/zpi_object.py"; B="zigpy_cc/buffalo.py"; A="zigpy_cc/api.py"
D="zigpy_cc/definition.py"; AP="zigpy_cc/zigbee/application.py"; S="zigpy_cc/zigbee/start_znp.py"; NV="zigpy_cc/zigbee/nv_items.py"
T="zigpy_cc/types.py"; CF="zigpy_cc/config.py"

# ---------------------------------------------------------------- transport
p("A sent frame is read back unchanged",
  "Serialising a frame and feeding the bytes one by one to an idle parser yields nothing before the last byte and, on the last byte, exactly that frame (same type, subsystem, command id and data, with its length and checksum), leaving the parser idle. This holds for every non-empty payload of at most 255 bytes.",
  "every command type, subsystem, command id and non-empty payload of at most 255 bytes",
  "The payload space is 256^255; a test samples a handful of frames and cannot rule out a payload whose bytes (for example an embedded start byte) confuse the parser.",
  [U+":UnpiFrame.to_buffer", U+":UnpiFrame.from_buffer", U+":Parser.write"])
p("Every delivered frame was on the wire",
  "Whenever the parser hands out a frame, the bytes it removed from its input are exactly the serialisation of that frame, checksum included: no frame is ever invented, merged or altered, and no frame with a wrong checksum is handed out.",
  "every byte history and every next byte",
  "Requires a statement about all byte histories, including hostile ones.",
  [U+":Parser.write", U+":UnpiFrame.from_buffer", U+":UnpiFrame.calculate_checksum"])
p("A stream of frames is delivered completely, once and in order",
  "Feeding the concatenated serialisations of any list of frames delivers exactly these frames, in order, each once; the only exception is a last frame with an empty payload, whose five bytes stay buffered until one more byte arrives.",
  "every list of frames with payloads of 0..255 bytes, of any length",
  "Unbounded list length and payload space.",
  [U+":Parser.write", U+":Gateway.data_received"])
p("Delivery does not depend on how the serial port chops the stream",
  "Splitting a byte stream into arbitrary read chunks does not change which frames reach the API, nor their order, nor the parser state, as long as no frame makes the receive path raise.",
  "every byte stream and every way of cutting it into chunks (including empty chunks)",
  "There are exponentially many chunkings of every stream.",
  [U+":Gateway.data_received", U+":Parser.write"])
p("A corrupted byte never turns into a delivered frame",
  "Changing any single byte of a serialised frame after its length byte (command bytes, payload or checksum) to any other value makes the receiver consume the frame without delivering anything.",
  "every frame, every position from the first command byte to the checksum, every replacement value",
  "All positions times all replacement values times all payloads.",
  [U+":UnpiFrame.from_buffer", U+":UnpiFrame.calculate_checksum"])
p("Line noise between frames is discarded",
  "On an idle parser, any run of bytes that contains no start byte delivers nothing and leaves the parser idle, so noise between frames neither produces nor loses frames.",
  "every noise byte string without 0xFE, interleaved with every list of non-empty frames",
  "Arbitrary noise of arbitrary length.",
  [U+":Parser.write"])
p("The receive buffer is bounded",
  "Whatever bytes arrive, the parser never retains more than 259 bytes between two bytes.",
  "every byte history of any length",
  "A leak only shows on some unbounded history.",
  [U+":Parser.write"])
p("The parser recovers on a quiet line",
  "From any state reached by any byte history, 259 consecutive bytes without a start byte always bring the parser back to idle, after which complete frames are delivered normally.",
  "every byte history and every following noise of at least 259 bytes without 0xFE",
  "Quantifies over all reachable parser states.",
  [U+":Parser.write"])
p("A bad frame does not take its neighbours down",
  "A frame that cannot be interpreted (unknown command type, unknown subsystem, unknown command, undecodable payload) does not prevent the other frames received from being delivered.",
  "every chunk of bytes containing an uninterpretable frame followed by other frames",
  "The failing input depends on both the frame content and the chunk boundaries chosen by the operating system.",
  [U+":Gateway.data_received", U+":UnpiFrame.__init__", A+":API.data_received", Z+":ZpiObject.from_unpi_frame"])
p("A complete frame is delivered as soon as its last byte arrives",
  "Every complete frame, including one with an empty payload, is delivered when its checksum byte arrives, without waiting for further input.",
  "every frame, payload sizes 0..255",
  "The failing class (empty payloads) is not visible unless all sizes are considered.",
  [U+":Parser.write", U+":MinMessageLength"])
p("Outgoing frames are well formed or refused",
  "Sending a frame either writes start byte, true payload length, type and subsystem packed in one byte, command id, payload and xor checksum in one piece, or raises and writes nothing; it is refused exactly when the payload is longer than 255 bytes or the command id is not a byte. In particular no frame larger than the protocol's 250-byte payload limit is written.",
  "every frame",
  "All payload sizes and ids.",
  [U+":UnpiFrame.to_buffer", U+":Gateway.send", U+":MaxDataSize"])

# ---------------------------------------------------------------- payload codec
p("Payload encode/decode round trip",
  "For every parameter list, encoding a payload whose values fit the declared types and decoding the bytes gives back exactly that payload, whatever bytes follow.",
  "every parameter list (in particular both lists of every command in the definition table) and every fitting payload",
  "Value spaces are unbounded products; the tests use one payload per shape.",
  [B+":Buffalo.write_parameter", B+":Buffalo.read_parameter", Z+":ZpiObject.read_parameters", Z+":ZpiObject.to_unpi_frame"])
p("Decoding loses nothing",
  "If a received payload decodes and all its types can be written, re-encoding the decoded object reproduces exactly the bytes that were consumed (apart from the bits of a neighbour entry that the decoder masks out).",
  "every parameter list without repeated names (no list of the table repeats one) and every byte string",
  "The application relies on it for every incoming ZDO message.",
  [Z+":ZpiObject.from_unpi_frame", Z+":ZpiObject.to_unpi_frame", AP+":ControllerApplication.handle_znp"])
p("A truncated payload never decodes",
  "If a payload decodes, every proper prefix of the bytes it consumed raises an error: no field is ever made up from missing bytes.",
  "every parameter list, byte string and cut point",
  "All cut points of all payloads.",
  [B+":Buffalo.read", Z+":ZpiObject.read_parameters"])
p("Trailing bytes do not change a decoded payload",
  "Appending any bytes to a decodable payload gives the same decoded payload.",
  "every parameter list, byte string and suffix",
  "Infinite suffixes.",
  [Z+":ZpiObject.read_parameters"])
p("Values are never silently truncated when encoding",
  "If encoding an integer parameter succeeds the value fits its declared width and is recoverable from the bytes; a value that does not fit raises.",
  "every parameter list and every payload, well-typed or not",
  "All integers.",
  [B+":Buffalo.write", B+":Buffalo.write_parameter"])
p("Commands are unambiguous",
  "Within a subsystem no two commands share a name or an id, so looking a command up by name and looking the resulting id up again gives the same command, and no command's parameter list repeats a name.",
  "every subsystem and command of the definition table",
  "Finite but 235 commands with two lists each; no test visits them.",
  [D+":Definition", Z+":ZpiObject.from_command", Z+":ZpiObject.from_unpi_frame"])
p("End-to-end wire round trip",
  "For every command of the table whose request parameters are of supported, decodable types, every fitting payload whose encoding is 1..255 bytes survives: build the object, frame it, serialise it, parse the bytes and decode the frame gives the same type, subsystem, command and payload.",
  "every command, every fitting payload",
  "Product of all commands and payloads.",
  [Z+":ZpiObject.from_command", Z+":ZpiObject.to_unpi_frame", U+":UnpiFrame.to_buffer", U+":Parser.write", Z+":ZpiObject.from_unpi_frame"])
p("Every message the table defines can be decoded",
  "For every command of the table there are bytes from which the incoming message can be decoded.",
  "every command of the definition table, every payload",
  "Some commands fail for every payload; a test per command is needed and missing.",
  [B+":Buffalo.read_parameter", D+":Definition"])

# ---------------------------------------------------------------- request building
p("ZDO requests are translated faithfully",
  "For a ZDO request on a supported cluster the bytes sent to the stick are the destination address (little endian) followed by the caller's ZDO payload without its sequence byte; for permit-join they are additionally preceded by the address mode, which is broadcast exactly for the routers-and-coordinator address. A payload that is too short raises instead of sending.",
  "every cluster, address, sequence number and payload",
  "All payload contents and lengths for all clusters.",
  [Z+":ZpiObject.from_cluster", AP+":ControllerApplication.request"])
p("ZCL requests are translated faithfully",
  "A ZCL unicast is sent as AF dataRequest carrying exactly the caller's address, endpoints, cluster, sequence number, radius 30 and payload; it is refused (raises, nothing sent) exactly when the payload exceeds 245 bytes or a field is out of range.",
  "every address, endpoint, cluster, sequence and payload",
  "All field values and payload lengths.",
  [Z+":ZpiObject.from_cluster", Z+":ZpiObject.to_unpi_frame", U+":UnpiFrame.to_buffer"])
p("Multicasts and broadcasts are translated faithfully",
  "A multicast or broadcast is sent as AF dataRequestExt carrying the given address mode, the group or broadcast address as eight little-endian bytes, the endpoints, cluster, sequence number, radius and payload.",
  "every group or broadcast address, endpoint, cluster, sequence, radius and payload",
  "All field values and payload lengths.",
  [Z+":ZpiObject.from_cluster", AP+":ControllerApplication.mrequest", AP+":ControllerApplication.broadcast"])
p("Application messages of every profile go out as application messages",
  "A request on any non-ZDO profile is sent as an AF data request.",
  "every profile id other than 0, every cluster",
  "Tests only use the home-automation profile.",
  [Z+":ZpiObject.from_cluster"])

# ---------------------------------------------------------------- waiters
p("The right reply is awaited",
  "For a data request the awaited confirmation is exactly an AF dataConfirm with the same transaction id; for a ZDO request with a defined response it is exactly that response with the request's destination as source; a reply of another kind or from another device never completes it. Creating the waiter never fails for a request the application can build.",
  "every request object and every received message",
  "All pairs of requests and messages.",
  [A+":API.create_response_waiter", A+":Waiter.match"])
p("A waiter is completed at most once",
  "Over any history of requests, received frames, timeouts, cancellations and closes: waiter ids are never reused, a waiter completed with a message keeps that message, and completing never raises even if the waiter was cancelled.",
  "every history of events",
  "Interleavings of timers, cancellations and frames are unbounded.",
  [A+":API.wait_for", A+":Waiter.set_result", A+":API.data_received"])
p("A received message completes exactly the waiters it answers",
  "A received message completes precisely the registered waiters it matches, oldest first, up to and including the first one that carries a sequence number; all the others stay registered and pending, in their order.",
  "every set of registered waiters and every received message",
  "All waiter tables and messages.",
  [A+":API.data_received", A+":Waiter.match"])
p("Concurrent identical requests are answered first come, first served",
  "If several ZDO requests to the same device for the same command are outstanding, the n-th reply is attributed to the n-th request: its sequence number is handed to the application with that reply.",
  "every number of outstanding requests with non-zero sequence numbers",
  "Unbounded number of concurrent requests.",
  [A+":API.data_received", A+":Waiter.sequence"])
p("Every sequence number works",
  "A ZDO reply is delivered to the application for every sequence number the caller may use, 0 to 255.",
  "every sequence number, every ZDO reply",
  "The failing value is one of 256 and needs the whole receive path.",
  [A+":API.data_received", AP+":ControllerApplication.handle_znp"])
p("Waiters do not leak",
  "In every reachable state each registered waiter has a pending clean-up timer due no later than its timeout plus 100 ms after registration; once all due timers have run, no waiter older than that is registered.",
  "every history of events",
  "A leak needs an unusual history (timeouts, cancellations, lost replies).",
  [A+":API.wait_for", A+":API._request_raw"])
p("Clean-up touches only its own waiter",
  "When a clean-up timer fires it removes at most the waiter it was created for; a waiter that is still waiting within its time limit is never removed by anything but a matching message, its own timer or the failure of its own request.",
  "every history of events",
  "All interleavings.",
  [A+":API.wait_for"])

# ---------------------------------------------------------------- request machine
p("Synchronous requests never overlap",
  "At any time at most one request is between acquiring the link and finishing; hence between the frame of one request and its completion no other request's frame is written.",
  "every history of concurrent requests, replies, timeouts, cancellations and closes",
  "All interleavings of any number of tasks.",
  [A+":API.request_raw", A+":API._lock"])
p("The link is always handed on",
  "However a request ends (reply, error status, timeout, cancellation, encoding error, closed port) the link is released and given to the longest-waiting request, so requests are served in arrival order.",
  "every history of events",
  "All exit paths times all interleavings.",
  [A+":API.request_raw", A+":API._request_raw"])
p("A request returns the answer to its own command",
  "If a request for a synchronous command succeeds, the returned message is a synchronous response of the same subsystem and command that arrived while the request was outstanding, and its status, if it has one, is among the expected ones.",
  "every history of events",
  "All interleavings and all reply contents.",
  [A+":API._request_raw"])
p("An error status is reported to the caller",
  "If the stick answers a request with a status that is not expected, the caller gets a command error carrying that status, and the waiter created for the final reply is completed and unregistered.",
  "every history of events and every status",
  "The failing case needs the final reply or its timeout to come before the error status.",
  [A+":API._request_raw", "zigpy_cc/exception.py:CommandError", AP+":ControllerApplication.request"])
p("A late answer is not taken for the answer of a later request",
  "A response belonging to a request that already timed out never completes a later request for the same command.",
  "every history of events",
  "Needs a particular timing of timeout and late reply.",
  [A+":API.data_received", A+":API._request_raw"])
p("No more requests than the stick supports",
  "At any time at most 16 (Z-Stack 3.x.0) or 2 (others) application requests, multicasts, broadcasts and permit calls are past admission; the slot is returned on every exit path, and admission is first come first served.",
  "every history of events",
  "All interleavings.",
  [AP+":ControllerApplication.startup", AP+":ControllerApplication.request", AP+":ControllerApplication.mrequest", AP+":ControllerApplication.broadcast", AP+":ControllerApplication.permit_ncp"])
p("Requests are time-limited",
  "Once a request's frame is written, the request can finish no later than its limit: 6 s for synchronous commands, 20 s for network start commands, 30 s for a reset; with a time-out error if nothing arrived, leaving the link free.",
  "every history of events",
  "Real-time behaviour over all schedules.",
  [A+":API._request_raw", A+":Waiter.wait", T+":Timeouts"])
p("Reset commands wait for the reset indication",
  "A reset request completes successfully exactly with the reset indication of the SYS subsystem; other asynchronous requests complete immediately after writing; request objects that are not requests are refused without writing.",
  "every request object and history",
  "All command objects.",
  [A+":API._request_raw", Z+":ZpiObject.is_reset_command"])

# ---------------------------------------------------------------- application
p("Only asynchronous indications reach the application logic",
  "Received synchronous responses and requests, and the indications on the ignore list, cause no join, no message, no LED change.",
  "every received message",
  "All messages.",
  [AP+":ControllerApplication.handle_znp", AP+":IGNORED"])
p("Incoming ZCL messages are delivered intact",
  "An incoming AF message from a known short address results in exactly one delivery, to the device with that address, with the cluster, source and destination endpoint, link quality and payload bytes that were on the wire; from an unknown address it results in none and no error.",
  "every payload, every device table",
  "All payloads and device tables.",
  [AP+":ControllerApplication.handle_znp"])
p("ZDO replies are delivered intact",
  "A ZDO reply on the known list from a known device, answering a registered request, results in exactly one delivery whose data is the request's sequence number followed by the reply bytes without the address prefix, on the corresponding ZDO cluster.",
  "every reply command on the list, payload and device table",
  "All payloads; relies on re-encoding being lossless.",
  [AP+":ControllerApplication.handle_znp", AP+":REQUESTS"])
p("A device announcement joins the device",
  "A device announcement makes the application register the announced short and IEEE address exactly once, before any message of it is delivered.",
  "every announcement and device table",
  "All addresses and tables.",
  [AP+":ControllerApplication.handle_znp"])
p("Unsolicited ZDO replies are dropped",
  "A ZDO reply that no registered waiter with a sequence number matched is not delivered as a message.",
  "every reply and waiter table",
  "All tables.",
  [AP+":ControllerApplication.handle_znp"])
p("Extended incoming messages are delivered",
  "An incoming AF message with a 64-bit source address from a known device is delivered like one with a short address.",
  "every payload and device table",
  "No test sends such a message.",
  [AP+":ControllerApplication.handle_znp", D+":Definition"])
p("Send results are mapped correctly",
  "A send operation reports status 0 exactly if the stick accepted the frame, and reports the stick's status as error exactly if the stick refused it.",
  "every history of a send operation",
  "All statuses and schedules.",
  [AP+":ControllerApplication.request", AP+":ControllerApplication.mrequest", AP+":ControllerApplication.broadcast"])
p("Permit-join is bounded and broadcast",
  "Permit-join is refused for durations outside 0..254 and otherwise sends exactly one permit-join request with that duration to all routers and the coordinator.",
  "every duration",
  "All integers.",
  [AP+":ControllerApplication.permit_ncp"])

# ---------------------------------------------------------------- startup
p("A configured coordinator is not rewritten",
  "If the stick's stored configuration matches the requested one, starting never resets the stick and never writes configuration; the result is 'resumed'.",
  "every sequence of stick answers",
  "All answer sequences.",
  [S+":start_znp", S+":needsToBeInitialised"])
p("The 'configured' marker is written last",
  "During initialisation the marker that declares the stick configured is written only after every other configuration write of that initialisation has been acknowledged, whatever the stick answers and wherever the run is interrupted.",
  "every sequence of stick answers and every crash point",
  "All crash points times answers.",
  [S+":initialise"])
p("Interrupted first initialisation is redone",
  "If the marker was not set before, a run interrupted at any point before the marker was written is followed by a complete initialisation at the next start.",
  "every crash point, every requested configuration, every initial stored state without marker",
  "All crash points.",
  [S+":start_znp", S+":initialise", S+":needsToBeInitialised"])
p("Interrupted re-initialisation is redone",
  "If a run that re-initialises an already marked stick is interrupted at any point, the next start re-initialises it.",
  "every crash point, every stored state",
  "All crash points and stored states.",
  [S+":start_znp", S+":needsToBeInitialised"])
p("Start-up converges",
  "On a stick that stores what is written, after a completed start the stored network key, PAN id, extended PAN id, channel list and key-distribution flag are the requested ones, and the next start with the same configuration resumes without writing.",
  "every requested configuration, firmware version and initial stored state",
  "All configurations and initial states.",
  [S+":start_znp"])
p("Configuration items are well formed",
  "Every configuration item written or read has a declared length equal to its value length and a value that encodes the requested setting (little endian PAN id, serialised extended PAN id, channel mask, 16-byte key).",
  "every requested configuration",
  "All keys, PAN ids and channel masks.",
  [NV+":Items"])
p("Start result is truthful",
  "Start returns 'reset' or 'restored' only if initialisation ran to completion and 'resumed' only if nothing was re-initialised; 'restored' only on Z-Stack 1.2 sticks whose marker was missing.",
  "every sequence of stick answers",
  "All answer sequences.",
  [S+":start_znp"])
p("All endpoints get registered exactly once",
  "After a completed start every required endpoint was either reported active by the stick or registered exactly once by the run, and no endpoint reported active is registered again; registrations carry true cluster counts.",
  "every active endpoint list and answer sequence",
  "All subsets of endpoints.",
  [S+":registerEndpoints", S+":Endpoints"])
p("The green power group is joined exactly if missing",
  "A completed start adds endpoint 242 to the given group exactly if the stick reports it is not a member.",
  "every answer sequence",
  "All answers.",
  [S+":addToGroup"])
p("The coordinator is started exactly if it is not running",
  "Start issues a network start exactly if the stick does not report the coordinator state, and then returns only after the coordinator state was indicated.",
  "every answer sequence",
  "All device states.",
  [S+":boot"])
p("Missing network options fall back to safe defaults",
  "Every network option that is not configured (or zero) takes the documented default, and every configured one is used unchanged; the resulting options always have a non-zero channel mask, a 16-byte key and 8-byte extended PAN id.",
  "every network configuration",
  "All configurations.",
  [T+":NetworkOptions"])

# ---------------------------------------------------------------- life cycle
p("A deliberate close does not reconnect, a lost port does",
  "When the serial port goes away, a reconnect is started exactly if the port was not closed deliberately; once the port was closed by the application, no reconnect is started for it.",
  "every history of open, close and loss events",
  "All histories.",
  [U+":Gateway.connection_lost", U+":Gateway.close", AP+":ControllerApplication.connection_lost"])
p("Reconnecting does not pile up",
  "There is at most one reconnect loop at any time and at most one open serial port of the application.",
  "every history of loss, failure and success events",
  "Needs a loss at a particular point of a running reconnect.",
  [AP+":ControllerApplication.reconnect"])
p("Reconnect keeps trying and stops on success",
  "A reconnect loop closes the previous port before each attempt, retries after any failure, and ends exactly when a start-up succeeded.",
  "every sequence of attempt outcomes",
  "Unbounded number of attempts.",
  [AP+":ControllerApplication.reconnect"])
p("Auto detection picks a unique adapter",
  "Automatic port selection returns a port exactly if exactly one attached port matches a TI adapter, and raises otherwise; explicitly configured ports are used unchanged, and hardware and software flow control are never enabled together.",
  "every list of attached ports and every flow-control setting",
  "All port lists.",
  [U+":detect_port", U+":connect"])
p("Probing always closes the port",
  "Probing returns true exactly if the port opened and the stick answered the version request within two seconds, false on time-out, serial error or command error, and in every case the port is closed afterwards.",
  "every outcome of opening and requesting",
  "All outcomes.",
  [A+":API.probe"])
# ---------------------------------------------------------------- later additions
p("The parser falls back into step on a busy line",
  "A receiver that starts listening in the middle of a frame of a continuous stream of valid frames delivers correct frames again after finitely many frames.",
  "every frame stream and every starting offset",
  "Needs an unbounded stream; every finite test either resynchronises or looks like it might.",
  [U+":Parser.write"])
p("Address look-ups reach the stick intact",
  "A ZDO NWK_addr_req or IEEE_addr_req reaches the stick with the address asked about, the request type and the start index the caller passed; other ZDO requests carry the caller's destination and arguments.",
  "every destination, address, request type and start index",
  "Needs to compare every byte of the arguments with the bytes sent.",
  [Z+":ZpiObject.from_cluster"])
p("A received message completes exactly the waiters it answers, zero counting as no sequence number",
  "A received message completes precisely the registered waiters it matches, oldest first, up to and including the first one that carries a non-zero sequence number; all the others stay registered and pending, in their order.",
  "every set of registered waiters and every received message",
  "All waiter tables and messages; the exact version of the claim that is refuted for sequence number 0.",
  [A+":API.data_received", A+":Waiter.match"])
p("Admission is bounded and slots come back",
  "At any time at most 16 (Z-Stack 3.x.0) or 2 (others) application requests, multicasts, broadcasts and permit calls are past admission, occupied and free slots always add up to that number, and with a free slot a waiting operation is admitted when it runs.",
  "every history of events",
  "All interleavings; the exact version of the claim that is refuted for the order of admission.",
  [AP+":ControllerApplication.startup", AP+":ControllerApplication.request", AP+":ControllerApplication.mrequest", AP+":ControllerApplication.broadcast", AP+":ControllerApplication.permit_ncp"])
p("Matching a message never raises",
  "In every reachable state, comparing any decodable received message with any waiter registered by the driver itself gives yes or no and never raises, so no message can stop the delivery of another one by being looked at.",
  "every history of events and every received frame",
  "A missing payload field for one command out of all of them would be enough.",
  [A+":Waiter.match", A+":API.data_received", AP+":ControllerApplication.request"])
p("An idle link is used at once",
  "If the port is open, nobody holds or waits for the link and a slot is free, a request that can be encoded writes its frame in its first step.",
  "every reachable state and every request",
  "All reachable states.",
  [A+":API._request_raw", AP+":ControllerApplication.request"])
p("An answer that arrives is returned",
  "If a command called through API.request waits for its response and the bytes of a response to it, with a payload and with an expected status if it has one, arrive within the time limit, then at its next turn it ends by returning exactly that message.",
  "every reachable state in which no half frame is buffered and nobody called wait_for for that response, every such response",
  "From bytes through parser, decoder, waiters and request for all commands.",
  [A+":API._request_raw", A+":API.data_received", U+":Parser.write"])
p("What an unexpected status leads to",
  "A response with an unexpected status makes the request end with that status and completes and removes its reply waiter; if that waiter was already removed, the request ends with a KeyError, and nothing else can happen.",
  "every state in which a request was answered",
  "All interleavings of clean-up and answers; exact version of a refuted claim.",
  [A+":API._request_raw", A+":API.wait_for"])
p("Only whole frames of requests are written",
  "Everything written to the port, in order, is a sequence of whole frames, each the encoding of a request somebody made, and no request is written twice.",
  "every history of events",
  "All interleavings, all requests.",
  [A+":API._request_raw", U+":Gateway.send"])
p("Start initialises exactly when the validated settings differ",
  "A completed start initialises the stick (and then all requested settings are stored) exactly if the marker, channel list, key-distribution flag or network key differ from the requested ones or, on Z-Stack 3 with a stored PAN id other than FFFF, the PAN id or extended PAN id differ; otherwise it changes nothing.",
  "every stored state, requested configuration and firmware version",
  "All stored states; exact version of claims refuted for PAN ids.",
  [S+":needsToBeInitialised", S+":start_znp"])
p("What can come back from a request or a wait",
  "A request made with API.request ends by returning a message whose status, if it has one, is expected, or by raising, but never AssertionError (which start-up takes for a differing setting); a wait ends by returning a message that matches or by raising, never AssertionError. Only an asynchronous command that is not a reset returns nothing.",
  "every history of events",
  "All interleavings, all requests; this is what the theorems about starting assume of the request layer.",
  [A+":API.request", A+":API._request_raw", A+":API.wait_for", A+":Waiter.wait"])
p("Endpoints are registered exactly against the one list awaited",
  "A completed start awaits exactly one active endpoint list, registers each required endpoint missing in it exactly once with an acknowledged request, and nothing else.",
  "every answer sequence",
  "Exact version of a claim refuted because the list may be that of another device.",
  [S+":registerEndpoints", S+":Endpoints"])
p("Every start-up request can be sent",
  "Every request made by start-up for valid network options and a 16-bit group is a known command with all its parameters in range: building and encoding it never raises, and its frame stays within the 250 bytes allowed.",
  "every requested configuration, answer sequence and crash point",
  "Every combination of options must fit every field of every command.",
  [S+":start_znp", NV+":Items", Z+":ZpiObject.from_command", Z+":ZpiObject.to_unpi_frame"])
p("Start completes on a working stick",
  "On a stick that answers every request with success, stores what is written and sends every awaited indication, start returns, from every stored state except, possibly, one with the marker set and a compared item missing (with the channel list missing, start fails with the stick's error; exactly which of these states fail for ever: C157).",
  "every stored state, requested configuration and firmware version, every endpoint list and device state",
  "All stored states and options; a test starts from one.",
  [S+":start_znp", S+":needsToBeInitialised", S+":initialise"])
p("When a lost port starts a reconnect",
  "The loss of a port starts a reconnect loop exactly if start-up had got the connection (one second after opening) and the port was not closed by then; nothing else starts a loop, and each port starts at most one.",
  "every history of start, shutdown, loss, failure, success and cancellation events",
  "All interleavings; exact version of a refuted claim.",
  [U+":Gateway.connection_lost", A+":API.connection_lost", AP+":ControllerApplication.connection_lost"])
p("One loop and one port in calm histories",
  "If the user starts once and cancels nothing, and no port is lost while a start-up makes its requests, then there is never more than one coroutine starting, one reconnect loop or one open port, and whenever a loop waits for its next attempt no port is open. A second start opens a second port, and a cancelled attempt leaves a port open that the application does not own.",
  "every such history, of any length",
  "All interleavings of any length; exact version of a refuted claim.",
  [AP+":ControllerApplication.reconnect", AP+":ControllerApplication.startup", A+":API.new"])
p("When probing leaves the port open",
  "After probing the port is still open exactly if opening it succeeded but took at least one second.",
  "every outcome and duration of opening and requesting",
  "Depends on timing; exact version of a refuted claim.",
  [A+":API.probe", A+":API._probe", U+":connect"])
p("What shutdown guarantees",
  "After a shutdown at a moment when nothing is starting or reconnecting, in a calm history, no port is open and nothing but another start opens one or starts a loop; a reconnect loop that is running is not stopped by shutdown and can open the port again.",
  "every calm history before and every history after the shutdown",
  "All continuations of all histories.",
  [AP+":ControllerApplication.shutdown", A+":API.close", AP+":ControllerApplication.reconnect"])
p("Start-up first asks whether the stick is alive",
  "The first thing an application start-up sends is a ping; unless it is answered with success nothing else is sent and start-up does not complete; a refused ping is reported as an exception.",
  "every configuration, answer sequence and crash point",
  "All answers and interruptions; a test plays one.",
  [AP+":ControllerApplication.startup", A+":API.request"])
p("Admission limit by reported product",
  "A completed start-up allows 16 requests at a time if the stick reports Z-Stack 3.x.0 and 2 otherwise; a stick reporting an unknown product is refused with a ValueError after exactly the two requests ping and version.",
  "every configuration, answer sequence and crash point",
  "All reported versions; the limit is what the theorems about concurrent requests use.",
  [AP+":ControllerApplication.startup", A+":API.version", T+":ZnpVersion"])
p("Start-up applies the configured network",
  "A completed start-up with auto_form leaves the stick with the configured network (the configuration's values or the documented defaults): it resumes an accepted stick without changing it and otherwise initialises it completely; without auto_form exactly ping, version and getDeviceInfo are sent. A stick that is accepted, or not to be formed, is never changed, not even by a start-up that fails or is interrupted.",
  "every configuration, stored state, firmware version, answer sequence and crash point",
  "All stored states and crash points.",
  [AP+":ControllerApplication.startup", AP+":ControllerApplication.form_network", S+":start_znp", T+":NetworkOptions"])
p("The coordinator is registered under its reported addresses",
  "A completed start-up ends with a device information request; the application's own addresses are those of its answer, the coordinator is registered in the device table under them, and every other device keeps its entry. Every decodable answer has these addresses.",
  "every answer sequence and device table",
  "All answers and device tables.",
  [AP+":ControllerApplication.startup", AP+":Coordinator"])
p("LED is switched off once after forming",
  "Start-up switches the LED off exactly once, and only after the network was formed; on Z-Stack 3.x.0 and without auto_form no LED command is sent.",
  "every configuration, answer sequence and crash point",
  "All versions and interruptions.",
  [AP+":ControllerApplication.form_network", AP+":ControllerApplication.set_led"])
p("Every request of application start-up can be sent and start-up completes on a working stick",
  "Every request of an application start-up with a valid configuration is a known command that encodes into a frame of at most 250 data bytes; on a stick that answers every request with success and stores what is written, start-up completes with the stick's version and addresses (from every stored state that has no marker or all compared items).",
  "every configuration and stored state, firmware version, device table",
  "All configurations and stored states.",
  [AP+":ControllerApplication.startup", AP+":ControllerApplication.form_network", S+":start_znp", Z+":ZpiObject.from_command"])
p("The LED follows permission to join",
  "A decoded permit-join indication switches the LED on if its duration is not zero and off if it is, and a permit-join response (whatever its status) switches it on; no other message touches the LED, and none does on Z-Stack 3.x.0. Before the version is known such a message ends in a KeyError without any effect.",
  "every decodable message and device table",
  "All messages and versions.",
  [AP+":ControllerApplication.handle_znp", AP+":ControllerApplication.set_led"])
p("Nothing hangs",
  "If nothing new is called and the stick falls silent, every operation that was called ends: after a number of rounds bounded by the number of unfinished operations - each round letting the time limits pass and then giving every unfinished operation its turn - none is left, whatever cancellations, clean-ups and closing of the port happen meanwhile and in whatever order the turns come.",
  "every reachable state, semaphore size of at least 1, and every sequence of fair rounds",
  "Deadlocks between the semaphore, the request lock and the waiters depend on unbounded interleavings.",
  [A+":API.request_raw", A+":API._request_raw", A+":Waiter.wait", AP+":ControllerApplication.request", AP+":ControllerApplication.mrequest", AP+":ControllerApplication.broadcast"])
p("Success is reported only for an accepted message",
  "If a request, multicast or broadcast returns status 0, then it wrote the frame of exactly that message, and - if the command is one that the stick answers synchronously - while it held the link the stick's response to that command arrived, with status 0 or without a status.",
  "every reachable state and operation",
  "All interleavings of requests, answers, timeouts and cancellations.",
  [AP+":ControllerApplication.request", AP+":ControllerApplication.mrequest", AP+":ControllerApplication.broadcast", A+":API._request_raw"])
p("What a read with a bad message loses",
  "A read that consists of whole, checksummed, non-empty messages hands them over one by one up to and including the first that cannot be interpreted or is refused, raises that message's exception, and loses all messages behind it in the same read; the next read starts afresh. In any read that fails, whatever it contains, the bytes after the failing one have no influence.",
  "every list of reads, each any list of messages, every receiver, every byte sequence",
  "All message lists and read boundaries.",
  [U+":Gateway.data_received", U+":Parser.write"])
p("Which messages make receiving fail",
  "A message that cannot be decoded changes nothing and raises. A decoded one makes receiving fail exactly if an application is set, it is asynchronous, and it is either one of nine commands that can be read but not written again (exception from the re-encoding), or a permit-join message while the firmware version is not known yet (KeyError).",
  "every decodable message and every reachable state in which user-made waits name fields that exist and sequence numbers are bytes",
  "All messages of the table against all states.",
  [A+":API.data_received", AP+":ControllerApplication.handle_znp", B+":Buffalo.write_parameter", Z+":ZpiObject.to_unpi_frame"])
p("Everything handed to zigpy stems from a received message",
  "In every history, whatever the application hands to zigpy or does to the LED is preceded by a received message that calls for exactly this - an announcement, an incoming message of a device in the table, a reply, a permit-join message - with only this message's other consequences in between. A ZDO reply is passed on only under the non-zero sequence number of a request to that node for which it is the reply and which a caller made.",
  "every history of calls, received bytes, timeouts, cancellations and closings",
  "No test enumerates histories; spurious deliveries only show in the histories that cause them.",
  [AP+":ControllerApplication.handle_znp", A+":API.data_received", A+":API.create_response_waiter"])
p("The device table follows the announcements",
  "At any time the device table is the initial one brought up to date with the announcements received so far: a device has the short address of its last announcement if there was one and else its initial one; nothing else adds, changes or removes an entry, known devices keep their place and none is entered twice.",
  "every initial table and every history",
  "All histories.",
  [AP+":ControllerApplication.handle_znp"])
p("Receiving sends nothing; closing is final",
  "Receiving bytes writes nothing, takes or frees neither the link nor a slot, and changes no running operation; all it can start is an LED command. After close nothing is ever written by that API object.",
  "every state and every byte sequence; every continuation after close",
  "All states and byte sequences.",
  [A+":API.data_received", A+":API.close", A+":API._request_raw", AP+":ControllerApplication.handle_znp"])
p("An initialisation changes the stick in a fixed order",
  "The commands of a start that change the stick (reset, write, creation of an item) are a prefix of one fixed sequence: reset, startup option, reset, device type, key distribution, direct callbacks, channels, PAN id, extended PAN id, network key (and the trust centre key on Z-Stack 1.2), creation of the configured mark, the mark; after all of these the channels may be written once more. Each is sent only after the one before it was answered. A start that returns has sent nothing of it, or all of it, as its result says.",
  "every configuration, answer sequence, stored state and crash point",
  "All answer sequences and crash points.",
  [S+":initialise", S+":start_znp"])
p("A start-up program on the link",
  "While a start-up program runs on the API, whatever other operations, received bytes, timeouts, cancellations and closings happen meanwhile: what it does and sees is one of its runs; an answer it sees was received while the frame of exactly this request was outstanding and is the response to it; an indication it sees was received; each of its tasks writes only the frame of its own command, and only after everything the program did earlier has been answered or has failed.",
  "every program of requests, waits and background requests, every reachable state and every history",
  "All interleavings of a start-up with other traffic.",
  [S+":start_znp", A+":API.request", A+":API._request_raw", A+":API.wait_for", A+":Waiter.wait"])
p("The configured mark reaches the link last",
  "In the bytes on the link: when start-up writes the frame that stores the configured mark, the value stored is 0x55, and before this, for every requested setting, start-up wrote the frame that stores exactly its bytes, and the stick's response with status 0 was received while that frame was outstanding.",
  "every configuration, reachable state and history of a start on the link",
  "All interleavings and crash points, down to the bytes.",
  [S+":initialise", S+":start_znp", A+":API._request_raw", U+":UnpiFrame.to_buffer"])
p("A configured stick is left alone on the link",
  "If the stick has the requested configuration and answers reads with what it stores, then no frame that start-up puts on the link is a reset, a write or the creation of an item, and the stored configuration stays as it is.",
  "every configuration, reachable state and history of a start on the link",
  "All interleavings and crash points, down to the bytes.",
  [S+":needsToBeInitialised", S+":start_znp", A+":API._request_raw"])
p("Nothing hangs, whatever else goes on",
  "While new operations are called, bytes are received, operations are cancelled and the port is lost, every operation that was unfinished comes to an end after a number of rounds bounded by seven times the number of operations unfinished in the beginning or called meanwhile, if in each round the time limits pass and then every operation unfinished at its beginning gets its turn; and there is a moment in between when nothing is unfinished.",
  "every reachable state, semaphore size of at least 1, and every history made of such rounds",
  "Deadlocks and starvation depend on unbounded interleavings.",
  [A+":API.request_raw", A+":API._request_raw", A+":Waiter.wait", AP+":ControllerApplication.request", AP+":ControllerApplication.mrequest", AP+":ControllerApplication.broadcast"])
p("Start-up comes to an end",
  "Whatever the stick says or does not say and whatever other operations, cancellations and closings happen meanwhile, start_znp and the application's start-up (once the port is open) return or raise: after a number of rounds bounded in terms of the number of operations, if in each round the time limits pass and then every unfinished operation and start-up itself get their turn.",
  "every configuration, reachable state and history made of such rounds",
  "All interleavings of a start-up with other traffic.",
  [S+":start_znp", AP+":ControllerApplication.startup", A+":API.request", A+":API._request_raw", A+":Waiter.wait"])
p("When a frame of a stream is delivered",
  "At every moment of the reception of a stream of valid frames exactly the frames that have arrived are delivered, in order, each once: a frame with payload with its last byte, a frame without payload with the byte that follows it.",
  "every list of valid frames and every prefix of its bytes",
  "All prefixes of all streams.",
  [U+":Parser.write", U+":UnpiFrame.from_buffer"])
p("How the parser falls back into step",
  "Whatever bytes were received before, if in the frames that follow the start byte occurs only at frame starts, then the frames that are lost are the first ones, all of them begin within 259 bytes, at most one wrong outcome (a frame nobody sent, or an exception) is seen in their place, and from then on the frames are delivered as if the stream had begun there.",
  "every byte history and every list of valid frames without the start byte inside",
  "All histories against all streams.",
  [U+":Parser.write", U+":UnpiFrame.from_buffer", U+":Gateway.data_received"])
p("The first answer decides",
  "An operation that sends a synchronous request and ends otherwise than by a timeout, a cancellation or a refusal to send is decided by the first response to its command that is received between its write and its release of the link: it reports this response's status if that is unexpected, and else succeeds with this response. A reset is decided in the same way by the first reset announcement. Later responses received before the operation runs again change nothing.",
  "every history in which user-made waits name fields that the received messages have",
  "All interleavings of requests with answers, repeated and stale ones included.",
  [A+":API._request_raw", A+":API.data_received", A+":Waiter.set_result"])
p("Which request a reply goes to",
  "Of the requests that wait for the same kind of reply from the same node, oldest first, one reply completes all without a usable sequence number (none or 0) up to and including the first with one, is handed to zigpy once, under that number, and is dropped if there is none; all other waiting requests go on waiting. Several replies in a row are handed over under the numbers that this rule gives.",
  "every reachable state in which the node is known and those who wait for this reply name its node, every reply frame and every sequence of replies",
  "All sets of waiting requests.",
  [A+":API.data_received", A+":Waiter.match", AP+":ControllerApplication.handle_znp"])
p("Neighbour tables byte for byte",
  "A mgmtLqiRsp is accepted exactly if after address, status, total, start index and count n it has at least n entries of 22 bytes. What is handed to zigpy is the sequence number, status, total, start index, count and the n entries, in which only the top bit of the device-type byte and the upper six bits of the permit-join byte are cleared; what follows the entries is dropped.",
  "every frame, device table and sequence number",
  "All entry contents and counts.",
  [B+":Buffalo.read_neighbor_lqi", B+":Buffalo.write_neighbor_lqi", AP+":ControllerApplication.handle_znp"])
p("Outside profile 260 only address, cluster and data count",
  "For every profile other than 260 the object built for a message, and the exception if none can be built, depends on destination, cluster and data alone: not on the profile, the endpoints, the radius or the address mode; the sequence number is only carried along.",
  "every pair of profiles other than 260 and all other arguments",
  "All argument combinations.",
  [Z+":ZpiObject.from_cluster"])
p("Look-ups that await a reply end at once",
  "A request for cluster 0, 1 or 12 outside profile 260 that awaits a reply ends with an exception in its first step (KeyError if address and data are well formed), with nothing written, no waiter left, and the link and the slots untouched.",
  "every state and all arguments",
  "All states.",
  [A+":API.create_response_waiter", AP+":ControllerApplication.request"])
p("What an extended incoming message does",
  "Receiving a decodable incomingMsgExt completes the waits made for it and changes nothing else: nothing is handed to zigpy, no device is changed, nothing is written or started.",
  "every state and every such frame",
  "All states and frames.",
  [AP+":ControllerApplication.handle_znp", A+":API.data_received"])
p("Which application messages have a frame and how long it is",
  "A unicast of profile 260 has a frame exactly if its fields fit and it has at most 245 bytes of data, and its payload length is 10 more than that of the data, hence within the protocol limit of 250 exactly up to 240 bytes; for multicasts and broadcasts the limits are 235 and 230 bytes and the payload is 20 bytes longer than the data.",
  "all arguments",
  "All sizes and field values.",
  [Z+":ZpiObject.from_cluster", U+":UnpiFrame.to_buffer", U+":MaxDataSize"])
p("The bytes of an address look-up",
  "A NWK_addr_req or IEEE_addr_req built from a zigpy message puts on the link the short address of the node to be asked followed by the address asked for, in the fields meant for address, request type and start index; request type and start index of the message are dropped.",
  "all addresses, arguments and trailing bytes",
  "All arguments.",
  [Z+":ZpiObject.from_cluster", U+":UnpiFrame.to_buffer"])
p("Requests before the stick has told its version",
  "Until the stick's version is known no request is admitted or written. An operation that runs ends in that step with an exception: that of building its message, that of making its reply waiter, or AttributeError. At most its reply waiter is left behind.",
  "every history of the application, its API objects and their links before the first version answer",
  "All interleavings of start-up and requests.",
  [AP+":ControllerApplication.request", AP+":ControllerApplication.mrequest", AP+":ControllerApplication.broadcast", AP+":ControllerApplication.startup"])
p("Slots of every semaphore across reconnects",
  "At every moment of every history with any number of lost connections and start-ups, each semaphore object has as many slots as its stick's product, an operation is admitted only while fewer than that many have a slot of it, none is lost, and each semaphore object is made once.",
  "every history of the application with all its API objects, every moment of it",
  "All interleavings of requests with reconnects.",
  [AP+":ControllerApplication.startup", AP+":ControllerApplication.request", AP+":ControllerApplication.connection_lost", AP+":ControllerApplication.reconnect"])
p("Never too many requests at the stick in use",
  "However often the connection was lost and made again, at most as many requests as the product of the stick takes have a slot and are at the stick in use.",
  "every history of the application with all its API objects",
  "All interleavings of requests with reconnects.",
  [AP+":ControllerApplication.startup", AP+":ControllerApplication.request"])
p("Who can be too many at a new stick",
  "An operation that has a slot of an older semaphore object was called before the newer one was made; those called after the last version answer keep within the limit it gave.",
  "every history of the application with all its API objects",
  "All interleavings of requests with reconnects.",
  [AP+":ControllerApplication.startup", AP+":ControllerApplication.request"])
p("What one stick sends concerns one API object",
  "Bytes from one stick change no operation, slot, version or connection, write nothing, and tell only of effects and errors of that stick's API object; of the other API objects only the one in use changes, and only by LED commands called on it. An operation that runs touches only the API object in use.",
  "every state of the application with all its API objects, all bytes, every operation",
  "All states, with late bytes of closed connections.",
  [A+":API.data_received", AP+":ControllerApplication.handle_znp", AP+":ControllerApplication.request"])
p("Exclusive links across reconnects",
  "In each API object, whatever happened to it and to the others, at most one request holds the link, only the holder writes, and no second frame is written before the writer of the first has released the link; no request writes twice.",
  "every history of the application with all its API objects",
  "All interleavings of requests with reconnects.",
  [A+":API._request_raw", A+":API.request_raw", AP+":ControllerApplication.connection_lost"])
p("A closed link stays silent",
  "Once the link of an API object that start-up handed to the application is closed, nothing is ever written to it again. While the API object in use is closed no operation that runs writes anything anywhere, and one that finds a slot and the link free ends in its first step with an exception.",
  "every reachable state and every continuation",
  "All interleavings of requests with losses.",
  [A+":API.close", A+":API.connection_lost", A+":API._request_raw", AP+":ControllerApplication.request"])
p("What success means across reconnects",
  "An operation that reports success was admitted to an API object, which wrote the frame of its message; if that is synchronous, this API object received, between write and release, a response to its command whose status, if it has one, is 0.",
  "every history of the application with all its API objects",
  "All interleavings of requests with reconnects.",
  [AP+":ControllerApplication.request", A+":API._request_raw"])
p("Every operation is admitted and ends at most once",
  "Across reconnects operations are numbered in the order of their calls, each is admitted at most once and ends at most once, both after its call; it is not admitted after its end, and only to a semaphore object that was made before. What happened is never undone.",
  "every history of the application with all its API objects",
  "All interleavings of requests with reconnects.",
  [AP+":ControllerApplication.request", AP+":ControllerApplication.mrequest", AP+":ControllerApplication.broadcast"])
p("A refusal completes nobody else's waiter",
  "The refusal of a request removes no reply waiter but the one made for that request.",
  "every history of the application with all its API objects",
  "All interleavings of requests with reconnects.",
  [A+":API._request_raw", AP+":ControllerApplication.request"])
p("What a refusal does across reconnects",
  "When a synchronous request that was refused runs again, the number of its reply waiter is looked up in the API object the request was sent to, wherever that waiter was made: if registered there, that waiter is completed and the status reported; if not, KeyError is raised and no waiter changed; without a reply waiter the status is reported.",
  "every reachable state in which such a request has its refusal",
  "All interleavings of requests with reconnects.",
  [A+":API._request_raw", AP+":ControllerApplication.request"])
p("The device table across reconnects",
  "At every moment the short address that the application has for a device is the one told last: by an announcement the application handled or by start-up for the coordinator, and if there was none the one it began with. Every join stems from a device announcement that the named API object received, with these two addresses.",
  "every initial table and every history of the application with all its API objects",
  "All interleavings of announcements with reconnects.",
  [AP+":ControllerApplication.handle_znp", AP+":ControllerApplication.startup"])
p("Nothing hangs across lost connections",
  "In rounds in which at least T ms pass (30 s or more, and no less than any time limit given to wait_for) and then every unfinished operation and every unfinished coroutine of every API object, closed or open, gets its turn, whatever else happens meanwhile - new calls, received bytes, losses of the connection, reconnects - there is, after at most nine rounds per operation and seven per other request, a moment at which nothing is unfinished; so everything that was unfinished at the beginning has ended.",
  "every reachable state of the application with all its API objects, every such sequence of rounds",
  "All interleavings of requests with reconnects; liveness.",
  [AP+":ControllerApplication.request", AP+":ControllerApplication.reconnect", A+":API._request_raw", A+":API.wait_for"])
Q = "every network configuration and every history of the application whose start-ups make their requests themselves"
W = "All interleavings of several start-ups with requests, received bytes, losses of the connection and reconnects."
p("What a successful start-up did",
  "Every start-up that ends well, called by the user or by a reconnect loop, pinged, asked for the version and got a known product, formed the network if told to (all of start_znp, then at most one LED command) and last asked for the coordinator's addresses; the semaphore and the table entry it left are those of the answers. Whatever any start-up was answered was received on that link while its own request was outstanding there; whatever it awaited was received on that link.",
  Q, W, [AP+":ControllerApplication.startup", AP+":ControllerApplication.form_network", AP+":ControllerApplication.reconnect", S+":start_znp"])
p("Start-ups keep to their program across lost connections",
  "Whatever happens to the connections, and whoever else starts up meanwhile, the requests of a start-up and their order, and how it ends, are those of a run of the start-up program against some stick, except for the moment of the LED command and the message that ends a wait.",
  Q, W, [AP+":ControllerApplication.startup", AP+":ControllerApplication.form_network", S+":start_znp"])
p("What the application knows comes from the stick",
  "Every semaphore the application ever makes has 16 slots or 2 according to the product in an answer to a version request that was received while that request was outstanding; every entry for the coordinator is that of an answer to getDeviceInfo received so. The start-ups of a reconnect loop form the network if need be.",
  Q, W, [AP+":ControllerApplication.startup", AP+":ControllerApplication.reconnect"])
p("The configured mark comes last across lost connections",
  "Every frame with which a start-up writes the configured mark is preceded, on the same link, by frames of the same start-up that stored each of the settings, each acknowledged while outstanding; so no start-up marks a stick that lacks settings, whenever the connection is lost (a mark that was set before can remain over an interrupted initialisation: C50, C158).",
  Q, W, [S+":initialise", S+":start_znp", AP+":ControllerApplication.reconnect"])
p("Reconnecting to a configured stick changes nothing",
  "If the stick has the requested settings, or the network is not to be formed, no start-up of the application, over or under way, changes what is stored or puts a frame on any link that could (write, item init, reset). If a forming start-up ends well, the stick had the settings and is unchanged, or it has them afterwards.",
  Q + "; every stick that keeps what it is told to store", W, [S+":start_znp", AP+":ControllerApplication.form_network", AP+":ControllerApplication.reconnect"])
p("A start-up talks to one API object",
  "All requests of one start-up are made to one API object.",
  Q, W, [AP+":ControllerApplication.startup"])
p("To which API object a start-up talks",
  "Of one start-up, the ping, the version request, all requests of start_znp, the LED command and the address request are each made to one API object; each of these parts is made to the one that the application has at the moment at which the part begins.",
  Q, W, [AP+":ControllerApplication.startup", AP+":ControllerApplication.form_network", AP+":ControllerApplication.set_led"])
p("Start-up is not tried more than once in five seconds",
  "Between a reconnect loop's opening the port, or the failure of its start-up, and its next opening of the port at least five seconds pass.",
  Q, W, [AP+":ControllerApplication.reconnect"])
p("How the end of a start-up reaches its caller",
  "After a start-up that ends well, and after every start-up that the user calls, its coroutine ends with that outcome and tries no more. After a start-up of a reconnect loop that fails (but for cancellation) the loop next closes the application's API object, to try again.",
  Q, W, [AP+":ControllerApplication.startup", AP+":ControllerApplication.reconnect"])
p("Every frame has an author, and only forming start-ups change the stick",
  "Every frame on any link is a request of a start-up, the message of an operation the user called, or sets the LED. A frame that writes or creates a stored item or resets the stick is always that of a start-up that is to form the network; so whoever writes the configured mark, the same start-up had stored all settings on that link, each acknowledged.",
  Q, W, [AP+":ControllerApplication.startup", AP+":ControllerApplication.request", AP+":ControllerApplication.set_led", S+":initialise"])
p("No start-up hangs across lost connections",
  "In rounds in which at least T ms pass (T at least a minute, the longest time limit of a start-up), then every unfinished operation and every unfinished coroutine of every API object, closed or open, gets its turn, and so does every start-up, whatever else happens meanwhile - new calls, received bytes, losses of the connection, other start-ups -, every attempt at a start-up that makes its requests ends after a number of rounds bounded by 108 times one plus nine per operation and seven per request or wait, unfinished or new, whether or not anything answers.",
  "every valid network configuration, every reachable state of the application whose start-ups make their requests themselves, every such sequence of rounds", W + " Liveness.", [AP+":ControllerApplication.startup", AP+":ControllerApplication.reconnect", S+":start_znp", A+":API._request_raw", A+":API.wait_for"])
p("A reconnect loop tries again until it succeeds",
  "In rounds in which at least T ms pass (T at least a minute), then every unfinished operation, every unfinished coroutine of every API object and every coroutine that sleeps gets its turn, and every start-up gets its turn, whatever else happens meanwhile: a reconnect loop that has not ended opens the port again after a number of rounds bounded by two plus 108 times one plus nine per operation and seven per request or wait, unfinished or new; or it has ended, and then because a start-up succeeded or because it was cancelled.",
  "every valid network configuration, every reachable state of the application whose start-ups make their requests themselves, every such sequence of rounds, whether or not the port can be opened and anything answers", W + " Liveness.", [AP+":ControllerApplication.reconnect", AP+":ControllerApplication.startup", U+":connect"])
p("A start-up fails only for a reason",
  "A start-up fails only because of its last act: that request failed (and with the same exception; a refused ping with a general one), that wait failed (while the network is formed with a general exception, unless cancelled), the wait for the list of endpoints was ended by a message that is no such list, or the product that the stick reported is unknown. So a start-up all of whose requests were answered and whose waits ended with what was awaited, by a stick of a known product, succeeds: no answer lacks what is looked up in it, and no stored value makes it fail.",
  Q, W, [AP+":ControllerApplication.startup", S+":start_znp", S+":needsToBeInitialised", S+":initialise"])
p("A failure ends a start-up",
  "Any request or wait of a start-up that fails is the last thing this start-up does: no further request is made. The one exception is a refusal to read the configured mark right after ping and version, which is taken to mean that the stick is not configured.",
  Q, W, [AP+":ControllerApplication.startup", S+":start_znp", S+":needsToBeInitialised", S+":initialise"])
p("Whoever waits for the link waits only for those ahead",
  "In rounds in which at least T ms pass (T at least every time limit of the link and of the coroutine in question) and then everybody unfinished gets its turn, however many further calls are made and whatever is received meanwhile: whoever holds the link has ended after two rounds; whoever waits for the link after four and two for each one that waits ahead of it; an operation that was admitted after two and two for each one waiting; a request or wait of its own, which needs no slot, after three and two for each one that waits when its first round is over.",
  "every reachable state, every such sequence of rounds with any other events in between", W + " Liveness: no call made later can delay an exchange that is already waiting.", [A+":API._request_raw", A+":API.wait_for", AP+":ControllerApplication.request"])
p("Whoever waits for a link waits only for those ahead, also when connections are lost",
  "In rounds in which at least T ms pass (T at least 30 s and the time limit of the coroutine in question) and then every unfinished operation and coroutine gets its turn, however many operations are called, requests made, connections lost and API objects made meanwhile, on each API object, closed or open: whoever holds its link has ended after two rounds; whoever waits for it after four and two for each one that waits ahead; any other coroutine of it after three and two for each one that waits for this link when the first round is over; and an operation that has a slot and talks to it one round later.",
  "every reachable state of the application with all its API objects, every such sequence of rounds with any other events in between", W + " Liveness.", [A+":API._request_raw", A+":API.wait_for", AP+":ControllerApplication.request", AP+":ControllerApplication.reconnect"])
p("Start-ups end however much others do",
  "In rounds as in C134: if when a round begins never more than M wait for the same link, every attempt at a start-up that makes its requests ends within 108 times 4 + 2M rounds, however many operations are called, requests made, connections lost and other start-ups begun meanwhile, and whether or not anything answers.",
  "every valid network configuration, every reachable state of the application whose start-ups make their requests themselves, every such sequence of rounds, every M", W + " Liveness under an endless load.", [AP+":ControllerApplication.startup", AP+":ControllerApplication.reconnect", S+":start_znp", A+":API._request_raw", A+":API.wait_for"])
p("A reconnect loop tries again however much others do",
  "In rounds as in C135: if when a round begins never more than M wait for the same link, a reconnect loop that has not ended opens the port again within two plus 108 times 4 + 2M rounds, or has ended because a start-up succeeded or because it was cancelled, however much others do meanwhile.",
  "every valid network configuration, every reachable state of the application whose start-ups make their requests themselves, every such sequence of rounds, every M, whether or not the port can be opened and anything answers", W + " Liveness under an endless load.", [AP+":ControllerApplication.reconnect", AP+":ControllerApplication.startup", U+":connect"])
p("Why an operation raises",
  "An operation that sends something raises only for one of these reasons: it was cancelled; it cannot be put into a frame (and then with that exception); the port was closed (AttributeError); at some moment its frame had been out for the time limit (20 s for bdbStartCommissioning and startupFromApp, 6 s for other requests, 30 s for a reset) and no answer to it had been received since (TimeoutError); a response received while its frame was out has a status it does not expect (CommandError with that status, or KeyError if it also waits for a reply). A wait raises only because it was cancelled, or because at some moment it had lasted for its time limit and every message that answers it received since it began had been taken by the reply waiter of a request (TimeoutError).",
  "every sequence of events from a fresh API object in which no received message lacks a parameter that a wait compares, every operation and wait with a positive time limit", W + " An answer that arrived in time may be missed only in a rare interleaving.", [A+":API._request_raw", A+":API.wait_for", A+":API.request_raw", AP+":ControllerApplication.request"])
p("Why a start-up fails, down to the link, and when it succeeds",
  "A start-up that runs on the request machine together with anything else fails only because of its last act, and for one of these reasons: that request was cancelled; the port was closed; at some moment its frame had been out for the time limit and no answer had been received since; a response received while its frame was out has a status it does not expect; that wait was cancelled, or at some moment it had lasted for its time limit and every message of that kind had been taken by the reply waiter of a request; the product that the stick reported is unknown. So if none of these happens to any act of it and, in rounds as in C100, everybody gets their turn, it succeeds within that many rounds, whatever is stored in the stick and whatever else goes on.",
  "every valid network configuration, every sequence of events in which no received message lacks a parameter that a wait compares, before and during the start-up; for success every sequence of rounds", W + " Includes liveness.", [AP+":ControllerApplication.startup", S+":start_znp", A+":API._request_raw", A+":API.wait_for"])
p("Why a request, a wait or an operation raises, across losses of the connection",
  "Whatever happens to the application and all its API objects: a request of an API object raises only because it was cancelled, itself or together with the operation that awaited it; because it cannot be put into a frame; because its API object had no port when it ended (AttributeError); because at some moment its frame had been out for the time limit and that API object had received no answer to it since (TimeoutError); or because a response that this API object received while the frame was out has a status it does not expect (CommandError with that status, or KeyError if the operation also waits for a reply). A wait raises only because it was cancelled, or because at some moment it had lasted for its time limit and every message that answers it, received by its API object since it began, had been taken by the reply waiter of an operation (TimeoutError). An operation of the application raises only because it was cancelled; because it cannot be put into a frame; because there was no semaphore or no API object to use when it went on (AttributeError); or because the request it made raised that exception for one of these reasons, and a CommandError only if it is the permission to join.",
  "every sequence of events of the application with all its API objects, in which no received message lacks a parameter that a wait compares; every request, every wait with a positive time limit, every operation", W + " Losses of the connection and reconnects at any moment.", [A+":API._request_raw", A+":API.wait_for", A+":API.request_raw", AP+":ControllerApplication.request", AP+":ControllerApplication.connection_lost"])
p("Why a start-up fails across losses of the connection, and when it succeeds",
  "Whatever happens to the application, its API objects and its start-ups: an attempt at a start-up fails only because of its last act, and for one of these reasons: that request was cancelled; its API object had no port when it ended; at some moment its frame had been out for the time limit and that API object had received no answer since; a response that this API object received while the frame was out has a status it does not expect; that wait was cancelled; at some moment it had lasted for its time limit and every message of that kind had been taken by the reply waiter of an operation; it was ended by a message that refused an operation; the product that the stick reported is unknown. So an attempt none of whose acts meets with any of these succeeds, and in rounds as in C140 it does so within that many rounds, whatever else goes on.",
  "every valid network configuration, every sequence of events of the application whose start-ups make their requests themselves, in which no received message lacks a parameter that a wait compares; for success in time every sequence of rounds and every M", W + " Includes liveness, with losses of the connection and reconnects at any moment.", [AP+":ControllerApplication.startup", AP+":ControllerApplication.reconnect", S+":start_znp", A+":API._request_raw", A+":API.wait_for"])
p("What matches a waiter, and what an operation waits for",
  "A message matches a waiter if and only if type, subsystem and name are those asked for and every field asked for is there with an equal value (numbers with numbers, bytes with bytes, lists with lists); it does not match if the kind differs or, before a missing field is met, a value differs; otherwise the lookup raises KeyError. The waiter for the reply to a message that is sent: for a synchronous data request the confirmation with its transaction id; for a synchronous request whose name ends with Req and whose subsystem has a command with Rsp for each Req in that name, that command from the address it is sent to, with the number of the request; else none. It cannot be made (KeyError) exactly if the id or the address is missing or the subsystem has no commands.",
  "every waiter, every message, every number", "Field by field and name by name; the tests use single messages.", [A+":Waiter.match", A+":API.create_response_waiter"])
p("Whose each waiter is, what it waits for and for how long",
  "Every waiter that is registered was made by some call: by wait_for, for the message and the time it was given; by a synchronous request, for the synchronous response with the same subsystem and name, for 20 s if the command is bdbStartCommissioning or startupFromApp and else for 6 s; by a reset, for the announcement resetInd, for 30 s; or by a request or group message of the application, for the reply that C146 says, for 10 s. This also holds for the waiters of every API object across losses of the connection. Start-up itself waits, besides its requests, only for the list of endpoints (10 s) and for the announcement that the stick has become the coordinator (60 s).",
  "every reachable state of the request machine and of the application with all its API objects; every execution of start-up", W + " Which waiters are there depends on the interleaving.", [A+":API.wait_for", A+":API.create_response_waiter", A+":API._request_raw", S+":boot", S+":registerEndpoints"])
p("What the stick reads",
  "A stick that reads its serial line as TI's receiver does (start byte, length, two command bytes, data, checksum, one byte at a time) reads, after the byte that is written when the port is opened, exactly one message for every request that was written, in the order in which they were written, each with the type, subsystem, number and encoded parameters of that request, and is then ready for the next (besides the byte EF and these frames nothing is written); from any part of the bytes that has arrived so far it reads the first of these messages and nothing else. This holds on every link across losses of the connection. The message of a command carries, encoded as the command table says, the parameters the command was called with. The receiver is defined for any bytes: it skips noise before a frame and forgets a frame whose checksum is wrong.",
  "every reachable state of the request machine and of the application with all its API objects, every number of bytes that have arrived", "Depends on the whole history of the link; no test reads back what is written.", [U+":Gateway.send", U+":Gateway.write", U+":UnpiFrame.to_buffer", U+":connect", A+":API._request_raw"])
p("Forming the network by itself",
  "form_network called by a user of the application: before any start-up has learned the version it raises KeyError and sends nothing; the channel, PAN id and extended PAN id it is called with have no effect. After a start-up without forming it sends and sees what a start-up with forming would, but for the moment of the start-up's last request, and every successful start-up with forming is such a pair. On the link, whatever else goes on: a stick that already has the configured network is not changed, however the call ends; any other has the configured network, mark last, when the call returns. The call ends within 100 times the factor of C100 rounds; it raises only because its last act failed, for one of the reasons of C143; if the stick works as in C143 it succeeds.",
  "every version, arguments, valid network configuration; every execution; every reachable state of the request machine and every sequence of events or rounds during the call", W + " The tests do not call form_network on its own.", [AP+":ControllerApplication.form_network", AP+":ControllerApplication.startup", S+":start_znp"])
p("The device section of the configuration",
  "A device section is accepted exactly if it has a path that is \"auto\" or a non-empty name of something that exists, a baud rate that is an integer or no baud rate, a flow control that is \"hardware\", \"software\" or None or no flow control, and no other key; it then means that path, that baud rate (115200 if none, booleans count as 1 and 0) and that flow control (None if none), in whatever order the keys are written. The port is opened at that path, or at the only attached adapter if it is \"auto\", with that baud rate and exactly the flags of that flow control; if it cannot be chosen the path is \"auto\" and there is not exactly one adapter. Probing with a section that is not accepted raises and opens nothing; with \"auto\" and not exactly one adapter it returns False and leaves nothing open; otherwise the result depends on the stick alone.",
  "every section with distinct string keys, every file system, every list of attached ports", "The tests use one path and one baud rate, with a port that is mocked.", ["zigpy_cc/config.py:SCHEMA_DEVICE", U+":connect", U+":detect_port", A+":API.probe"])
p("Every course that the stick can bring about happens",
  "From any reachable state in which the port is open and no request, listener or half frame is left: take any sequence of requests, listeners and outcomes in which each answer is a message that a frame with a payload decodes to and that answers its request, each refusal comes from such an answer with an unexpected status, and everything else runs out of time or is cancelled. The start-up (likewise start_znp, likewise form_network) does exactly this on the link under some sequence of events if and only if the program on its own can, and it can end there in a given way if and only if the program on its own can. So what is possible for the program alone, refutations included, is not lost on the link.",
  "every configuration, version, option, limit of requests, reachable state at rest, sequence of acts", "Existence of an execution for every trace; tests show single ones.", [AP+":ControllerApplication.startup", AP+":ControllerApplication.form_network", S+":start_znp", A+":API._request_raw", A+":API.data_received", U+":Gateway.data_received"])
p("Everything a start-up says, byte by byte",
  "The frames that start_znp, form_network and the start-up of the application ask to send, in order and byte by byte, are: the marker is read; the marker, channel list, key-distribution flag, network key, PAN id and extended PAN id are read in this order, stopping anywhere, on Z-Stack 3 the PAN id possibly once more; possibly the initialisation (two soft resets, start-up option 2, coordinator, flag, direct call-backs, channels, PAN id, extended PAN id, the key and the forming of the network as the firmware wants it, the marker created and written); the device information; possibly the start-up command with delay 100; the request for the active endpoints; of the thirteen required endpoints some, each with its own profile, device, version, latency and clusters; the search for the group and possibly its addition, with endpoint 242; possibly the channel list again; for form_network then the light off, unless it is Z-Stack 3.x.0; for the start-up a ping and the version request before and the device information after it. If it returns it has sent a whole such sequence, else the beginning of one.",
  "every version, valid options, group and configuration, every execution and every end", W + " The tests look at single requests.", [S+":start_znp", S+":initialise", S+":registerEndpoints", S+":addToGroup", S+":boot", S+":needsToBeInitialised", S+":validate_item", S+":Endpoint.__init__", AP+":ControllerApplication.startup", AP+":ControllerApplication.form_network"]+["zigpy_cc/zigbee/nv_items.py:Items."+x for x in "znpHasConfiguredInit znpHasConfigured panID extendedPanID channelList networkKeyDistribute networkKey startupOption logicalType zdoDirectCb tcLinkKey".split()])
p("The turn of a start-up or reconnect loop that waits",
  "A start-up or reconnect loop that is cancelled while it waits (before it begins, asleep between two attempts, or while the port settles) ends at once with CancelledError, notes no attempt, changes no other coroutine, no link and no API object (so a port that was settling stays open), and stays ended whatever happens later. Not cancelled, its turn changes nothing before its time has come. After the sleep its turn is one attempt, noted with the time: if the port opens there is one more gateway, open, and the port has one second to settle; if not, there is no gateway more.",
  "every configuration, state, coroutine and result of the wait; for 'stays ended' every reachable state and every sequence of events", W + " The tests let no time pass and cancel nothing.", [AP+":ControllerApplication.reconnect", AP+":ControllerApplication.startup", A+":API.new", U+":connect"])
p("Traffic is handed to zigpy completely, once and in order",
  "Once the version is known and the application listens, what zigpy is handed (joins and messages) over a whole run is exactly what the messages received lead to, one after the other in the order of receipt: an announcement leads to one join and then one message to the device announced; an incoming message to one message, with its cluster, endpoints, link quality and data, to the first device that has its source address in the table as the announcements before it made it, and to nothing if there is none; a reply that is passed on to at most one message, under the number of a request of that kind to that address, and to none only if it was attributed to no request, the number is not a byte, or the address is unknown; every other message to nothing. Nothing is handed over that no message led to. If nothing was raised while receiving, the messages received are, in order, those that the frames in the bytes that arrived decode to, however the bytes were cut up. (wait_for listeners that compare a field which a message lacks are excluded: they raise.)",
  "every limit of requests, version, device table and sequence of events", "Depends on the whole history: every message received, in order, with the table as it was then; tests deliver single messages.", [AP+":ControllerApplication.handle_znp", A+":API.data_received", U+":Gateway.data_received", U+":Parser.write"])
p("Traffic across lost connections",
  "Take any moment at which the application listens to an API object and some start-up has learned the version, and whatever happens afterwards, connections lost and new API objects made included. What zigpy is handed from then on because of this API object (joins and messages) is exactly what the messages it receives lead to, one after the other, as in C154, each with the device table as everything before it made it: announcements that came over any API object and the coordinators that start-ups entered. A reply goes out under the number of a request that some operation of the application made, of that kind and to that address. The device table is the old one with those changes. As long as nothing is raised while receiving from it, the messages are those that the frames in the bytes that arrived at this API object decode to, beginning with the bytes already buffered. Before the application listens to an API object nothing is handed over because of it. (wait_for listeners that compare a field which a message lacks are excluded from the first claim: they raise.)",
  "every reachable state of the application with all its API objects, every API object, every sequence of events", "Depends on the whole history of several links; tests have one and deliver single messages.", [AP+":ControllerApplication.handle_znp", AP+":ControllerApplication.startup", A+":API.data_received", A+":API.set_application", U+":Gateway.data_received"])
p("Start-up can succeed from every stored state, and the known faults happen on the link",
  "From every reachable state in which the port is open and nothing else goes on, whatever the stick stores: some sequence of events lets the start-up succeed, every answer in it being a message that a frame decodes to and true of what is stored at that moment; it reports the product and the addresses the stick told, and if it was to form the network, the stick then stores what is required. On the link, likewise, each of the known faults happens: (a) a Z-Stack 1.2 stick with the mark and the common settings is accepted and left alone whatever network it stores (C51); (b) for every marked stick that does not store what is required there is an initialisation that has changed it, has not written the mark and stops, such that the next start from any state at rest resumes and changes nothing (C50); (c) a list of endpoints from any address is taken, and the endpoints in it are not registered (C54). The stored items are assumed to fit a frame and the stick not to be locked out in the sense of C157.",
  "every limit of requests, reachable state at rest, firmware, valid configuration, stored state, address and list", "Existence of an execution from each of infinitely many states; tests show single ones, with one stored state.", [AP+":ControllerApplication.startup", S+":start_znp", S+":needsToBeInitialised", S+":initialise", S+":registerEndpoints", A+":API._request_raw", A+":API.data_received"])
p("Stored states that lock start-up out",
  "Whatever a stick stores, a start-up that is to form the network can succeed on the link, from every reachable state in which nothing else goes on, exactly if the stick is not locked out. Locked out means: the mark is set, and of the channel list, key-distribution flag, network key, PAN id and extended PAN id, in this order, the first one that is not stored as requested is not stored at all. Then every start, from every state of the link and whatever else goes on, returns nothing and makes only requests that change nothing, so that every later start with these options fails too. (An item with other bytes leads to an initialisation instead, so a stick that is locked out for one configuration may not be for another.)",
  "every limit of requests, reachable state, firmware, valid configuration, stored state and sequence of events", "Needs a stick that lost one item and all executions on it; the tests have no such stick.", [S+":needsToBeInitialised", S+":validate_item", S+":start_znp", AP+":ControllerApplication.startup", AP+":ControllerApplication.form_network", A+":API._request_raw"])
p("The mark of a stick that only one configuration was applied to can be believed",
  "Call a stick honest if its mark, when set, means that the whole requested configuration is stored; every stick without the mark is. A start, a start-up of the application (with or without forming, on its own or on the link among whatever else goes on) leaves an honest stick honest, however it ends: completed, failed, or cut off anywhere, with its last write stored or not. So a stick that begins without the mark and serves any number of start-ups with one configuration, one after the other, across losses of the connection, is at every such moment either unmarked or holds the whole configuration; after every start-up that formed the network and ended well it holds the whole configuration, PAN id and extended PAN id included, on every firmware; and it is never locked out in the sense of C157. The faults of C50 and C51 therefore need a stick that was marked before the configuration was first applied to it.",
  "every valid configuration, firmware, execution, crash point and stored state; every number of start-ups in any reachable histories; a stick that keeps what it is told to store",
  "An invariant over unboundedly many start-ups, each cut off anywhere.",
  [S+":start_znp", S+":initialise", S+":needsToBeInitialised", AP+":ControllerApplication.startup", AP+":ControllerApplication.reconnect"])
p("How a stick comes to be locked out",
  "A start can leave a stick locked out (C157) that was not locked out before exactly if the stick is marked and not accepted, i.e. was set up before and is to be set up again: then, on the link, there is a sequence of events in which the start is cut off after a reset that lost the channel list and kept the mark. A start-up of the application can lock a stick out only if it is to form the network and the stick is marked and not accepted.",
  "every reachable state at rest, valid options, firmware and stored items that fit a frame; every execution and crash point; a stick whose resets may change any item but set no mark",
  "Existence of an execution from each of infinitely many states, and absence from all others.",
  [S+":start_znp", S+":initialise", S+":needsToBeInitialised", AP+":ControllerApplication.startup"])
p("Start-ups that overlap can lock a stick out",
  "C158 needs that start-ups are served one after the other: although the user called start-up only once, two reconnect loops can be forming the network over one link at the same time, one of them resetting the stick before the other writes the mark, so that the latter ends with success and yet leaves a stick, unmarked before, that is marked, lacks settings and is locked out (C157) if the connection is lost then.",
  "there is an execution of the application, with the frames on the links in that order, and a course of the stick's storage that fits them",
  "Needs two losses of the connection half a second before a time-out and a reset of one start-up between two writes of another.",
  [AP+":ControllerApplication.reconnect", AP+":ControllerApplication.startup", AP+":ControllerApplication.connection_lost", S+":initialise"])
p("Two reconnect loops can keep each other from reconnecting",
  "However many attempts one waits for, there is an execution with that many failed start-ups and no successful one in which the user calls start-up once, the connection is lost only twice, the port can be opened whenever it is tried, nobody is cancelled, and no stick ever has time to answer, because every link over which anything was sent is closed before any time passes: an attempt that fails closes the API object that the application uses now, which is the one that the other loop has just begun to use.",
  "every number of attempts; every configuration and device table",
  "Needs arbitrarily long executions with two loops whose time-outs of six seconds meet sleeps of five seconds and one.",
  [AP+":ControllerApplication.reconnect", AP+":ControllerApplication.startup", AP+":ControllerApplication.connection_lost", A+":API.close", U+":connect"])
p("Start-ups that come one after the other talk to one API object each",
  "If start-up is called, and a reconnect loop is started by a lost connection, only when all earlier start-ups and loops have ended, then at any time at most one of them is at work, everything that one attempt does, over or under way, it does to one API object, and while it makes its requests this is the API object that the application uses. (Without that, C129, C160 and C161 show what can happen.)",
  "every configuration, device table and execution in which start-ups and loops come one by one; every attempt",
  "Quantifies over all executions of several coroutines; tests start one application once.",
  [AP+":ControllerApplication.reconnect", AP+":ControllerApplication.startup", AP+":ControllerApplication.connection_lost"])
p("Start-ups that come one by one never lock a stick out",
  "If start-up is called, and a reconnect loop is started by a lost connection, only when all earlier start-ups and loops have ended (as in C162), then what they do happens attempt by attempt: all that the ended attempts did, in the order in which they ended, and then what the one under way did so far. Hence a stick that was not marked and serves all of this in the order in which it happened, the request under way included, has the whole configuration stored whenever it is marked, and is never locked out (C157).",
  "every valid configuration, device table, firmware, stored state without mark, and execution in which start-ups and loops come one by one; every crash point",
  "Quantifies over executions with any number of attempts and losses of the connection, and over what a stick stores on each of them.",
  [AP+":ControllerApplication.reconnect", AP+":ControllerApplication.startup", AP+":ControllerApplication.connection_lost", S+":start_znp", S+":initialise"])
p("Nobody closes the link of a start-up that is alone",
  "If start-up is called, and a reconnect loop is started by a lost connection, only when all earlier start-ups and loops have ended (as in C162), and the user does not shut the application down, then whenever an attempt makes its requests its API object is the one that the application uses, this has a port, and the port has not been closed. (In C161, where loops overlap, each attempt's link is closed before any answer can come.)",
  "every configuration, device table and execution in which start-ups and loops come one by one without a shutdown; every attempt under way",
  "Quantifies over all executions, with any number of failed attempts and lost connections.",
  [AP+":ControllerApplication.reconnect", AP+":ControllerApplication.startup", AP+":ControllerApplication.connection_lost", A+":API.close", U+":Gateway.close"])
p("A start-up that is alone never fails because its port was closed",
  "If start-up is called, and a reconnect loop is started by a lost connection, only when all earlier start-ups and loops have ended (as in C162), and the user does not shut the application down, then no attempt at a start-up ends with AttributeError, and none of its requests does: what an attempt fails of is one of the other reasons of C145 (cancelled, unanswered, refused, unknown product). As in C145, received messages have the fields that those who wait look for.",
  "every valid configuration, device table and execution in which start-ups and loops come one by one without a shutdown; every attempt that ended",
  "Quantifies over all executions, with any number of failed attempts and lost connections, and every point at which a port might be closed.",
  [AP+":ControllerApplication.reconnect", AP+":ControllerApplication.startup", AP+":ControllerApplication.connection_lost", A+":API.request_raw", A+":API.close"])
p("A start-up that is alone and is served succeeds",
  "If start-up is called, and a reconnect loop is started by a lost connection, only when all earlier start-ups and loops have ended (as in C162), and the user does not shut the application down, then every attempt at a start-up that ended succeeded if none of its requests was cancelled, stayed unanswered for the time limit or was refused, none of its waits was cancelled, lasted for its time limit in vain or was ended by the refusal of an operation, and the product that the stick reported is known. Unlike in C145, nothing need be assumed about ports. So if this holds of its attempts, a start-up that makes its requests succeeds within the rounds of C140. As in C145, received messages have the fields that those who wait look for.",
  "every valid configuration, device table and execution in which start-ups and loops come one by one without a shutdown; every attempt that ended",
  "Quantifies over all executions, with any number of failed attempts and lost connections.",
  [AP+":ControllerApplication.reconnect", AP+":ControllerApplication.startup", S+":start_znp", A+":API.request_raw"])
with open(os.path.join(os.path.dirname(os.path.abspath(__file__)), "..", "properties.jsonl"), "w") as f:
    for x in P: f.write(json.dumps(x) + "\n")
print(len(P))
