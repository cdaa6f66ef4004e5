{
 "claims": [
  {
   "property": "C01",
   "status": "proved",
   "theorems": [
    "C01_frame_round_trip"
   ],
   "note": ""
  },
  {
   "property": "C02",
   "status": "proved",
   "theorems": [
    "C02_delivered_was_received"
   ],
   "note": ""
  },
  {
   "property": "C03",
   "status": "proved",
   "theorems": [
    "C03_stream_delivered_once_in_order"
   ],
   "note": ""
  },
  {
   "property": "C04",
   "status": "proved",
   "theorems": [
    "C04_chunking_irrelevant",
    "C04_parser_chunking"
   ],
   "note": ""
  },
  {
   "property": "C05",
   "status": "proved",
   "theorems": [
    "C05_corruption_never_delivered"
   ],
   "note": ""
  },
  {
   "property": "C06",
   "status": "proved",
   "theorems": [
    "C06_noise_discarded",
    "C06_noise_between_frames"
   ],
   "note": ""
  },
  {
   "property": "C07",
   "status": "proved",
   "theorems": [
    "C07_buffer_bounded"
   ],
   "note": ""
  },
  {
   "property": "C08",
   "status": "proved",
   "theorems": [
    "C08_recovery_on_quiet_line"
   ],
   "note": ""
  },
  {
   "property": "C09",
   "status": "partial",
   "theorems": [
    "C09_bad_frame_isolated_refuted",
    "C09_bad_frame_isolated_partial"
   ],
   "note": "REFUTED: an uninterpretable frame makes Gateway.data_received raise, and every frame behind it in the same read is lost. Partial theorem: with one message per read the others all arrive."
  },
  {
   "property": "C10",
   "status": "partial",
   "theorems": [
    "C10_immediate_delivery_refuted",
    "C10_immediate_delivery_partial"
   ],
   "note": "REFUTED for empty payloads: the parser wants more than five bytes, so an empty frame is delivered with the byte after it. Partial theorem: immediate for non-empty payloads."
  },
  {
   "property": "C11",
   "status": "partial",
   "theorems": [
    "C11_outgoing_well_formed_partial",
    "C11_size_limit_refuted"
   ],
   "note": "Everything but the last clause is proved. REFUTED clause: the 250-byte limit (MaxDataSize) is never checked; 251..255 bytes are written. Exact behaviour: C109."
  },
  {
   "property": "C12",
   "status": "proved",
   "theorems": [
    "C12_encode_decode"
   ],
   "note": ""
  },
  {
   "property": "C13",
   "status": "proved",
   "theorems": [
    "C13_decode_encode",
    "C13_neighbor_entry"
   ],
   "note": ""
  },
  {
   "property": "C14",
   "status": "proved",
   "theorems": [
    "C14_truncation_raises"
   ],
   "note": ""
  },
  {
   "property": "C15",
   "status": "proved",
   "theorems": [
    "C15_trailing_bytes"
   ],
   "note": ""
  },
  {
   "property": "C16",
   "status": "proved",
   "theorems": [
    "C16_nothing_truncated",
    "C16_misfit_raises"
   ],
   "note": ""
  },
  {
   "property": "C17",
   "status": "proved",
   "theorems": [
    "C17_commands_unambiguous",
    "C17_commands_well_formed",
    "C17_decoder_fully_modelled"
   ],
   "note": ""
  },
  {
   "property": "C18",
   "status": "proved",
   "theorems": [
    "C18_wire_round_trip",
    "C18_incoming"
   ],
   "note": ""
  },
  {
   "property": "C19",
   "status": "partial",
   "theorems": [
    "C19_all_decodable_refuted",
    "C19_all_decodable_partial"
   ],
   "note": "REFUTED: nwkAddrRsp, ieeeAddrRsp, mgmtNwkDiscRsp, mgmtRtgRsp, mgmtBindRsp (and four requests, one response) never decode. Partial theorem: the exact list, everything else decodes."
  },
  {
   "property": "C20",
   "status": "proved",
   "theorems": [
    "C20_zdo_request",
    "C20_zdo_request_whole",
    "C20_bad_address",
    "C20_unknown_cluster",
    "C20_request_written"
   ],
   "note": ""
  },
  {
   "property": "C21",
   "status": "proved",
   "theorems": [
    "C21_zcl_unicast",
    "C21_request_written"
   ],
   "note": ""
  },
  {
   "property": "C22",
   "status": "proved",
   "theorems": [
    "C22_zcl_group",
    "C22_multicast_written",
    "C22_broadcast_written"
   ],
   "note": ""
  },
  {
   "property": "C23",
   "status": "partial",
   "theorems": [
    "C23_profiles_refuted",
    "C23_profiles_partial"
   ],
   "note": "REFUTED: every profile other than 260 (e.g. light link, green power) is translated as a ZDO command. Partial theorem: profile 260 goes out as AF. Exact behaviour: C106."
  },
  {
   "property": "C24",
   "status": "partial",
   "theorems": [
    "C24_data_confirmation_partial",
    "C24_zdo_reply_partial",
    "C24_no_reply_no_waiter_partial",
    "C24_creation_fails_refuted"
   ],
   "note": "REFUTED clause: creating the waiter raises KeyError for every nwkAddrReq, ieeeAddrReq and serverDiscReq. Partial theorems: exact matching for data requests and all requests with a destination; no waiter where no reply is defined. Exact behaviour: C107."
  },
  {
   "property": "C25",
   "status": "proved",
   "theorems": [
    "C25_waiter_ids_unique",
    "C25_completed_once",
    "C25_message_kept",
    "C25_completing_never_raises"
   ],
   "note": ""
  },
  {
   "property": "C26",
   "status": "partial",
   "theorems": [
    "C26_completes_exactly_the_answered_partial",
    "C26_zero_does_not_stop_refuted"
   ],
   "note": "REFUTED for sequence number 0: a waiter carrying 0 does not stop the search, so one reply completes several requests. Partial theorem (also C65): exact if 0 counts as no sequence number."
  },
  {
   "property": "C27",
   "status": "proved",
   "theorems": [
    "C27_nth_reply_nth_request",
    "C27_request_registers"
   ],
   "note": ""
  },
  {
   "property": "C28",
   "status": "partial",
   "theorems": [
    "C28_delivered_partial",
    "C28_zero_lost_refuted"
   ],
   "note": "REFUTED for sequence number 0 (falsy in Python): the request is accepted and its reply completes the waiter, but nothing is handed to the application. Partial theorem: delivered for 1..255. Exact behaviour: C104."
  },
  {
   "property": "C29",
   "status": "proved",
   "theorems": [
    "C29_timer_pending",
    "C29_no_leak"
   ],
   "note": ""
  },
  {
   "property": "C30",
   "status": "proved",
   "theorems": [
    "C30_cleanup_touches_own",
    "C30_why_removed"
   ],
   "note": ""
  },
  {
   "property": "C31",
   "status": "proved",
   "theorems": [
    "C31_one_holder",
    "C31_frames_do_not_interleave",
    "C31_released_when_finished"
   ],
   "note": ""
  },
  {
   "property": "C32",
   "status": "proved",
   "theorems": [
    "C32_released",
    "C32_first_come_first_served",
    "C32_next_is_granted",
    "C32_comes_free"
   ],
   "note": ""
  },
  {
   "property": "C33",
   "status": "proved",
   "theorems": [
    "C33_own_answer"
   ],
   "note": ""
  },
  {
   "property": "C34",
   "status": "partial",
   "theorems": [
    "C34_reported_partial",
    "C34_end_to_end_partial",
    "C34_keyerror_refuted"
   ],
   "note": "REFUTED: if the reply waiter was cleaned up while the request waited for the link, the caller gets a KeyError instead of the status. Partial theorems: reported whenever that waiter is still registered or none was created, also from the received bytes on. Exact behaviour: C70."
  },
  {
   "property": "C35",
   "status": "partial",
   "theorems": [
    "C35_same_command_only_partial",
    "C35_any_response_taken_refuted",
    "C35_late_answer_taken_refuted"
   ],
   "note": "REFUTED: the first response to the command completes whoever waits, even if it belongs to a request that timed out. Partial theorem: only responses to the same command are taken."
  },
  {
   "property": "C36",
   "status": "partial",
   "theorems": [
    "C36_admission_bounded_partial",
    "C36_slots_returned_partial",
    "C36_overtaken_refuted"
   ],
   "note": "REFUTED clause: admission order; a newcomer can take a slot before the longest waiter runs (asyncio.Semaphore up to Python 3.9). Everything else proved (also C66)."
  },
  {
   "property": "C37",
   "status": "proved",
   "theorems": [
    "C37_deadline",
    "C37_timeout",
    "C37_over_in_time"
   ],
   "note": ""
  },
  {
   "property": "C38",
   "status": "proved",
   "theorems": [
    "C38_reset_indication",
    "C38_reset_completes",
    "C38_other_asynchronous",
    "C38_not_a_request_writes_nothing",
    "C38_not_a_request_refused"
   ],
   "note": ""
  },
  {
   "property": "C39",
   "status": "proved",
   "theorems": [
    "C39_responses_and_requests_silent",
    "C39_ignored_silent"
   ],
   "note": ""
  },
  {
   "property": "C40",
   "status": "proved",
   "theorems": [
    "C40_incoming_delivered",
    "C40_unknown_sender_dropped",
    "C40_bytes_to_delivery"
   ],
   "note": ""
  },
  {
   "property": "C41",
   "status": "partial",
   "theorems": [
    "C41_reply_delivered_partial",
    "C41_reserved_bits_refuted",
    "C41_request_answered_partial"
   ],
   "note": "REFUTED for mgmtLqiRsp: the message is re-encoded first, which clears the reserved bits of each neighbour entry. Partial theorem: all other replies byte for byte, mgmtLqiRsp up to reserved bits. Exact behaviour: C105."
  },
  {
   "property": "C42",
   "status": "proved",
   "theorems": [
    "C42_announcement_joins",
    "C42_bytes_to_join"
   ],
   "note": ""
  },
  {
   "property": "C43",
   "status": "proved",
   "theorems": [
    "C43_unsolicited_dropped"
   ],
   "note": ""
  },
  {
   "property": "C44",
   "status": "partial",
   "theorems": [
    "C44_extended_dropped_refuted"
   ],
   "note": "REFUTED: every incomingMsgExt is dropped silently, since its 64-bit source is looked up as a short address. Exact behaviour: C108."
  },
  {
   "property": "C45",
   "status": "partial",
   "theorems": [
    "C45_status_comes_from_stick_partial",
    "C45_accepted_gives_zero_partial",
    "C45_refused_gives_status_partial",
    "C45_refusal_lost_refuted"
   ],
   "note": "REFUTED: a refusal after the reply waiter was cleaned up is reported as KeyError. Partial theorems: a reported status is the stick's; accepted gives 0; refused gives the status while the waiter is registered."
  },
  {
   "property": "C46",
   "status": "proved",
   "theorems": [
    "C46_refused_outside",
    "C46_exactly_one_broadcast"
   ],
   "note": ""
  },
  {
   "property": "C47",
   "status": "proved",
   "theorems": [
    "C47_configured_left_alone"
   ],
   "note": ""
  },
  {
   "property": "C48",
   "status": "proved",
   "theorems": [
    "C48_marker_last",
    "C48_created_unset"
   ],
   "note": ""
  },
  {
   "property": "C49",
   "status": "proved",
   "theorems": [
    "C49_interrupted_first_redone",
    "C49_redone_on_a_working_stick"
   ],
   "note": ""
  },
  {
   "property": "C50",
   "status": "partial",
   "theorems": [
    "C50_interrupted_reinit_redone_refuted",
    "C50_redone_unless_accepted_partial"
   ],
   "note": "REFUTED: once the items that start compares are written, an interrupted re-initialisation (e.g. before the new network is formed) is taken for complete and start resumes. Partial theorem: redone whenever a compared item still differs. It happens on the link from every such stored state: C156. It cannot happen to a stick that was unmarked when the configuration was first applied: C158."
  },
  {
   "property": "C51",
   "status": "partial",
   "theorems": [
    "C51_converges_refuted",
    "C51_converges_stack3_refuted",
    "C51_converges_partial"
   ],
   "note": "REFUTED clause: PAN id and extended PAN id of a marked Z-Stack 1.2 stick are never enforced, nor on Z-Stack 3 if FFFF is stored. Partial theorem: all other settings always, these after an initialisation, and the next start resumes without writing. Exact behaviour: C72. It happens on the link from every such stored state: C156. It cannot happen to a stick that was unmarked when the configuration was first applied: C158."
  },
  {
   "property": "C52",
   "status": "proved",
   "theorems": [
    "C52_items_well_formed"
   ],
   "note": ""
  },
  {
   "property": "C53",
   "status": "proved",
   "theorems": [
    "C53_result_truthful"
   ],
   "note": ""
  },
  {
   "property": "C54",
   "status": "partial",
   "theorems": [
    "C54_endpoints_registered_refuted",
    "C54_endpoints_registered_partial",
    "C54_counts_true_partial"
   ],
   "note": "REFUTED: the wait for the active endpoint list has no address, so the list of any other device is taken for the stick's own. Partial theorems: the claim if the list is the stick's; true cluster counts always. Exact behaviour: C74. It happens on the link from every such stored state: C156."
  },
  {
   "property": "C55",
   "status": "proved",
   "theorems": [
    "C55_group_joined"
   ],
   "note": ""
  },
  {
   "property": "C56",
   "status": "proved",
   "theorems": [
    "C56_coordinator_started",
    "C56_network_formed"
   ],
   "note": ""
  },
  {
   "property": "C57",
   "status": "proved",
   "theorems": [
    "C57_defaults",
    "C57_options_valid"
   ],
   "note": ""
  },
  {
   "property": "C58",
   "status": "partial",
   "theorems": [
    "C58_loss_refuted",
    "C58_loss_partial",
    "C58_closed_partial"
   ],
   "note": "REFUTED: a port lost in the first second after opening raises AttributeError (the API has no application yet) and no reconnect is started. Partial theorems: the claim for ports handed over to start-up; the second half always. Exact behaviour: C77."
  },
  {
   "property": "C59",
   "status": "partial",
   "theorems": [
    "C59_one_loop_refuted",
    "C59_one_port_refuted",
    "C59_no_pile_up_partial"
   ],
   "note": "REFUTED: a port lost while a reconnecting start-up makes its requests starts a second loop, and both may succeed, leaving two open ports. Partial theorem: never in calm histories. Exact conditions: C78."
  },
  {
   "property": "C60",
   "status": "proved",
   "theorems": [
    "C60_trace",
    "C60_closes_before_each_attempt",
    "C60_close_closes",
    "C60_retries_after_failure",
    "C60_waiting_tries",
    "C60_ends_on_success"
   ],
   "note": ""
  },
  {
   "property": "C61",
   "status": "proved",
   "theorems": [
    "C61_detects_unique",
    "C61_raises_otherwise",
    "C61_auto",
    "C61_explicit",
    "C61_flow"
   ],
   "note": ""
  },
  {
   "property": "C62",
   "status": "partial",
   "theorems": [
    "C62_closes_refuted",
    "C62_result_partial",
    "C62_closes_partial"
   ],
   "note": "REFUTED: if opening takes a second or more, the limit expires before the API knows the port, which stays open. Partial theorems: results always as claimed, closed whenever opening took less than a second. Exact behaviour: C79."
  },
  {
   "property": "C63",
   "status": "partial",
   "theorems": [
    "C63_resync_on_busy_line_refuted"
   ],
   "note": "REFUTED: a repeated valid frame whose payload looks like a frame start is misread for ever, with valid checksums."
  },
  {
   "property": "C64",
   "status": "partial",
   "theorems": [
    "C64_nwk_address_request_refuted",
    "C64_ieee_address_request_refuted",
    "C64_arguments_intact_partial"
   ],
   "note": "REFUTED for NWK_addr_req and IEEE_addr_req: the destination is inserted into the address field and all arguments are shifted. Partial theorem: all requests starting with a destination are intact. Exact behaviour: C110."
  },
  {
   "property": "C65",
   "status": "proved",
   "theorems": [
    "C65_completes_exactly_the_answered"
   ],
   "note": ""
  },
  {
   "property": "C66",
   "status": "proved",
   "theorems": [
    "C66_admission_bounded",
    "C66_slots_returned",
    "C66_admitted"
   ],
   "note": ""
  },
  {
   "property": "C67",
   "status": "proved",
   "theorems": [
    "C67_matching_never_raises"
   ],
   "note": ""
  },
  {
   "property": "C68",
   "status": "proved",
   "theorems": [
    "C68_written_at_once"
   ],
   "note": ""
  },
  {
   "property": "C69",
   "status": "proved",
   "theorems": [
    "C69_answer_returned"
   ],
   "note": ""
  },
  {
   "property": "C70",
   "status": "proved",
   "theorems": [
    "C70_refusal_reported",
    "C70_refusal_lost"
   ],
   "note": ""
  },
  {
   "property": "C71",
   "status": "proved",
   "theorems": [
    "C71_only_whole_frames_of_requests",
    "C71_command_written"
   ],
   "note": ""
  },
  {
   "property": "C72",
   "status": "proved",
   "theorems": [
    "C72_initialises_exactly_if_not_accepted"
   ],
   "note": ""
  },
  {
   "property": "C73",
   "status": "proved",
   "theorems": [
    "C73_answers_possible",
    "C73_indications_possible",
    "C73_startup_answered"
   ],
   "note": ""
  },
  {
   "property": "C74",
   "status": "proved",
   "theorems": [
    "C74_registered_against_the_list"
   ],
   "note": ""
  },
  {
   "property": "C75",
   "status": "proved",
   "theorems": [
    "C75_startup_encodable"
   ],
   "note": ""
  },
  {
   "property": "C76",
   "status": "proved",
   "theorems": [
    "C76_completes_on_a_working_stick",
    "C76_missing_item_fails"
   ],
   "note": ""
  },
  {
   "property": "C77",
   "status": "proved",
   "theorems": [
    "C77_reconnect_exactly",
    "C77_only_by_loss",
    "C77_once_per_port"
   ],
   "note": ""
  },
  {
   "property": "C78",
   "status": "proved",
   "theorems": [
    "C78_calm",
    "C78_nothing_open_before_try",
    "C78_start_twice",
    "C78_cancelled_attempt"
   ],
   "note": ""
  },
  {
   "property": "C79",
   "status": "proved",
   "theorems": [
    "C79_left_open"
   ],
   "note": ""
  },
  {
   "property": "C80",
   "status": "proved",
   "theorems": [
    "C80_shutdown_final",
    "C80_loop_survives",
    "C80_reopens"
   ],
   "note": ""
  },
  {
   "property": "C81",
   "status": "proved",
   "theorems": [
    "C81_ping_first",
    "C81_refused_ping_fails"
   ],
   "note": ""
  },
  {
   "property": "C82",
   "status": "proved",
   "theorems": [
    "C82_limit_by_product",
    "C82_unknown_product_refused",
    "C82_limit_of_the_machine"
   ],
   "note": ""
  },
  {
   "property": "C83",
   "status": "proved",
   "theorems": [
    "C83_forms_the_configured_network",
    "C83_stick_left_alone",
    "C83_without_forming"
   ],
   "note": ""
  },
  {
   "property": "C84",
   "status": "proved",
   "theorems": [
    "C84_coordinator_known",
    "C84_device_info_decoded",
    "C84_version_decoded"
   ],
   "note": ""
  },
  {
   "property": "C85",
   "status": "proved",
   "theorems": [
    "C85_led_off_after_forming",
    "C85_nothing_before_forming"
   ],
   "note": ""
  },
  {
   "property": "C86",
   "status": "proved",
   "theorems": [
    "C86_every_request_encodable",
    "C86_completes_on_a_working_stick"
   ],
   "note": ""
  },
  {
   "property": "C87",
   "status": "proved",
   "theorems": [
    "C87_led_follows_joining",
    "C87_led_command"
   ],
   "note": ""
  },
  {
   "property": "C88",
   "status": "proved",
   "theorems": [
    "C88_nothing_hangs",
    "C88_pending_is_unfinished"
   ],
   "note": ""
  },
  {
   "property": "C89",
   "status": "proved",
   "theorems": [
    "C89_success_means_accepted"
   ],
   "note": ""
  },
  {
   "property": "C90",
   "status": "proved",
   "theorems": [
    "C90_read",
    "C90_reads",
    "C90_rest_discarded"
   ],
   "note": ""
  },
  {
   "property": "C91",
   "status": "proved",
   "theorems": [
    "C91_which_messages_fail",
    "C91_undecodable"
   ],
   "note": ""
  },
  {
   "property": "C92",
   "status": "proved",
   "theorems": [
    "C92_effects_stem_from_messages"
   ],
   "note": ""
  },
  {
   "property": "C93",
   "status": "proved",
   "theorems": [
    "C93_device_table"
   ],
   "note": ""
  },
  {
   "property": "C94",
   "status": "proved",
   "theorems": [
    "C94_receiving_sends_nothing",
    "C94_closed_is_final"
   ],
   "note": ""
  },
  {
   "property": "C95",
   "status": "proved",
   "theorems": [
    "C95_order_of_changes"
   ],
   "note": ""
  },
  {
   "property": "C96",
   "status": "proved",
   "theorems": [
    "C96_program_on_the_link",
    "C96_one_after_the_other",
    "C96_own_frames"
   ],
   "note": ""
  },
  {
   "property": "C97",
   "status": "proved",
   "theorems": [
    "C97_marker_last_on_link"
   ],
   "note": ""
  },
  {
   "property": "C98",
   "status": "proved",
   "theorems": [
    "C98_configured_untouched_on_link"
   ],
   "note": ""
  },
  {
   "property": "C99",
   "status": "proved",
   "theorems": [
    "C99_nothing_hangs_meanwhile"
   ],
   "note": ""
  },
  {
   "property": "C100",
   "status": "proved",
   "theorems": [
    "C100_program_ends",
    "C100_start_ends",
    "C100_startup_ends"
   ],
   "note": ""
  },
  {
   "property": "C101",
   "status": "proved",
   "theorems": [
    "C101_delivered_on_arrival"
   ],
   "note": ""
  },
  {
   "property": "C102",
   "status": "proved",
   "theorems": [
    "C102_back_in_step"
   ],
   "note": ""
  },
  {
   "property": "C103",
   "status": "proved",
   "theorems": [
    "C103_first_answer_decides",
    "C103_first_announcement_decides"
   ],
   "note": ""
  },
  {
   "property": "C104",
   "status": "proved",
   "theorems": [
    "C104_reply_attribution",
    "C104_replies_in_a_row"
   ],
   "note": ""
  },
  {
   "property": "C105",
   "status": "proved",
   "theorems": [
    "C105_neighbour_table_accepted",
    "C105_neighbour_table_delivered"
   ],
   "note": ""
  },
  {
   "property": "C106",
   "status": "proved",
   "theorems": [
    "C106_profile_ignored"
   ],
   "note": ""
  },
  {
   "property": "C107",
   "status": "proved",
   "theorems": [
    "C107_lookup_fails_at_once"
   ],
   "note": ""
  },
  {
   "property": "C108",
   "status": "proved",
   "theorems": [
    "C108_extended_only_noted",
    "C108_waits_completed"
   ],
   "note": ""
  },
  {
   "property": "C109",
   "status": "proved",
   "theorems": [
    "C109_unicast_size",
    "C109_multicast_size",
    "C109_broadcast_size"
   ],
   "note": ""
  },
  {
   "property": "C110",
   "status": "proved",
   "theorems": [
    "C110_short_address_lookup",
    "C110_ieee_address_lookup"
   ],
   "note": ""
  },
  {
   "property": "C111",
   "status": "proved",
   "theorems": [
    "C111_before_the_version"
   ],
   "note": ""
  },
  {
   "property": "C112",
   "status": "proved",
   "theorems": [
    "C112_slots_at_every_moment",
    "C112_no_slot_twice",
    "C112_made_once",
    "C112_none_lost"
   ],
   "note": ""
  },
  {
   "property": "C113",
   "status": "partial",
   "theorems": [
    "C113_more_after_reconnect_refuted",
    "C113_per_semaphore_partial"
   ],
   "note": "REFUTED: each version answer makes a new semaphore; a request that waited on the old one is admitted to the new stick beside those of the new one (3 where 2 are allowed). Partial theorem: the limit holds per semaphore object, and all slots ever made bound the total. Exact behaviour: C114."
  },
  {
   "property": "C114",
   "status": "proved",
   "theorems": [
    "C114_latecomers_were_called_before",
    "C114_called_later_within_limit"
   ],
   "note": ""
  },
  {
   "property": "C115",
   "status": "proved",
   "theorems": [
    "C115_bytes_concern_one_api",
    "C115_operations_use_the_current_api"
   ],
   "note": ""
  },
  {
   "property": "C116",
   "status": "proved",
   "theorems": [
    "C116_one_holder",
    "C116_frames_do_not_interleave"
   ],
   "note": ""
  },
  {
   "property": "C117",
   "status": "proved",
   "theorems": [
    "C117_closed_for_good",
    "C117_no_writes_while_down",
    "C117_ends_while_down"
   ],
   "note": ""
  },
  {
   "property": "C118",
   "status": "proved",
   "theorems": [
    "C118_success_across_reconnects"
   ],
   "note": ""
  },
  {
   "property": "C119",
   "status": "proved",
   "theorems": [
    "C119_once",
    "C119_log_grows"
   ],
   "note": ""
  },
  {
   "property": "C120",
   "status": "partial",
   "theorems": [
    "C120_wrong_waiter_refuted",
    "C120_own_waiter_partial"
   ],
   "note": "REFUTED: after a reconnect a request keeps the number of a reply waiter of the old API object; its refusal completes the waiter with the same number in the new one, which belongs to another request, and that request's reply is then dropped. Partial theorem: true while the waiter was made by the API object the request was sent to, or there is none. Exact behaviour: C121."
  },
  {
   "property": "C121",
   "status": "proved",
   "theorems": [
    "C121_refusal_exact"
   ],
   "note": ""
  },
  {
   "property": "C122",
   "status": "proved",
   "theorems": [
    "C122_table_follows_the_log",
    "C122_joined_was_announced"
   ],
   "note": ""
  },
  {
   "property": "C123",
   "status": "proved",
   "theorems": [
    "C123_nothing_hangs"
   ],
   "note": ""
  },
  {
   "property": "C124",
   "status": "proved",
   "theorems": [
    "C124_successful_startup",
    "C124_told_over_the_link"
   ],
   "note": ""
  },
  {
   "property": "C125",
   "status": "proved",
   "theorems": [
    "C125_ended",
    "C125_under_way"
   ],
   "note": ""
  },
  {
   "property": "C126",
   "status": "proved",
   "theorems": [
    "C126_semaphores",
    "C126_coordinator",
    "C126_reconnect_forms"
   ],
   "note": ""
  },
  {
   "property": "C127",
   "status": "proved",
   "theorems": [
    "C127_marker_last"
   ],
   "note": ""
  },
  {
   "property": "C128",
   "status": "proved",
   "theorems": [
    "C128_left_alone",
    "C128_formed"
   ],
   "note": ""
  },
  {
   "property": "C129",
   "status": "partial",
   "theorems": [
    "C129_one_link_refuted",
    "C129_each_part_one_link_partial"
   ],
   "note": "REFUTED: each part evaluates self._api anew, so if another start-up has finished connecting meanwhile the first one pings one stick and asks another for its version. Partial theorem: each part is made to one API object. Exact behaviour: C130."
  },
  {
   "property": "C130",
   "status": "proved",
   "theorems": [
    "C130_parts",
    "C130_current"
   ],
   "note": ""
  },
  {
   "property": "C131",
   "status": "proved",
   "theorems": [
    "C131_five_seconds"
   ],
   "note": ""
  },
  {
   "property": "C132",
   "status": "proved",
   "theorems": [
    "C132_last_attempt",
    "C132_retried",
    "C132_always_retried",
    "C132_has_a_caller"
   ],
   "note": ""
  },
  {
   "property": "C133",
   "status": "proved",
   "theorems": [
    "C133_author",
    "C133_only_forming",
    "C133_marker_last"
   ],
   "note": ""
  },
  {
   "property": "C134",
   "status": "proved",
   "theorems": [
    "C134_startups_end"
   ],
   "note": ""
  },
  {
   "property": "C135",
   "status": "proved",
   "theorems": [
    "C135_reconnect_tries_again"
   ],
   "note": ""
  },
  {
   "property": "C136",
   "status": "proved",
   "theorems": [
    "C136_reason",
    "C136_succeeds"
   ],
   "note": ""
  },
  {
   "property": "C137",
   "status": "proved",
   "theorems": [
    "C137_failure_ends"
   ],
   "note": ""
  },
  {
   "property": "C138",
   "status": "proved",
   "theorems": [
    "C138_only_those_ahead"
   ],
   "note": ""
  },
  {
   "property": "C139",
   "status": "proved",
   "theorems": [
    "C139_only_those_ahead"
   ],
   "note": ""
  },
  {
   "property": "C140",
   "status": "proved",
   "theorems": [
    "C140_startups_end_soon"
   ],
   "note": ""
  },
  {
   "property": "C141",
   "status": "proved",
   "theorems": [
    "C141_reconnect_tries_soon"
   ],
   "note": ""
  },
  {
   "property": "C142",
   "status": "proved",
   "theorems": [
    "C142_operation_exceptions",
    "C142_wait_exceptions"
   ],
   "note": ""
  },
  {
   "property": "C143",
   "status": "proved",
   "theorems": [
    "C143_startup_fails_because",
    "C143_startup_succeeds"
   ],
   "note": ""
  },
  {
   "property": "C144",
   "status": "proved",
   "theorems": [
    "C144_request_exceptions",
    "C144_wait_exceptions",
    "C144_operation_exceptions"
   ],
   "note": ""
  },
  {
   "property": "C145",
   "status": "proved",
   "theorems": [
    "C145_startup_fails_because",
    "C145_there_is_a_history",
    "C145_served_succeeds",
    "C145_recovers"
   ],
   "note": ""
  },
  {
   "property": "C146",
   "status": "proved",
   "theorems": [
    "C146_matches",
    "C146_differs",
    "C146_raises",
    "C146_reply_waiter"
   ],
   "note": ""
  },
  {
   "property": "C147",
   "status": "proved",
   "theorems": [
    "C147_waiters",
    "C147_waiters_of_links",
    "C147_start_up"
   ],
   "note": ""
  },
  {
   "property": "C148",
   "status": "proved",
   "theorems": [
    "C148_stick_reads",
    "C148_on_every_link",
    "C148_bytes",
    "C148_so_far",
    "C148_commands",
    "C148_receiver"
   ],
   "note": ""
  },
  {
   "property": "C149",
   "status": "proved",
   "theorems": [
    "C149_before_the_version",
    "C149_arguments_ignored",
    "C149_after_a_start_up",
    "C149_start_up_taken_apart",
    "C149_forms_the_configured_network",
    "C149_left_alone",
    "C149_ends",
    "C149_fails_because",
    "C149_succeeds"
   ],
   "note": ""
  },
  {
   "property": "C150",
   "status": "proved",
   "theorems": [
    "C150_accepted",
    "C150_one_meaning",
    "C150_order",
    "C150_opened",
    "C150_not_opened",
    "C150_probe_raises",
    "C150_probe_chosen",
    "C150_probe_no_adapter"
   ],
   "note": ""
  },
  {
   "property": "C151",
   "status": "proved",
   "theorems": [
    "C151_startup_exact",
    "C151_start_exact",
    "C151_form_exact"
   ],
   "note": ""
  },
  {
   "property": "C152",
   "status": "proved",
   "theorems": [
    "C152_start_says",
    "C152_form_says",
    "C152_startup_says",
    "C152_one_reading"
   ],
   "note": ""
  },
  {
   "property": "C153",
   "status": "proved",
   "theorems": [
    "C153_cancelled",
    "C153_for_good",
    "C153_not_before",
    "C153_then"
   ],
   "note": ""
  },
  {
   "property": "C154",
   "status": "proved",
   "theorems": [
    "C154_all_in_order",
    "C154_stream"
   ],
   "note": ""
  },
  {
   "property": "C155",
   "status": "proved",
   "theorems": [
    "C155_all_in_order",
    "C155_nothing_before"
   ],
   "note": ""
  },
  {
   "property": "C156",
   "status": "proved",
   "theorems": [
    "C156_startup_can_succeed",
    "C156_other_network_accepted",
    "C156_interrupted_accepted",
    "C156_foreign_list_accepted"
   ],
   "note": ""
  },
  {
   "property": "C157",
   "status": "proved",
   "theorems": [
    "C157_succeeds_iff_not_locked_out",
    "C157_locked_out_for_ever",
    "C157_startup_locked_out_for_ever",
    "C157_locked_out_changes_nothing"
   ],
   "note": ""
  },
  {
   "property": "C158",
   "status": "proved",
   "theorems": [
    "C158_start_keeps_honest",
    "C158_startup_keeps_honest",
    "C158_on_the_link",
    "C158_always_honest",
    "C158_formed_completely",
    "C158_never_locked_out"
   ],
   "note": ""
  },
  {
   "property": "C159",
   "status": "proved",
   "theorems": [
    "C159_locks_out_exactly",
    "C159_startup_locks_out_only"
   ],
   "note": ""
  },
  {
   "property": "C160",
   "status": "proved",
   "theorems": [
    "C160_overlap_locks_out"
   ],
   "note": ""
  },
  {
   "property": "C161",
   "status": "proved",
   "theorems": [
    "C161_duel"
   ],
   "note": ""
  },
  {
   "property": "C162",
   "status": "proved",
   "theorems": [
    "C162_one_at_work",
    "C162_one_link",
    "C162_current"
   ],
   "note": ""
  },
  {
   "property": "C163",
   "status": "proved",
   "theorems": [
    "C163_attempt_by_attempt",
    "C163_honest",
    "C163_never_locked_out"
   ],
   "note": ""
  },
  {
   "property": "C164",
   "status": "proved",
   "theorems": [
    "C164_undisturbed"
   ],
   "note": ""
  },
  {
   "property": "C165",
   "status": "proved",
   "theorems": [
    "C165_never_shut_out"
   ],
   "note": ""
  },
  {
   "property": "C166",
   "status": "proved",
   "theorems": [
    "C166_answered_succeeds",
    "C166_recovers"
   ],
   "note": ""
  }
 ]
}