{
 "claims": [
  {
   "property": "C01",
   "status": "proved",
   "theorems": [
    "C01_request_round_trip",
    "C01_valid_is_protocol_range"
   ],
   "note": ""
  },
  {
   "property": "C02",
   "status": "proved",
   "theorems": [
    "C02_response_round_trip"
   ],
   "note": ""
  },
  {
   "property": "C03",
   "status": "proved",
   "theorems": [
    "C03_request_wire_format",
    "C03_function_codes"
   ],
   "note": ""
  },
  {
   "property": "C04",
   "status": "proved",
   "theorems": [
    "C04_response_wire_format"
   ],
   "note": ""
  },
  {
   "property": "C05",
   "status": "proved",
   "theorems": [
    "C05_request_parser_classification",
    "C05_request_pdu_injective"
   ],
   "note": ""
  },
  {
   "property": "C06",
   "status": "proved",
   "theorems": [
    "C06_response_parser_classification"
   ],
   "note": "the byte count of register responses is characterised as the code treats it (any even byte); see C07"
  },
  {
   "property": "C07",
   "status": "partial",
   "theorems": [
    "C07_register_byte_count_refuted",
    "C07_register_byte_count_partial"
   ],
   "note": "The full statement is false: the client only checks that the byte count is even (witness 03 FE 00 07 for one register). What holds is proved: amount of data exact, count even."
  },
  {
   "property": "C08",
   "status": "partial",
   "theorems": [
    "C08_write_echo_refuted",
    "C08_any_write_response_accepted"
   ],
   "note": "The full statement is false for all four write requests: the response parsers ignore the request. Proved: the result does not depend on the request at all."
  },
  {
   "property": "C09",
   "status": "proved",
   "theorems": [
    "C09_parsers_total"
   ],
   "note": ""
  },
  {
   "property": "C10",
   "status": "proved",
   "theorems": [
    "C10_message_length"
   ],
   "note": ""
  },
  {
   "property": "C11",
   "status": "partial",
   "theorems": [
    "C11_exception_codes_refuted",
    "C11_exception_codes_partial"
   ],
   "note": "False for MemoryParityError (sent as 7, read back as Unknown); proved for every other type."
  },
  {
   "property": "C12",
   "status": "proved",
   "theorems": [
    "C12_frames_round_trip"
   ],
   "note": ""
  },
  {
   "property": "C13",
   "status": "proved",
   "theorems": [
    "C13_chunking_independence",
    "C13_framing_unambiguous"
   ],
   "note": ""
  },
  {
   "property": "C14",
   "status": "partial",
   "theorems": [
    "C14_overlong_refuted",
    "C14_overlong_partial",
    "C14_overlong_truncate_partial"
   ],
   "note": "The full statement is false: an over-long frame is delivered with 253 bytes instead of being skipped, and with an all-or-nothing copy the data depends on chunking. Proved: exactly the announced bytes are consumed and all other frames are delivered intact."
  },
  {
   "property": "C15",
   "status": "proved",
   "theorems": [
    "C15_receiver_safety",
    "C15_buffer_size"
   ],
   "note": ""
  },
  {
   "property": "C16",
   "status": "partial",
   "theorems": [
    "C16_prompt_delivery_refuted",
    "C16_prompt_delivery_partial",
    "C16_empty_pdu_always_late"
   ],
   "note": "False for a frame with an empty PDU, proved for every other frame."
  },
  {
   "property": "C17",
   "status": "proved",
   "theorems": [
    "C17_mixed_stream"
   ],
   "note": ""
  },
  {
   "property": "C18",
   "status": "proved",
   "theorems": [
    "C18_reset_forgets",
    "C18_overlong_leaks_refuted"
   ],
   "note": "stated for streams without over-long frames after the reset; the exclusion is shown necessary"
  },
  {
   "property": "C19",
   "status": "proved",
   "theorems": [
    "C19_table_is_partial_map"
   ],
   "note": "all operation sequences on any of the four tables from empty"
  },
  {
   "property": "C20",
   "status": "proved",
   "theorems": [
    "C20_range_valid_iff",
    "C20_get_values",
    "C20_every_db_holds"
   ],
   "note": "every reachable database, every start and count"
  },
  {
   "property": "C21",
   "status": "proved",
   "theorems": [
    "C21_set_values_all_or_nothing"
   ],
   "note": ""
  },
  {
   "property": "C22",
   "status": "proved",
   "theorems": [
    "C22_no_invalid_iterator"
   ],
   "note": "iterator dereference/advance past end is the outcome UB; also shows the range loop terminates"
  },
  {
   "property": "C23",
   "status": "proved",
   "theorems": [
    "C23_in_memory_data_model"
   ],
   "note": "every sequence of add_*, requests and transactions refines the four-table specification, which is deterministic"
  },
  {
   "property": "C24",
   "status": "proved",
   "theorems": [
    "C24_linearizable",
    "C24_mutual_exclusion",
    "C24_no_deadlock"
   ],
   "note": "interleaving semantics at the granularity of single std::map operations; std::mutex assumed"
  },
  {
   "property": "C25",
   "status": "proved",
   "theorems": [
    "C25_one_answer_matching_ids"
   ],
   "note": "All histories, arbitrary sessions (which may call the API reentrantly)."
  },
  {
   "property": "C26",
   "status": "proved",
   "theorems": [
    "C26_decision_table_total",
    "C26_frames_are_served"
   ],
   "note": "The table is total and single-valued; in every state a frame is handled as it says. Bit-level padding of coil values in requests is ignored, as in the protocol. Exception codes sent for a session's own exception are the enum values (see C11 for the deviation of code 7)."
  },
  {
   "property": "C27",
   "status": "proved",
   "theorems": [
    "C27_stream_served_in_order",
    "C27_pipeline"
   ],
   "note": "Any interleaving with other connections and API calls; any chunking; both copy policies."
  },
  {
   "property": "C28",
   "status": "partial",
   "theorems": [
    "C28_add_session_replaces_refuted",
    "C28_first_session_kept",
    "C28_add_session_registers"
   ],
   "note": "Refuted: add_session uses insert, so the first session stays, contrary to IServerChannel.h. Proved: the first session keeps the unit until shutdown."
  },
  {
   "property": "C29",
   "status": "partial",
   "theorems": [
    "C29_silence_after_shutdown",
    "C29_shutdown_takes_effect",
    "C29_registered_sessions_shut_down",
    "C29_once_per_session_refuted"
   ],
   "note": "Silence and the set of sessions shut down are proved for all histories. Exactly once holds per unit identifier; one object registered for two units is shut down twice (refuted literally)."
  },
  {
   "property": "C30",
   "status": "partial",
   "theorems": [
    "C30_only_written_bytes_refuted",
    "C30_only_written_bytes_partial",
    "C30_frame_size"
   ],
   "note": "Refuted: more than 125 registers leave the last of 260 bytes unwritten. Proved when sessions do not return that; frame size and length field always consistent."
  },
  {
   "property": "C32",
   "status": "proved",
   "theorems": [
    "C32_one_request_on_wire"
   ],
   "note": "All histories, arbitrary reentrant handlers."
  },
  {
   "property": "C33",
   "status": "proved",
   "theorems": [
    "C33_calls_are_numbered",
    "C33_first_in_first_out",
    "C33_no_overtaking",
    "C33_frames_are_the_requests"
   ],
   "note": "Order on the wire, no overtaking, and the bytes sent for a call are the frame of the request given to it."
  },
  {
   "property": "C34",
   "status": "proved",
   "theorems": [
    "C34_completed_at_most_once"
   ],
   "note": ""
  },
  {
   "property": "C35",
   "status": "proved",
   "theorems": [
    "C35_completed_exactly_once",
    "C35_never_stuck",
    "C35_no_undefined_behaviour"
   ],
   "note": "Handlers that do not shut the channel down; timers may expire in any order and at any time."
  },
  {
   "property": "C36",
   "status": "proved",
   "theorems": [
    "C36_responses_reach_their_request",
    "C36_no_late_response",
    "C36_other_frames_ignored",
    "C36_response_reported"
   ],
   "note": "All byte streams, chunkings and interleavings. The frame may share its chunk with the response that released the request (its bytes were then received earlier in the same chunk)."
  },
  {
   "property": "C37",
   "status": "proved",
   "theorems": [
    "C37_transaction_id_counts_valid_requests",
    "C37_transaction_ids_distinct",
    "C37_transaction_ids_distinct_calls"
   ],
   "note": ""
  },
  {
   "property": "C38",
   "status": "proved",
   "theorems": [
    "C38_error_fails_everything"
   ],
   "note": "Requests whose posted closure has not run when the error is processed are not concerned; they are sent later (C35)."
  },
  {
   "property": "C39",
   "status": "proved",
   "theorems": [
    "C39_invalid_never_sent",
    "C39_valid_never_malformed",
    "C39_others_unaffected"
   ],
   "note": "Exactly once by C34 and C35."
  },
  {
   "property": "C40",
   "status": "partial",
   "theorems": [
    "C40_every_request_told_refuted",
    "C40_shutdown_loses_requests",
    "C40_every_request_told_partial"
   ],
   "note": "Refuted: shutdown drops outstanding and queued requests, and later calls, without calling their handlers. Proved: shutdown is the only way to lose a request."
  },
  {
   "property": "C41",
   "status": "proved",
   "theorems": [
    "C41_silent_after_shutdown",
    "C41_shutdown_takes_effect"
   ],
   "note": "Invalid requests posted before are still rejected; nothing else is reported."
  },
  {
   "property": "C42",
   "status": "partial",
   "theorems": [
    "C42_own_timer_refuted",
    "C42_own_timer_partial",
    "C42_some_timer_partial"
   ],
   "note": "Refuted: a timer that expired before the response was processed fails the next request. Proved when timer actions run as soon as the timer expires."
  },
  {
   "property": "C47",
   "status": "partial",
   "theorems": [
    "C47_one_outstanding_refuted",
    "C47_one_outstanding_started_once_partial",
    "C47_one_outstanding_orderly_partial",
    "C47_outstanding_bounded"
   ],
   "note": "Refuted: stop and start while a request is waiting begins a second polling loop. Proved for schedules started once, for restarts that find every request answered, and as a bound by the number of starts in every history."
  },
  {
   "property": "C48",
   "status": "partial",
   "theorems": [
    "C48_stopped_silent_refuted",
    "C48_stopped_silent_prompt_refuted",
    "C48_stopped_silent_partial",
    "C48_stopping_ends_polling"
   ],
   "note": "Refuted twice: the timer action does not check m_running, and a second loop's timer is not cancelled. Proved without these two causes; in every history the stray requests are at most as many as the starts."
  },
  {
   "property": "C49",
   "status": "proved",
   "theorems": [
    "C49_getters",
    "C49_start_sends",
    "C49_response_starts_timer",
    "C49_timer_after_response",
    "C49_request_after_timer",
    "C49_timer_fires_once",
    "C49_always_active",
    "C49_start_idempotent",
    "C49_starts_separated",
    "C49_calls_take_effect",
    "C49_handler_calls",
    "C49_api_calls"
   ],
   "note": "All histories, arbitrary reentrant response handlers."
  },
  {
   "property": "C52",
   "status": "proved",
   "theorems": [
    "C52_transaction_text",
    "C52_unit_text",
    "C52_digits",
    "C52_transaction_injective",
    "C52_unit_injective",
    "C52_any_stream_refuted",
    "C52_later_output_unaffected_refuted",
    "C52_decimal_before",
    "C52_showbase",
    "C52_increments",
    "C52_increment_many",
    "C52_comparison",
    "C52_hash"
   ],
   "note": "For streams with default alignment, width and base prefix; on a left-aligned stream the texts collide (refuted), and the stream stays in hexadecimal afterwards (refuted)."
  },
  {
   "property": "C53",
   "status": "proved",
   "theorems": [
    "C53_messages_injective"
   ],
   "note": ""
  },
  {
   "property": "C54",
   "status": "partial",
   "theorems": [
    "C54_either_value_or_exception",
    "C54_has_exception",
    "C54_get_exception",
    "C54_exact_class",
    "C54_library_errors",
    "C54_slicing_detected_refuted",
    "C54_slicing_detected_partial",
    "C54_copies",
    "C54_pointer"
   ],
   "note": "The accessors are proved for all classes. Slicing detection is refuted for the library's exceptions: IException has no virtual function, so typeid sees the static class."
  },
  {
   "property": "C50",
   "status": "partial",
   "theorems": [
    "C50_limit",
    "C50_oldest_dropped",
    "C50_no_other_removal",
    "C50_dropped_are_closed",
    "C50_defined",
    "C50_number_partial",
    "C50_number_refuted",
    "C50_number_after_shutdown_refuted",
    "C50_limit_started_twice_refuted",
    "C50_oldest_started_twice_refuted",
    "C50_defined_refuted"
   ],
   "note": "Limit and oldest-first proved for every history of a server started once; refuted for one started twice (two accept loops, even undefined behaviour). The reported number is refuted after an accept error (wraps to 4294967295) and after shutdown, proved otherwise."
  },
  {
   "property": "C51",
   "status": "partial",
   "theorems": [
    "C51_accepting_partial",
    "C51_no_more_accepts_than_loops",
    "C51_accepting_refuted",
    "C51_deaf_after_accept_errors"
   ],
   "note": "Refuted: one accept error ends the accept loop for good. Proved: otherwise an accept is always pending or posted."
  },
  {
   "property": "C55",
   "status": "partial",
   "theorems": [
    "C55_shutdown_closes_all",
    "C55_nothing_accepted_after",
    "C55_started_twice_refuted"
   ],
   "note": "Proved for a server started once, all histories. Started twice, a connection evicted while being accepted survives (refuted)."
  },
  {
   "property": "C43",
   "status": "partial",
   "theorems": [
    "C43_lost_connection_refuted",
    "C43_connections_separated_partial",
    "C43_fresh_decoding_partial"
   ],
   "note": "Refuted: a graceful close by the peer does not reset the parser, so a response cut by it swallows the beginning of the next connection's first response. Proved when connections end by errors: the parser is reset between connections and each is decoded from scratch."
  },
  {
   "property": "C44",
   "status": "partial",
   "theorems": [
    "C44_resolve_failure_refuted",
    "C44_bind_failure_refuted",
    "C44_request_in_window_refuted",
    "C44_reconnects_partial"
   ],
   "note": "Refuted: after a name resolution or bind failure the connection stays in the state connecting forever; a request between a connect error and the posted close is lost. Proved for all other failures in every history."
  },
  {
   "property": "C45",
   "status": "partial",
   "theorems": [
    "C45_client_refuted",
    "C45_server_refuted",
    "C45_client_partial",
    "C45_server_partial"
   ],
   "note": "Refuted: one buffer member is replaced by each send, on both sides. Proved when a frame is sent only after the previous write has completed."
  },
  {
   "property": "C46",
   "status": "partial",
   "theorems": [
    "C46_complete_transmission_refuted",
    "C46_client_prefix_partial",
    "C46_server_prefix_partial",
    "C46_client_whole_partial",
    "C46_server_whole_partial"
   ],
   "note": "Refuted: async_send may transfer part of the buffer and the rest is dropped. Proved: what is taken is a prefix, and the whole frame on transports that take whole buffers."
  },
  {
   "property": "C56",
   "status": "partial",
   "theorems": [
    "C56_reported_once_refuted",
    "C56_echo_refuted",
    "C56_failures_bounded_partial"
   ],
   "note": "Refuted: the aborted read of a connection whose write failed is reported again, and fails the next attempt. Proved: reports never exceed attempts plus failed writes."
  },
  {
   "property": "C57",
   "status": "proved",
   "theorems": [
    "C57_shutdown_silent",
    "C57_server_silent"
   ],
   "note": "A server connection repeats its deregistration, nothing else."
  },
  {
   "property": "C58",
   "status": "proved",
   "theorems": [
    "C58_waiting_request_sent"
   ],
   "note": "A write of the previous connection must not complete successfully in between; otherwise it takes the buffer (see C45)."
  },
  {
   "property": "C59",
   "status": "proved",
   "theorems": [
    "C59_failure_closes",
    "C59_silent_after_close",
    "C59_closed_takes_nothing",
    "C59_late_events"
   ],
   "note": "start() is called at most once, first."
  },
  {
   "property": "C31",
   "status": "proved",
   "theorems": [
    "C31_end_to_end",
    "C31_single_request",
    "C31_all_answered",
    "C31_all_completed",
    "C31_outcomes",
    "C31_no_undefined_behaviour"
   ],
   "note": "The network is an in-order transport per connection that reports breaks by an error; where the connection classes fall short of that is C43-C46. Responses are matched correctly as long as no timer fires or at most 65536 requests were made (C110 shows that this is needed)."
  },
  {
   "property": "C60",
   "status": "partial",
   "theorems": [
    "C60_response_validity_refuted",
    "C60_answers_are_valid",
    "C60_response_validity_partial"
   ],
   "note": "Refuted: the four read responses are always valid, whatever they contain. Proved: every answer to a legal request is valid; a valid write response is the answer to a legal request."
  },
  {
   "property": "C61",
   "status": "partial",
   "theorems": [
    "C61_session_shutdown_partial",
    "C61_session_shutdown_refuted"
   ],
   "note": "Refuted for later shutdowns: a request started again after the first shutdown of its session is not stopped by another one, because the session forgot it. Proved for the first shutdown after scheduling."
  },
  {
   "property": "C62",
   "status": "partial",
   "theorems": [
    "C62_polling_goes_on_partial",
    "C62_polling_goes_on_refuted"
   ],
   "note": "Proved as long as the channel is not shut down; a request scheduled after that runs for ever without ever being answered."
  },
  {
   "property": "C63",
   "status": "proved",
   "theorems": [
    "C63_at_most_once",
    "C63_told",
    "C63_completed",
    "C63_exactly_once"
   ],
   "note": ""
  },
  {
   "property": "C64",
   "status": "proved",
   "theorems": [
    "C64_one_time",
    "C64_scheduled",
    "C64_nothing_else"
   ],
   "note": ""
  },
  {
   "property": "C65",
   "status": "partial",
   "theorems": [
    "C65_cancels_refuted",
    "C65_no_more_requests_refuted",
    "C65_channel_untouched",
    "C65_channel_untouched_later"
   ],
   "note": "Refuted: pending requests are not cancelled, their handlers still get the responses, and requests through a shut down session are sent. The shutdown never touches the channel."
  },
  {
   "property": "C66",
   "status": "partial",
   "theorems": [
    "C66_closes_sessions",
    "C66_stops_scheduled_partial",
    "C66_stops_scheduled_refuted"
   ],
   "note": "All the sessions are shut down, and what was scheduled before stops; requests scheduled later through an existing session are accepted and run."
  },
  {
   "property": "C67",
   "status": "proved",
   "theorems": [
    "C67_no_undefined_behaviour",
    "C67_channel",
    "C67_scheduled",
    "C67_requests",
    "C67_requests_once",
    "C67_answers",
    "C67_answered"
   ],
   "note": ""
  },
  {
   "property": "C68",
   "status": "proved",
   "theorems": [
    "C68_channel",
    "C68_connection",
    "C68_wiring",
    "C68_events"
   ],
   "note": ""
  },
  {
   "property": "C69",
   "status": "proved",
   "theorems": [
    "C69_latest",
    "C69_order",
    "C69_frames"
   ],
   "note": ""
  },
  {
   "property": "C70",
   "status": "partial",
   "theorems": [
    "C70_completed_transmitted_refuted",
    "C70_transmission_begins_partial"
   ],
   "note": "Refuted by a time-out while the connection is being made. Apart from the transmission made when a connection is established, only requests that are not completed are transmitted."
  },
  {
   "property": "C71",
   "status": "partial",
   "theorems": [
    "C71_undefined_refuted",
    "C71_source_partial",
    "C71_settled_partial"
   ],
   "note": "Refuted by a time-out while a frame is being written, which frees the buffer the transport reads. Nothing else is undefined, and nothing is when frames are sent only after earlier ones have been written."
  },
  {
   "property": "C72",
   "status": "partial",
   "theorems": [
    "C72_closed_by_peer_refuted",
    "C72_failure_partial"
   ],
   "note": "Refuted by a connection closed by its peer, which is not reported. Proved for every failure to resolve, connect, read or write."
  },
  {
   "property": "C73",
   "status": "proved",
   "theorems": [
    "C73_exactly_once"
   ],
   "note": ""
  },
  {
   "property": "C74",
   "status": "proved",
   "theorems": [
    "C74_silent"
   ],
   "note": ""
  },
  {
   "property": "C75",
   "status": "partial",
   "theorems": [
    "C75_socket_refuted",
    "C75_socket_partial"
   ],
   "note": "Refuted: the socket stays open until the object is destroyed. It is never used again."
  },
  {
   "property": "C76",
   "status": "partial",
   "theorems": [
    "C76_response_refuted",
    "C76_response_partial"
   ],
   "note": "Refuted by a peer that closes the connection within a response. Proved if no peer closes its connection gracefully and reads of old connections have ended before new ones are set up."
  },
  {
   "property": "C77",
   "status": "partial",
   "theorems": [
    "C77_retry_refuted",
    "C77_retry_partial"
   ],
   "note": "Refuted by a failure to resolve the name, after which nothing ever connects. Proved for all other failures when nothing else was going on."
  },
  {
   "property": "C78",
   "status": "proved",
   "theorems": [
    "C78_working_network"
   ],
   "note": ""
  },
  {
   "property": "C79",
   "status": "proved",
   "theorems": [
    "C79_always_reading"
   ],
   "note": "start() is called once, first."
  },
  {
   "property": "C80",
   "status": "proved",
   "theorems": [
    "C80_parts",
    "C80_wiring"
   ],
   "note": "Every history of the whole projects to histories of channel, acceptor and connections; nothing else is passed between them."
  },
  {
   "property": "C81",
   "status": "partial",
   "theorems": [
    "C81_truncated_refuted",
    "C81_responses_partial",
    "C81_wire_partial"
   ],
   "note": "Refuted: a partially transferred response is reported as sent. Proved: the writes begun on a connection are its responses in order, all of them while the socket is open, and what the transport takes is a prefix of the answer to a request of the same connection."
  },
  {
   "property": "C82",
   "status": "proved",
   "theorems": [
    "C82_stream"
   ],
   "note": ""
  },
  {
   "property": "C83",
   "status": "proved",
   "theorems": [
    "C83_isolated"
   ],
   "note": ""
  },
  {
   "property": "C84",
   "status": "partial",
   "theorems": [
    "C84_acceptor_refuted",
    "C84_connection_refuted",
    "C84_shutdown_partial",
    "C84_acceptor_partial"
   ],
   "note": "Refuted for a channel never started (acceptor stays open) and for one started twice (a connection survives). Proved for channels started at most once, resp. at least once."
  },
  {
   "property": "C85",
   "status": "partial",
   "theorems": [
    "C85_undefined_refuted",
    "C85_causes_partial",
    "C85_defined_partial"
   ],
   "note": "Refuted: two requests in one chunk. Proved: there are only two causes, and none if the channel is started once and responses are written before the next is sent."
  },
  {
   "property": "C86",
   "status": "proved",
   "theorems": [
    "C86_failed"
   ],
   "note": ""
  },
  {
   "property": "C87",
   "status": "partial",
   "theorems": [
    "C87_limit_refuted",
    "C87_limit_partial",
    "C87_starts_partial"
   ],
   "note": "Refuted if start is called twice. Proved if the acceptor is started at most once, which holds if the application starts it once and sessions do not."
  },
  {
   "property": "C88",
   "status": "proved",
   "theorems": [
    "C88_conversation"
   ],
   "note": ""
  },
  {
   "property": "C89",
   "status": "proved",
   "theorems": [
    "C89_drains"
   ],
   "note": ""
  },
  {
   "property": "C90",
   "status": "proved",
   "theorems": [
    "C90_handlers_take_effect",
    "C90_shutdown_asked",
    "C90_stop_asked"
   ],
   "note": "per step: handlers run in turn on the state the previous one left, and the API calls seen are exactly theirs plus the library's own; nothing is shut down that nobody asked to shut down"
  },
  {
   "property": "C91",
   "status": "proved",
   "theorems": [
    "C91_told",
    "C91_order",
    "C91_within",
    "C91_threads"
   ],
   "note": ""
  },
  {
   "property": "C92",
   "status": "proved",
   "theorems": [
    "C92_alone",
    "C92_isolated"
   ],
   "note": "Handlers of each channel have a state of their own; what they do to other channels is among the events of those."
  },
  {
   "property": "C93",
   "status": "partial",
   "theorems": [
    "C93_ended_refuted",
    "C93_created_refuted",
    "C93_clients_partial",
    "C93_servers_partial"
   ],
   "note": "Refuted: shutdown only posts and does not join, so handlers are called after it returned; a channel being created meanwhile stays alive. Proved: silence when the posted closures have run."
  },
  {
   "property": "C94",
   "status": "partial",
   "theorems": [
    "C94_equality",
    "C94_query",
    "C94_port_refuted",
    "C94_port_partial"
   ],
   "note": "Refuted: the server truncates the port to 16 bits. Proved for ports below 65536."
  },
  {
   "property": "C95",
   "status": "partial",
   "theorems": [
    "C95_levels",
    "C95_null",
    "C95_custom",
    "C95_other_levels",
    "C95_names",
    "C95_session_refuted",
    "C95_session_partial"
   ],
   "note": "Refuted for the logger of sessions, which is cloned without the level. Proved for channels, connections and servers."
  },
  {
   "property": "C96",
   "status": "proved",
   "theorems": [
    "C96_over_the_network",
    "C96_only_requested",
    "C96_at_most_once",
    "C96_only_answered"
   ],
   "note": "For histories in which frames are taken whole on the client's connections, its attempts to connect do not overlap, and nothing is received on one of its connections after its failure; others may do anything. C97 and C110 show that each condition is needed."
  },
  {
   "property": "C97",
   "status": "partial",
   "theorems": [
    "C97_short_transfers_refuted",
    "C97_two_attempts_refuted",
    "C97_late_response_refuted",
    "C97_late_request_refuted"
   ],
   "note": "Refuted: partial sends, overlapping attempts and reads completing after a failed write make the server execute requests nobody made, or one twice, or the client report a response nobody gave. C96 is what holds."
  },
  {
   "property": "C98",
   "status": "proved",
   "theorems": [
    "C98_client_side",
    "C98_server_side",
    "C98_undefined",
    "C98_defined"
   ],
   "note": "Every history of the whole restricts to histories of the TCP client and the TCP server; the causes of undefined behaviour are enumerated and excluded under conditions on overlapping writes and repeated starts."
  },
  {
   "property": "C99",
   "status": "partial",
   "theorems": [
    "C99_completed_partial",
    "C99_answered_partial",
    "C99_outcomes",
    "C99_late_completion_refuted"
   ],
   "note": "Refuted when a write completes successfully after its connection was closed: the request that waits for the next connection is discarded. Proved for orderly histories in which write completions are not that late."
  },
  {
   "property": "C100",
   "status": "partial",
   "theorems": [
    "C100_freed_partial",
    "C100_freed_iff",
    "C100_reachable_partial",
    "C100_freed_refuted",
    "C100_kept",
    "C100_held",
    "C100_listed",
    "C100_holding",
    "C100_holding_back",
    "C100_handler_session",
    "C100_handler_scheduled",
    "C100_scheduled_session",
    "C100_in_flight"
   ],
   "note": "Refuted when a request is scheduled after the shutdown: it and its session keep each other, the channel and the connection. Proved (as an equivalence) for the histories in which no request is scheduled on a session that was not shut down since."
  },
  {
   "property": "C101",
   "status": "partial",
   "theorems": [
    "C101_thread_safe_partial",
    "C101_races",
    "C101_races_happen",
    "C101_thread_safe_refuted",
    "C101_database_refuted"
   ],
   "note": "Refuted: create_session, sending, start, add_session, is_running and get_frequency race with closures on the strand. The list of races is proved complete and each of them to happen, and there are none when each channel is used by one thread, until it shuts it down."
  },
  {
   "property": "C102",
   "status": "partial",
   "theorems": [
    "C102_atomic_partial",
    "C102_exclusive",
    "C102_no_deadlock_partial",
    "C102_strands",
    "C102_no_deadlock_refuted"
   ],
   "note": "Refuted: a transaction that adds a value to its own database waits for ever. Proved when transactions call no function that locks a mutex; atomicity when values are only accessed in transactions."
  },
  {
   "property": "C103",
   "status": "partial",
   "theorems": [
    "C103_safe_partial",
    "C103_end",
    "C103_safe_refuted",
    "C103_initial",
    "C103_hundred",
    "C103_listens",
    "C103_quit",
    "C103_flip",
    "C103_other_command",
    "C103_served",
    "C103_unit_one",
    "C103_unit_two",
    "C103_other_units"
   ],
   "note": "Refuted at the end of the input, where an uninitialised character is used; proved for inputs that do not end."
  },
  {
   "property": "C104",
   "status": "proved",
   "theorems": [
    "C104_meant"
   ],
   "note": "the running flag and the frequency are the fold of the calls, once nothing is posted"
  },
  {
   "property": "C105",
   "status": "partial",
   "theorems": [
    "C105_safe_partial",
    "C105_end",
    "C105_safe_refuted",
    "C105_quit",
    "C105_startup",
    "C105_nothing_else",
    "C105_requests",
    "C105_calls",
    "C105_frames",
    "C105_lines",
    "C105_all_answered",
    "C105_no_shutdown",
    "C105_toggle_partial",
    "C105_toggle_refuted",
    "C105_frequency",
    "C105_with_example_server"
   ],
   "note": "Refuted at the end of the input, where an uninitialised character is used, and for 's' typed again before the first was executed; otherwise proved"
  },
  {
   "property": "C106",
   "status": "partial",
   "theorems": [
    "C106_held",
    "C106_connection",
    "C106_listener",
    "C106_end",
    "C106_sessions",
    "C106_left_partial",
    "C106_begins_partial",
    "C106_fails_partial",
    "C106_ends_partial",
    "C106_closed_refuted"
   ],
   "note": "what exists and why is exact; after shutdown everything is released once aborted operations have completed, if the channel was started at most once; refuted otherwise, where a connection with an open socket remains"
  },
  {
   "property": "C107",
   "status": "proved",
   "theorems": [
    "C107_channel",
    "C107_acceptor"
   ],
   "note": ""
  },
  {
   "property": "C108",
   "status": "partial",
   "theorems": [
    "C108_completed_in_time_partial",
    "C108_alone_in_time_partial",
    "C108_own_timeout_refuted",
    "C108_not_too_early_partial",
    "C108_not_too_early_refuted",
    "C108_time_goes_on",
    "C108_times_erased"
   ],
   "note": "The bound includes the timeouts of the requests that wait before; within its own timeout alone a request is not always completed (refuted). Not too early: proved when timer actions run as soon as the timer expires, refuted otherwise."
  },
  {
   "property": "C109",
   "status": "partial",
   "theorems": [
    "C109_client_ends",
    "C109_client_fair",
    "C109_server_ends_partial",
    "C109_server_ends_refuted"
   ],
   "note": "for server channels: if started at most once; refuted for one that was started twice"
  },
  {
   "property": "C110",
   "status": "partial",
   "theorems": [
    "C110_late_answer_partial",
    "C110_late_answer_refuted",
    "C110_over_the_network_refuted"
   ],
   "note": "holds if no request times out or at most 65536 are made; refuted otherwise"
  },
  {
   "property": "C111",
   "status": "partial",
   "theorems": [
    "C111_end_to_end",
    "C111_answered_partial",
    "C111_answered_refuted",
    "C111_sessions",
    "C111_network",
    "C111_undefined",
    "C111_defined"
   ],
   "note": "answered_partial: provided that no write completes after the end of its connection, otherwise refuted"
  },
  {
   "property": "C112",
   "status": "partial",
   "theorems": [
    "C112_in_order_partial",
    "C112_in_order_refuted",
    "C112_answered_first",
    "C112_reads_own_writes",
    "C112_numbered"
   ],
   "note": "in_order_partial: as long as no timeout expires and no connection fails, otherwise refuted; requests that are answered take effect before all later ones in any case"
  },
  {
   "property": "C113",
   "status": "proved",
   "theorems": [
    "C113_sessions_end",
    "C113_sessions_end_fairly"
   ],
   "note": "events of the client only, between any of network and server; executors run every posted closure once"
  },
  {
   "property": "C114",
   "status": "partial",
   "theorems": [
    "C114_told_in_time_partial",
    "C114_polled_in_time_partial",
    "C114_first_request",
    "C114_next_request",
    "C114_request_not_early",
    "C114_polling_period_partial",
    "C114_frequency_refuted",
    "C114_requests_spaced_partial",
    "C114_requests_spaced_refuted",
    "C114_methods_in_time",
    "C114_time_goes_on",
    "C114_times_erased"
   ],
   "note": "The bounds include the timeouts of the requests that wait before (C108). The interval between requests is not the frequency (refuted), it is counted from the response; that requests are spaced by it needs that the scheduled request is started once (otherwise refuted)."
  },
  {
   "property": "C115",
   "status": "partial",
   "theorems": [
    "C115_manager_ends_partial",
    "C115_manager_ends_refuted"
   ],
   "note": "Restricted to server channels that were started at most once and fewer than 2^32-1 connections (C109); with two starts the destructor may wait for ever (refuted)."
  },
  {
   "property": "C116",
   "status": "partial",
   "theorems": [
    "C116_text_iff_malformed",
    "C116_text_says_what_is_wrong",
    "C116_wording_refuted"
   ],
   "note": "Which text is given is characterised for all responses; the wording of one of them is wrong for some (refuted)."
  },
  {
   "property": "C117",
   "status": "partial",
   "theorems": [
    "C117_client_unchanged",
    "C117_server_unchanged",
    "C117_client_log",
    "C117_client_accounts",
    "C117_client_events",
    "C117_client_silent",
    "C117_failures_refuted",
    "C117_failures_partial",
    "C117_server_warns",
    "C117_warning_unique",
    "C117_server_receive",
    "C117_server_events",
    "C117_server_silent",
    "C117_unanswered_refuted",
    "C117_warnings_written",
    "C117_server_warnings_written"
   ],
   "note": "Failures other than of invalid requests are logged (otherwise refuted); a request that a session answers with an error that is no Modbus exception is not logged (refuted)."
  },
  {
   "property": "C118",
   "status": "partial",
   "theorems": [
    "C118_client_unchanged",
    "C118_server_unchanged",
    "C118_client_log",
    "C118_server_log",
    "C118_errors_reported_refuted",
    "C118_errors_reported_partial",
    "C118_server_errors_reported",
    "C118_client_no_errors",
    "C118_server_no_errors_refuted",
    "C118_closings_refuted",
    "C118_closings_partial",
    "C118_one_at_a_time_refuted",
    "C118_end_logged_refuted",
    "C118_client_lines_caused",
    "C118_server_lines_caused",
    "C118_client_silent",
    "C118_server_silent",
    "C118_errors_written"
   ],
   "note": "The server logs the end of a connection by its client as an error (refuted for the server, proved for the client); that only established connections are said to be closed, one after the other, is refuted."
  },
  {
   "property": "C119",
   "status": "proved",
   "theorems": [
    "C119_bytes",
    "C119_in_kind",
    "C119_frames",
    "C119_all_bytes",
    "C119_consultations",
    "C119_wire",
    "C119_wire_in_kind"
   ],
   "note": "All sessions, all histories; the bounds are reached by the examples."
  },
  {
   "property": "C120",
   "status": "proved",
   "theorems": [
    "C120_alone",
    "C120_database",
    "C120_units"
   ],
   "note": "All sessions and histories. The examples show that a client that writes is noticed."
  },
  {
   "property": "C121",
   "status": "partial",
   "theorems": [
    "C121_pieces_refuted",
    "C121_pieces_partial",
    "C121_postponed_partial"
   ],
   "note": "Refuted for over-long frames if copies that do not fit copy nothing; proved otherwise."
  },
  {
   "property": "C122",
   "status": "partial",
   "theorems": [
    "C122_pieces_refuted",
    "C122_pieces_partial",
    "C122_postponed_refuted",
    "C122_postponed_partial"
   ],
   "note": "As for the server. A byte after a frame with an empty PDU is noticed (refuted), since the frame is delivered only then."
  },
  {
   "property": "C123",
   "status": "partial",
   "theorems": [
    "C123_strays_refuted",
    "C123_strays_partial"
   ],
   "note": "Refuted after an answer with an empty PDU, which is only delivered with the next byte; proved if that is not the case, and without over-long frames or if copies that do not fit copy what fits."
  },
  {
   "property": "C124",
   "status": "partial",
   "theorems": [
    "C124_nobody_refuted",
    "C124_nobody_partial"
   ],
   "note": "Refuted if copies that do not fit copy nothing and an over-long frame follows; proved otherwise."
  },
  {
   "property": "C125",
   "status": "partial",
   "theorems": [
    "C125_again",
    "C125_later_refuted",
    "C125_later_partial",
    "C125_frame",
    "C125_database"
   ],
   "note": "Proved when the request is repeated at once, for reads, and when nothing was changed where it writes; otherwise refuted. For frames: in full, at frame boundaries."
  },
  {
   "property": "C126",
   "status": "proved",
   "theorems": [
    "C126_any_order",
    "C126_dependent_refuted"
   ],
   "note": "For pairwise independent requests; a counterexample shows that independence is needed."
  },
  {
   "property": "C127",
   "status": "partial",
   "theorems": [
    "C127_client_text",
    "C127_server_text",
    "C127_connection_text",
    "C127_server_connection_text",
    "C127_told_refuted",
    "C127_client_told_partial",
    "C127_client_words_told_partial",
    "C127_client_accounts",
    "C127_server_told",
    "C127_connection_told",
    "C127_server_connection_told"
   ],
   "note": "Refuted for timeouts, of which only the milliseconds are printed; proved for everything else that a line says."
  },
  {
   "property": "C128",
   "status": "proved",
   "theorems": [
    "C128_database",
    "C128_unique",
    "C128_told"
   ],
   "note": "In full for the database; end to end in orderly histories (as C111). Transactions may write what they contain."
  },
  {
   "property": "C129",
   "status": "proved",
   "theorems": [
    "C129_one",
    "C129_owner",
    "C129_none",
    "C129_kept",
    "C129_tcp"
   ],
   "note": "At most one timer of a channel is armed; it belongs to the request sent last, which is not completed, and there is none after completion of all requests or shutdown. A request that is waited for keeps its timer until its action is to run."
  },
  {
   "property": "C130",
   "status": "partial",
   "theorems": [
    "C130_one_read_refuted",
    "C130_connection_partial",
    "C130_client_partial"
   ],
   "note": "Refuted: the handler of a read that succeeded on a socket that was closed and replaced before the handler ran begins a second read of the new socket into the same buffer. Proved when handlers of successful connects and reads run before their socket is closed."
  },
  {
   "property": "C131",
   "status": "partial",
   "theorems": [
    "C131_one_attempt_refuted",
    "C131_connection_partial",
    "C131_separated_partial",
    "C131_client_partial"
   ],
   "note": "Refuted by one failed write: the aborted read posts a second closing, which ends the attempt that the next request began while its name is still being resolved, and the request after that begins a second attempt. Proved when no posted closing is executed during an attempt."
  },
  {
   "property": "C132",
   "status": "proved",
   "theorems": [
    "C132_for_request",
    "C132_unused"
   ],
   "note": "Every attempt to connect is begun by the sending of a request that is not completed; a client without requests neither connects nor transmits."
  },
  {
   "property": "C133",
   "status": "proved",
   "theorems": [
    "C133_channel",
    "C133_connection",
    "C133_server"
   ],
   "note": "Shutting down a channel, connection or server that is shut down has no further effect, beyond the removal of the closure from the queue (a client channel passes the call on to its connection, where it does nothing)."
  },
  {
   "property": "C134",
   "status": "proved",
   "theorems": [
    "C134_one_read",
    "C134_keeps_reading"
   ],
   "note": "In every history of a server each connection has at most one read in progress, and exactly one as long as its socket is open and no closing is posted."
  },
  {
   "property": "C135",
   "status": "proved",
   "theorems": [
    "C135_exactly",
    "C135_after_shutdown",
    "C135_not_completed",
    "C135_never_idle",
    "C135_tcp"
   ],
   "note": "What a client channel keeps (current request, waiting requests, posted calls) is exactly the list of calls that are not completed, in order, until it is shut down; afterwards only posted calls."
  },
  {
   "property": "C136",
   "status": "proved",
   "theorems": [
    "C136_client",
    "C136_server"
   ],
   "note": "In any state, a call of a method of a client or server channel is defined, calls no handler or session, sends nothing, leaves connections and acceptor alone and posts at most one closure."
  },
  {
   "property": "C137",
   "status": "proved",
   "theorems": [
    "C137_once",
    "C137_not_early",
    "C137_start",
    "C137_expires_at",
    "C137_cancel",
    "C137_not_forgotten",
    "C137_cancelled_late",
    "C137_after_shutdown",
    "C137_forever"
   ],
   "note": "The action of a timer started by a user is executed at most once and not before its expiration, which start and expires_at tell; never if it is cancelled before it is queued; otherwise it can always be executed in time, also after the session was shut down, and an action that starts its timer again goes on without end. The executor's timers are assumed to behave as ITimer.h documents."
  }
 ]
}