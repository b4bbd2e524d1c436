{
 "claims": [
  {
   "property": "C01",
   "status": "proved",
   "theorems": [
    "C01_num64_mult_exact"
   ],
   "note": "Proved on the model for all inputs, states and executions described by the theorems."
  },
  {
   "property": "C02",
   "status": "proved",
   "theorems": [
    "C02_timespec_to_num64_floor",
    "C02_timeval_to_num64_floor",
    "C02_num64_to_timespec_floor",
    "C02_num64_to_timeval_floor",
    "C02_timespec_roundtrip",
    "C02_timeval_roundtrip",
    "C02_num64_via_timespec",
    "C02_num64_via_timeval",
    "C02_timespec_monotone",
    "C02_num64_monotone",
    "C02_timespec_carry"
   ],
   "note": "Proved on the model for all inputs, states and executions described by the theorems."
  },
  {
   "property": "C03",
   "status": "proved",
   "theorems": [
    "C03_timestamp_wire_roundtrip",
    "C03_every_octet_string_is_a_timestamp",
    "C03_timestamp_wire_big_endian",
    "C03_epoch_value",
    "C03_epoch_roundtrip",
    "C03_epoch_roundtrip_timeval",
    "C03_timestamp_via_unix_time"
   ],
   "note": "Proved on the model for all inputs, states and executions described by the theorems."
  },
  {
   "property": "C04",
   "status": "proved",
   "theorems": [
    "C04_error_estimate_sound_and_tight"
   ],
   "note": "Proved on the model for all inputs, states and executions described by the theorems."
  },
  {
   "property": "C05",
   "status": "proved",
   "theorems": [
    "C05_errest_refused_iff_multiplier_zero",
    "C05_errest_octets",
    "C05_errest_roundtrip",
    "C05_zero_multiplier_rejected",
    "C05_nonzero_multiplier_accepted"
   ],
   "note": "Proved on the model for all inputs, states and executions described by the theorems."
  },
  {
   "property": "C06",
   "status": "proved",
   "theorems": [
    "C06_reset_replays",
    "C06_reset_to_new_spec_equals_fresh_context",
    "C06_sender_and_receiver_agree"
   ],
   "note": "Proved on the model for all inputs, states and executions described by the theorems."
  },
  {
   "property": "C07",
   "status": "proved",
   "theorems": [
    "C07_slots_in_rotation",
    "C07_creation_accepts_valid_slots"
   ],
   "note": "Proved on the model for all inputs, states and executions described by the theorems."
  },
  {
   "property": "C08",
   "status": "proved",
   "theorems": [
    "C08_exponential_deviate",
    "C08_deviate_is_unique"
   ],
   "note": "Proved on the model for all inputs, states and executions described by the theorems."
  },
  {
   "property": "C09",
   "status": "proved",
   "theorems": [
    "C09_uniform_stream_is_counter_mode"
   ],
   "note": "Proved on the model for all inputs, states and executions described by the theorems."
  },
  {
   "property": "C10",
   "status": "partial",
   "theorems": [
    "C10_exhaustion_detectable_refuted",
    "C10_exhausted_value_partial"
   ],
   "note": "C10_exhaustion_detectable_refuted: C10: the value returned by an exhausted schedule can also be the delay of a packet. / C10_exhausted_value_partial: what holds: an exhausted context always returns 3/2^32 s and never changes again"
  },
  {
   "property": "C11",
   "status": "proved",
   "theorems": [
    "C11_encoder_accepts",
    "C11_layout",
    "C11_roundtrip",
    "C11_unset_sid_is_stale_buffer"
   ],
   "note": "Proved on the model for all inputs, states and executions described by the theorems."
  },
  {
   "property": "C12",
   "status": "proved",
   "theorems": [
    "C12_decoder_exact",
    "C12_refusal_kind"
   ],
   "note": "Proved on the model for all inputs, states and executions described by the theorems."
  },
  {
   "property": "C13",
   "status": "proved",
   "theorems": [
    "C13_slot_roundtrip",
    "C13_slot_layout",
    "C13_decode_exact",
    "C13_unknown_type_refused"
   ],
   "note": "Proved on the model for all inputs, states and executions described by the theorems."
  },
  {
   "property": "C14",
   "status": "proved",
   "theorems": [
    "C14_record_roundtrip",
    "C14_decode_v3_exact",
    "C14_decode_v2_exact",
    "C14_other_versions_refused",
    "C14_zero_multiplier_refused"
   ],
   "note": "Proved on the model for all inputs, states and executions described by the theorems."
  },
  {
   "property": "C15",
   "status": "proved",
   "theorems": [
    "C15_two_way_roundtrip",
    "C15_two_way_layout",
    "C15_zero_multiplier_refused"
   ],
   "note": "Proved on the model for all inputs, states and executions described by the theorems."
  },
  {
   "property": "C16",
   "status": "proved",
   "theorems": [
    "C16_accept_session",
    "C16_start_ack",
    "C16_fetch_ack",
    "C16_start_sessions",
    "C16_fetch_session",
    "C16_test_request",
    "C16_test_request_two_way",
    "C16_greeting",
    "C16_setup_response",
    "C16_server_start",
    "C16_reader_accepts_known_codes_only",
    "C16_reader_accepts_known_requests_only",
    "C16_two_way_addresses",
    "C16_stop_sessions"
   ],
   "note": "Proved on the model for all inputs, states and executions described by the theorems."
  },
  {
   "property": "C17",
   "status": "proved",
   "theorems": [
    "C17_stream_roundtrip",
    "C17_stream_is_one_chain"
   ],
   "note": "Proved on the model for all inputs, states and executions described by the theorems."
  },
  {
   "property": "C18",
   "status": "proved",
   "theorems": [
    "C18_accept_session",
    "C18_start_ack",
    "C18_fetch_ack",
    "C18_start_sessions",
    "C18_fetch_session",
    "C18_test_request",
    "C18_stop_sessions",
    "C18_invalid_connection_is_dead"
   ],
   "note": "Proved on the model for all inputs, states and executions described by the theorems."
  },
  {
   "property": "C19",
   "status": "partial",
   "theorems": [
    "C19_one_way_histories_obey",
    "C19_invalid_stays_invalid",
    "C19_two_way_histories_refuted",
    "C19_two_way_invalid_stays_invalid_refuted"
   ],
   "note": "C19_two_way_histories_refuted: On a two-way connection both halves fail. A second request can be read while the first is still being read ... / C19_two_way_invalid_stays_invalid_refuted: ... and OWPUnexpectedRequestType brings an invalid connection back into use."
  },
  {
   "property": "C20",
   "status": "proved",
   "theorems": [
    "C20_client_mode",
    "C20_usable_mode_found",
    "C20_no_weaker_mode_after_error"
   ],
   "note": "Proved on the model for all inputs, states and executions described by the theorems."
  },
  {
   "property": "C21",
   "status": "partial",
   "theorems": [
    "C21_server_accepts_offered_modes_only_refuted",
    "C21_server_mode_partial",
    "C21_no_mode_no_service"
   ],
   "note": "C21_server_accepts_offered_modes_only_refuted: The server checks the mode against what it offered with \"or\" instead of \"and\": a server that offers authenticated mode only accepts a client that asks for open mode. / C21_server_mode_partial: What does hold: exactly one mode, and a server that offers none accepts nobody. Missing: that the mode is one of those offered."
  },
  {
   "property": "C22",
   "status": "proved",
   "theorems": [
    "C22_accepted_client_knows_the_key",
    "C22_honest_client_is_accepted"
   ],
   "note": "Proved on the model for all inputs, states and executions described by the theorems."
  },
  {
   "property": "C23",
   "status": "proved",
   "theorems": [
    "C23_no_third_parties",
    "C23_one_endpoint"
   ],
   "note": "Proved on the model for all inputs, states and executions described by the theorems."
  },
  {
   "property": "C24",
   "status": "partial",
   "theorems": [
    "C24_header_roundtrip_partial",
    "C24_header_written",
    "C24_refuted"
   ],
   "note": "C24_header_roundtrip_partial: Partial: schedules of fewer than 2^28 - 1 slots (see [C24_refuted]). The file that is read is the header with anything behind it ([tail]): first the skip records, if there are any, then the data. / C24_refuted: With 2^28 - 1 slots the offset of the data wraps around: the header that has just been written, without any data record behind it, is read as 171798691 data records that start inside the header."
  },
  {
   "property": "C25",
   "status": "proved",
   "theorems": [
    "C25_updates",
    "C25_records_untouched"
   ],
   "note": "Proved on the model for all inputs, states and executions described by the theorems."
  },
  {
   "property": "C26",
   "status": "partial",
   "theorems": [
    "C26_parse_partial",
    "C26_parse_twoway",
    "C26_records_exist",
    "C26_refuted",
    "C26_announced_records_present"
   ],
   "note": "C26_parse_partial: [readable ... l]: l are the decoded records at [pos], [pos]+len, ... as far as they are there; there is such a list for every file ([C26_records_exist]). The application function is called on them in order until it returns non-zero; the result is success when all [n] were visited, or when it stopped with a positive value. / C26_refuted: Missing from the full claim: OWPParseRecords also accepts the version number of two-way files, and then overruns its buffer."
  },
  {
   "property": "C27",
   "status": "partial",
   "theorems": [
    "C27_completion_is_writes",
    "C27_crash_partial",
    "C27_crash_few_skips",
    "C27_refuted"
   ],
   "note": "C27_crash_partial: ... and dying after any number [k] of its writes: the file can be read, the data records are all there, and their number is right as soon as the file is marked as finished; before that it is too big by one for every 25 octets of skip records that have been written. Missing from the full claim: the number may be too big ([C27_refuted]). / C27_refuted: Four skip ranges, death before the file is marked as finished: a fourth \"data record\", made of skip records, is reported - and delivered to the application."
  },
  {
   "property": "C28",
   "status": "partial",
   "theorems": [
    "C28_estimate_partial",
    "C28_record_size",
    "C28_refuted"
   ],
   "note": "C28_estimate_partial: For a one-way session with one record per packet. Partial: schedules below 2^28 - 1 slots and fewer than 171798692 packets. / C28_refuted: 171798692 packets (4.3 GB): the estimate is 380 octets."
  },
  {
   "property": "C29",
   "status": "proved",
   "theorems": [
    "C29_skips_in_file",
    "C29_wire"
   ],
   "note": "Proved on the model for all inputs, states and executions described by the theorems."
  },
  {
   "property": "C30",
   "status": "partial",
   "theorems": [
    "C30_accepted_partial",
    "C30_single_partial",
    "C30_all_named_refuted",
    "C30_ranges_refuted"
   ],
   "note": "C30_accepted_partial: C30: what an accepted stop message implies. Partial: the sessions it names are receivers of this side, each named once, as many as it announces; every range begins not after its end; the accept value is a valid one. Missing: that all receivers are named, that the ranges are in order and below the next sequence number (refuted below). / C30_single_partial: For the usual case, one received session and a message announcing at least one, the message names exactly that session. / C30_all_named_refuted: C30 fails: an authenticated message that names no session at all is accepted although this side receives one; the file of that session is not completed and the session is no longer in the list of the connection (protocol.c 2585 looks only behind the last session named). / C30_ranges_refuted: C30 fails: ranges that go backwards, overlap, and lie above the next sequence number are accepted (prev_skip is never assigned; nothing compares a range with next_seqno)."
  },
  {
   "property": "C31",
   "status": "partial",
   "theorems": [
    "C31_kept_partial",
    "C31_unflushed_refuted"
   ],
   "note": "C31_kept_partial: C31. If what is written to the temporary stream reaches its file and the clean-up succeeds, the file holds exactly the records that are to be kept, in their original order, and their count; every packet that was received has been sent. Missing: records of packets never seen are added by the receiver (C36), not here, and the stream is not flushed (below). / C31_unflushed_refuted: C31 refuted: the records kept behind the first dropped one are written to a stream that is never flushed before its file is copied. With a buffer of 4096 octets, the record of packet 7 is missing while the count says it is there."
  },
  {
   "property": "C32",
   "status": "partial",
   "theorems": [
    "C32_ends_partial",
    "C32_refuted",
    "C32_timeout_0_refuted"
   ],
   "note": "C32_ends_partial: if every record settled at or after the threshold was settled clearly after it, the search ends within as many steps as there are records, and succeeds exactly if every packet received has been sent / C32_refuted: a file of nine records for which the search for the first record to be checked never ends, whatever the number of steps / C32_timeout_0_refuted: with timeout 0 the search runs past the last record and the clean-up fails although all records are to be kept"
  },
  {
   "property": "C33",
   "status": "partial",
   "theorems": [
    "C33_accounting_partial",
    "C33_no_ignored_errors",
    "C33_refuted",
    "C33_complete"
   ],
   "note": "C33_accounting_partial: C33. Every sequence number below the reported next one was handed to the network exactly once (successfully, or with an error that the sender ignores) and is in no reported range, or was never handed over and is in exactly one reported range; from the reported next sequence number on, nothing was sent. What is missing for the full claim: an attempt whose error is ignored is not a transmission, see C33_refuted. / C33_refuted: Full C33 is false: an error such as \"network unreachable\" leaves a number neither transmitted nor reported as skipped."
  },
  {
   "property": "C34",
   "status": "proved",
   "theorems": [
    "C34_skip_ranges"
   ],
   "note": "Proved on the model for all inputs, states and executions described by the theorems."
  },
  {
   "property": "C35",
   "status": "proved",
   "theorems": [
    "C35_window"
   ],
   "note": "Proved on the model for all inputs, states and executions described by the theorems."
  },
  {
   "property": "C36",
   "status": "proved",
   "theorems": [
    "C36_during",
    "C36_always",
    "C36_complete"
   ],
   "note": "Proved on the model for all inputs, states and executions described by the theorems."
  },
  {
   "property": "C37",
   "status": "proved",
   "theorems": [
    "C37_only_plausible",
    "C37_plausible_recorded"
   ],
   "note": "Proved on the model for all inputs, states and executions described by the theorems."
  },
  {
   "property": "C38",
   "status": "partial",
   "theorems": [
    "C38_stop_partial",
    "C38_stop_flush",
    "C38_refuted"
   ],
   "note": "C38_stop_partial: C38, partial: when the receiver is stopped, every packet expired at the last clock reading that was processed is classified: the reading of the last completed passage when the signal is noticed before the losses are written, the newest reading when it is noticed thereafter. / C38_refuted: C38 is false in general: here the clock shows that packet 0 (due at 1001 s, timeout 1 s) is lost, the stop signal is noticed next and the session ends normally without a lost record."
  },
  {
   "property": "C39",
   "status": "partial",
   "theorems": [
    "C39_other_source_partial",
    "C39_survives",
    "C39_refuted",
    "C39_reflector_refuted",
    "C39_twoway_refuted"
   ],
   "note": "C39_other_source_partial: C39, partial: datagrams of the right length from another source have exactly the effect of an interruption of the wait: whatever they contain, the records are the same and the session continues in the same way. / C39_refuted: C39 is false for datagrams of another length, wherever they come from: any one ends any running session with an error, provided that errno is not accidentally EINTR; the file is then marked as invalid and removed. / C39_reflector_refuted: C39 for reflectors, refuted: once errno has another value, a datagram that is too short, from any host, ends the session with an error; nothing about the source is looked at before. / C39_twoway_refuted: likewise for any datagram that is too short, whoever sent it: nothing about its source is looked at (C39 for the client of a two-way session)"
  },
  {
   "property": "C40",
   "status": "partial",
   "theorems": [
    "C40_search_partial",
    "C40_requested_search",
    "C40_requested_first",
    "C40_given_port",
    "C40_outside_refuted",
    "C40_endless_refuted"
   ],
   "note": "C40_search_partial: A configured range is used: no port (or, for the TWAMP server, one outside the range) is requested, and the random number is not the largest one. Missing: the largest random number (see the refutation) and the range 0-65535 (whose size wraps to 0). / C40_outside_refuted: The random number 2^32-1: a port behind the configured range is bound; ... / C40_endless_refuted: with the largest random number and all ports in use, the search never ends, for every range"
  },
  {
   "property": "C41",
   "status": "partial",
   "theorems": [
    "C41_mirrors",
    "C41_consecutive",
    "C41_answered",
    "C41_ignored",
    "C41_size_check_refuted"
   ],
   "note": "C41_size_check_refuted: Refuted in part: \"never for packets failing the size check\". errno is EINTR when the loop is entered (sigsuspend has returned) and no successful call resets it: in an open session an empty datagram from the sender's port is answered, with the number, time stamp and error estimate of the packet before."
  },
  {
   "property": "C42",
   "status": "partial",
   "theorems": [
    "C42_transfer_partial",
    "C42_served",
    "C42_unfinished",
    "C42_marked_failed",
    "C42_refuted"
   ],
   "note": "C42_transfer_partial: What is sent is what one of the states of the file contains: the test request, its slots, the ranges of packets not sent, and the wanted records, in file order; never in pieces larger than the buffer. The complete session is only sent if it has finished normally. Missing from the full claim: a session which has finished normally without any record must not have 25 octets of other contents behind its header, see [C42_refuted]. / C42_refuted: a session that has finished without any record: the number of records, zero, is taken for \"not yet known\", and skip ranges are sent as records"
  },
  {
   "property": "C43",
   "status": "proved",
   "theorems": [
    "C43_exchange"
   ],
   "note": "Proved on the model for all inputs, states and executions described by the theorems."
  },
  {
   "property": "C44",
   "status": "proved",
   "theorems": [
    "C44_any_file",
    "C44_counts",
    "C44_all_packets",
    "C44_receiver"
   ],
   "note": "Proved on the model for all inputs, states and executions described by the theorems."
  },
  {
   "property": "C45",
   "status": "partial",
   "theorems": [
    "C45_reordering_partial",
    "C45_stops",
    "C45_refuted",
    "C45_percentage_refuted"
   ],
   "note": "C45_reordering_partial: The counters count what the definition says, for n up to the length of the counters, but over all received packets, including duplicates. Missing: duplicates should be left out. / C45_refuted: C45 is false with duplicates: no first copy arrives late here, but 1-reordering is reported. / C45_percentage_refuted: The percentage of reordered packets is computed with the number of packets of all the summaries made with the object: here 1 of 1 received packet of the range is shown as 1 of 4."
  },
  {
   "property": "C46",
   "status": "partial",
   "theorems": [
    "C46_percentile_partial",
    "C46_ttl_partial",
    "C46_refuted",
    "C46_ttl_refuted"
   ],
   "note": "C46_percentile_partial: Percentiles. [s]: the buckets, sorted; [an]/[ad]: the fraction asked for, as a double. The result is a bucket that occurs, and no smaller one that occurs holds (with those below it) the fraction; the bucket itself does, up to rounding of the product with the number of packets (a relative error of 2^-53). No result: no bucket holds the fraction. Missing: without the rounding error. / C46_ttl_partial: TTLs: if any packet was received, the minimum and maximum are the least and the greatest TTL of the received packets (first copies). Missing: see [C46_ttl_refuted]. / C46_refuted: C46: the product of fraction and number of packets is rounded. The fraction here is the least double greater than 1/3, 3 packets are sent, and a bucket with 1 of them is reported. / C46_ttl_refuted: with all 256 TTL values seen, none is reported: their number is kept in 8 bits"
  },
  {
   "property": "C47",
   "status": "partial",
   "theorems": [
    "C47_reuse_partial",
    "C47_same_figures",
    "C47_refuted"
   ],
   "note": "C47_reuse_partial: A call on a used object crashes exactly if its range starts at packet 0; a call on a new object never does. Missing: that it never crashes ([C47_refuted]). / C47_refuted: C47 is false: the second summary of the whole session on the same object uses a null pointer."
  },
  {
   "property": "C48",
   "status": "proved",
   "theorems": [
    "C48_limits",
    "C48_answered"
   ],
   "note": "Proved on the model for all inputs, states and executions described by the theorems."
  },
  {
   "property": "C49",
   "status": "proved",
   "theorems": [
    "C49_request",
    "C49_claim",
    "C49_release"
   ],
   "note": "Proved on the model for all inputs, states and executions described by the theorems."
  },
  {
   "property": "C50",
   "status": "proved",
   "theorems": [
    "C50_longest",
    "C50_unique",
    "C50_total",
    "C50_default"
   ],
   "note": "Proved on the model for all inputs, states and executions described by the theorems."
  },
  {
   "property": "C51",
   "status": "proved",
   "theorems": [
    "C51_line",
    "C51_first_line",
    "C51_inherit",
    "C51_file",
    "C51_start"
   ],
   "note": "Proved on the model for all inputs, states and executions described by the theorems."
  },
  {
   "property": "C52",
   "status": "partial",
   "theorems": [
    "C52_user_partial",
    "C52_by_address",
    "C52_class_name_refuted",
    "C52_padding_refuted"
   ],
   "note": "C52_user_partial: holds if no class has the name of the user and the client fills its user field with zeros / C52_class_name_refuted: a user whose name is that of a class gets that class, whatever the assign line says / C52_padding_refuted: the same user, with the same key, leaves the assigned class by writing something after the end of the name"
  },
  {
   "property": "C53",
   "status": "partial",
   "theorems": [
    "C53_release_partial",
    "C53_kept",
    "C53_exit_refuted",
    "C53_sessions"
   ],
   "note": "C53_release_partial: C53, the part that holds: if every class has only released what it had been granted, then the release of anything that a class still holds is granted, and takes the amount off the class and all its ancestors / C53_exit_refuted: a connection ends while it holds bandwidth: the parent forgets the child, the class keeps the usage and later requests are refused"
  },
  {
   "property": "C54",
   "status": "proved",
   "theorems": [
    "C54_response",
    "C54_response_only",
    "C54_query",
    "C54_query_only",
    "C54_class",
    "C54_class_only",
    "C54_announced"
   ],
   "note": "Proved on the model for all inputs, states and executions described by the theorems."
  },
  {
   "property": "C55",
   "status": "partial",
   "theorems": [
    "C55_sane",
    "C55_single",
    "C55_range",
    "C55_form",
    "C55_zero_refuted",
    "C55_rest_refuted"
   ],
   "note": "C55_zero_refuted: The documentation of owping (option -P) gives the single value 0, \"let the system choose\", as valid; it is rejected. / C55_rest_refuted: Characters after the second number are ignored: \"10-20xyz\" is accepted."
  },
  {
   "property": "C56",
   "status": "partial",
   "theorems": [
    "C56_unsync_precision_refuted",
    "C56_unsync_flag_partial"
   ],
   "note": "C56_unsync_precision_refuted: C56: an unsynchronised clock without error estimate (esterr = 0, or no estimate given) should not be advertised as more precise than any synchronised one. It is: the octets put on the wire denote an error of 2^-32 s, smaller than the estimate of any synchronised clock. / C56_unsync_flag_partial: the part that holds: such a timestamp is marked as not synchronised, also after the wire"
  },
  {
   "property": "C57",
   "status": "proved",
   "theorems": [
    "C57_cached_estimate_is_current"
   ],
   "note": "Proved on the model for all inputs, states and executions described by the theorems."
  },
  {
   "property": "C58",
   "status": "proved",
   "theorems": [
    "C58_clock_reading"
   ],
   "note": "Proved on the model for all inputs, states and executions described by the theorems."
  },
  {
   "property": "C59",
   "status": "partial",
   "theorems": [
    "C59_reset_spec_usable_refuted",
    "C59_reset_nonempty_partial"
   ],
   "note": "C59_reset_spec_usable_refuted: C59: a spec accepted by reset can always be drawn from. Refuted: reset does not check for an empty slot list; the next draw divides by zero. / C59_reset_nonempty_partial: what holds: with at least one slot reset behaves like creation, so by C07 it never fails."
  },
  {
   "property": "C60",
   "status": "partial",
   "theorems": [
    "C60_refusal_is_answered_refuted",
    "C60_refusal_is_negative_refuted",
    "C60_negative_partial",
    "C60_policy_refusal_obeyed"
   ],
   "note": "C60_refusal_is_answered_refuted: A request that asks for no endpoint at all is refused without any answer, while the connection stays open: the client waits for ever. / C60_refusal_is_negative_refuted: When the application's policy function refuses a test with a severity between WARNING and OK, the client is told that the test was accepted (code 0, port 0), although no session exists. / C60_negative_partial: What holds of C60: a refused request that could be read is answered by a negative Accept-Session, as its client - whoever is at the other end of the connection - reads it, in every mode and for both kinds of connections. Missing: requests that are not understood, and the policy's severities between WARNING and OK (both refuted above); severities below WARNING end the connection, which is not an answer either."
  },
  {
   "property": "C61",
   "status": "partial",
   "theorems": [
    "C61_next_request_is_next_message_refuted",
    "C61_out_of_memory_refuted",
    "C61_answered_partial",
    "C61_answered_two_way_partial"
   ],
   "note": "C61_next_request_is_next_message_refuted: a one-way test request on a two-way connection is turned down after its first block; its second block is then taken for the next request / C61_out_of_memory_refuted: The same happens on a one-way connection when memory for the session runs out while a test request is being read: the slots of the request are left in the stream and read as the next request. / C61_answered_partial: What holds of C61: when the server answers a request - whether it accepts or refuses it - exactly the octets of this request have been taken from the input, as many as its number of slots says, so that the next request is the next message. Missing: requests that are not answered (they ask for no endpoint, for an unknown version of IP or for a foreign link-local address, or memory for them is lacking) and requests of a type that is not expected (refuted above). / C61_answered_two_way_partial: Two-way requests have no slots: 112 octets. Missing: as above."
  },
  {
   "property": "C62",
   "status": "proved",
   "theorems": [
    "C62_packet_roundtrip",
    "C62_packet_length",
    "C62_open_layout",
    "C62_session_packets"
   ],
   "note": "Proved on the model for all inputs, states and executions described by the theorems."
  },
  {
   "property": "C63",
   "status": "partial",
   "theorems": [
    "C63_wrap_refuted",
    "C63_rounding_refuted",
    "C63_rounding_partial",
    "C63_exact_partial"
   ],
   "note": "C63_wrap_refuted: C63 is refuted: the sum of the amount asked for and the usage is computed modulo 2^64 ... / C63_rounding_refuted: ... and limit and sum are compared as doubles, which cannot tell 2^60 from 2^60 + 1 / C63_rounding_partial: What does hold for amounts, usages and limits of any size, as long as the sum of amount and usage is less than 2^64: a request is granted only if the sum exceeds no limit by more than 1/2^51 of the limit. Below 2^51 this is the exact property (second theorem); missing are sums of 2^64 and more and the exact comparison of limits above 2^51, which are refuted above. / C63_exact_partial: The property for limits below 2^51 and sums below 2^64; larger ones are missing."
  },
  {
   "property": "C64",
   "status": "partial",
   "theorems": [
    "C64_order_refuted",
    "C64_order_partial"
   ],
   "note": "C64_order_refuted: with all five limits given, the parent must not come last / C64_order_partial: ... and nothing else does: any order in which at most four limits come before the parent gives the same limits"
  },
  {
   "property": "C65",
   "status": "partial",
   "theorems": [
    "C65_overrun_refuted",
    "C65_bounds_partial"
   ],
   "note": "C65_overrun_refuted: C65: a parameter without value makes the parser read over the end of the line / C65_bounds_partial: it happens only if a pair has neither white space nor '=' after its name"
  },
  {
   "property": "C66",
   "status": "partial",
   "theorems": [
    "C66_refuted",
    "C66_reported_partial",
    "C66_files_partial"
   ],
   "note": "C66_refuted: C66 fails: the file of a session is marked complete before the authentication code of the stop message is checked; here the message is refused and the connection dropped, but the file has its skip records and is complete. / C66_reported_partial: What does hold in the authenticated modes: OWPStopSessionsWait reports a completed exchange only if the message was read to its end and carried a valid authentication code over all its octets; and only files of sessions that this side receives, each at most once, are touched by any message at all. Missing: that an unauthentic message leaves the files alone (refuted above). / C66_files_partial: Whatever the message, authentic or not, only files of sessions that this side receives are touched. Missing: that an unauthentic message touches none (refuted above)."
  },
  {
   "property": "C67",
   "status": "partial",
   "theorems": [
    "C67_exchange_partial",
    "C67_two_way_refuted"
   ],
   "note": "C67_exchange_partial: C67: a stop exchange of a client (OWPStopSessions) with a server (OWPStopSessionsWait) / C67_two_way_refuted: Missing from C67: two-way sessions. A two-way client never gets a good answer out of OWPStopSessions, whatever its sessions and its peer do: the function returns a fatal error and the control connection is dropped (api.c 1808-1813 leaves readstop False, 1866-1868 fails)."
  },
  {
   "property": "C68",
   "status": "partial",
   "theorems": [
    "C68_broken_partial",
    "C68_guesses_partial",
    "C68_refuted"
   ],
   "note": "C68_broken_partial: C68: after a broken control connection, the records above the last packet received are to be removed. What holds: the file is marked incomplete, and it has the records of C31 - all of them, unless the largest number kept is 0. / C68_guesses_partial: C68 where the largest number kept near the end is 0. Here the records above the last packet received are removed: if nothing that is to be kept was received, no record remains; otherwise those up to the highest number received remain, and the file is marked incomplete. The records are assumed to be as receivers write them: once a packet was given up, no packet with a smaller number is recorded as received. / C68_refuted: the sender died after packet 3; packets 4 and 5, given up by the receiver, stay in the file"
  },
  {
   "property": "C69",
   "status": "proved",
   "theorems": [
    "C69_consecutive"
   ],
   "note": "Proved on the model for all inputs, states and executions described by the theorems."
  },
  {
   "property": "C70",
   "status": "proved",
   "theorems": [
    "C70_requests",
    "C70_records",
    "C70_records_end",
    "C70_measured"
   ],
   "note": "Proved on the model for all inputs, states and executions described by the theorems."
  },
  {
   "property": "C71",
   "status": "proved",
   "theorems": [
    "C71_exclusive",
    "C71_exclusive_end"
   ],
   "note": "Proved on the model for all inputs, states and executions described by the theorems."
  },
  {
   "property": "C72",
   "status": "partial",
   "theorems": [
    "C72_all_recorded_partial",
    "C72_interrupted_refuted",
    "C72_uninitialised_refuted",
    "C72_early_end_refuted"
   ],
   "note": "C72_all_recorded_partial: C72, in part: when the test has come to its end, every packet the operating system has taken has a record, provided that sendto was never interrupted; that a reply was waited for with success at least once (flush_rc is set), or the uninitialised variable happens to be 0; that the clock works; and that the end was requested by the other side (with a timeout that is not 0), or the timeouts of all packets are over. / C72_interrupted_refuted: C72 refuted: (1) sendto was interrupted once, for packet 0: it is not sent again and remains \"not sent\" at the head of the queue, so that the packets after it are never recorded as lost, however long ago they were sent / C72_uninitialised_refuted: (2) the test is stopped before the first attempt to receive has come to its end: the variable that tells whether lost packets remain was never set, and if it happens not to be 0, the packets sent are not recorded / C72_early_end_refuted: (3) the clock cannot be read at the end, or the timeout of the last packets is not over when the last attempt to receive fails: their fate is not recorded, although the session is marked as completed normally"
  },
  {
   "property": "C73",
   "status": "partial",
   "theorems": [
    "C73_own_replies_partial",
    "C73_own_replies_refuted"
   ],
   "note": "C73_own_replies_partial: C73, in part: for sessions without padding, what the reflector of the same session sends in answer to a packet of the client is accepted and recorded: if the client is waiting for a reply, the next packet is not to be sent within a millisecond, the packet has no record yet, its loss timeout has not passed and nobody ends the test. / C73_own_replies_refuted: Refuted for every session with padding: the client expects replies that are larger than its packets by the difference of the headers, the reflector sends replies of the size of the packets (as RFC 5357 has it). Unless errno happens to be EINTR the first reply ends the test, and it is not recorded."
  },
  {
   "property": "C74",
   "status": "partial",
   "theorems": [
    "C74_packets_fit_partial",
    "C74_sender_exact_partial",
    "C74_check_partial",
    "C74_packets_fit_refuted"
   ],
   "note": "C74_packets_fit_partial: Missing from the full claim: large paddings (see C74_packets_fit_refuted). If header and padding together are fewer than 2^32 octets, all four processes (sender and receiver of one-way, reflector and client of two-way sessions) touch only octets of the buffer. / C74_sender_exact_partial: For a sending process the condition is exact: it stays inside the buffer only if header and padding are fewer than 2^32 octets / C74_check_partial: The check made before the buffer is allocated never refuses a session / C74_packets_fit_refuted: A session with a padding of 2^32-1 octets passes the check; 13 octets are allocated, and the sender writes 2^32-1 octets from octet 14 on"
  },
  {
   "property": "C75",
   "status": "partial",
   "theorems": [
    "C75_bandwidth_partial",
    "C75_size_partial",
    "C75_bandwidth_refuted"
   ],
   "note": "C75_bandwidth_partial: Missing from the full claim: see C75_bandwidth_refuted. If neither the size of a packet nor the sum of the mean delays overflows and this sum is not zero, the amount demanded (bits per second) is the average rate of the test, up to 2^-50 of it and up to cutting off the fraction: with N delays of sum S (in units of 2^-32 s), 8 * (whole packet) * N / (S / 2^32). / C75_size_partial: The size of a packet is computed right in this case / C75_bandwidth_refuted: Nothing is demanded for a test whose packets are all sent at once (mean delays 0), nor for packets of a size that wraps around; and a test with a packet every (2^31 + 2^-33) seconds is charged for 2^33 packets per second"
  },
  {
   "property": "C76",
   "status": "partial",
   "theorems": [
    "C76_books_partial",
    "C76_returned_partial",
    "C76_defined",
    "C76_interrupted_refuted",
    "C76_fstat_refuted",
    "C76_crash_refuted",
    "C76_two_fetches_refuted"
   ],
   "note": "C76_books_partial: C76. If no answer of the broker is interrupted, no process crashes, fstat does not fail and files are fetched one at a time and by their own class ([smooth]), then at any time the usage the broker records for bandwidth and disk space in every limiting class is exactly what the sessions accepted and not completed and the files kept by the class and the classes below it hold; and no connection is given up by the policy. Missing for the full claim: it is false if one of these fails, see the refutations. / C76_returned_partial: C76. So when all connections have ended and all files are gone, nothing is charged. / C76_interrupted_refuted: C76. The reading of the broker's answer to a request is interrupted by a signal: the connection is given up, and what it was granted stays charged. / C76_fstat_refuted: C76. fstat fails when the file of a session is closed: the estimate for its disk space is never released although the file may be smaller or is deleted later. / C76_crash_refuted: C76. A connection process dies: what its sessions hold stays charged until the server is restarted. / C76_two_fetches_refuted: C76. Two clients fetch the same file at the same time: its size is released twice, and the class may use more disk space than its limit: here 300 are allowed, and three files of 120 octets are kept."
  },
  {
   "property": "C77",
   "status": "partial",
   "theorems": [
    "C77_owner_partial",
    "C77_owner_refuted"
   ],
   "note": "C77_owner_partial: C77. A file fetched by a connection of the class it belongs to: when it is deleted, its size is taken off that class and all above. Missing: if the connection is of another class, that one is credited. / C77_owner_refuted: C77. A connection of class root fetches a file of class jail: the file is deleted, but its size stays charged to jail for good."
  },
  {
   "property": "C78",
   "status": "proved",
   "theorems": [
    "C78_only",
    "C78_deleted"
   ],
   "note": "Proved on the model for all inputs, states and executions described by the theorems."
  },
  {
   "property": "C79",
   "status": "partial",
   "theorems": [
    "C79_sessions",
    "C79_freed_refuted"
   ],
   "note": "C79_freed_refuted: C79. Completed sessions do not free their place: with test_sessions=2 a connection that has run two sessions, one after the other, is refused the third."
  },
  {
   "property": "C80",
   "status": "partial",
   "theorems": [
    "C80_decision_partial",
    "C80_decision_refuted"
   ],
   "note": "C80_decision_partial: C80. Without failures a request is accepted exactly if the connection has a session left, the class and all above it have the bandwidth (one-way sessions) and the disk space (if the server receives) left, and the file can be made. Missing for the full claim: it is false after an interrupted query. / C80_decision_refuted: C80. After an interrupted release the answers are read one query late: a request far above the limits, which the broker denies, is accepted."
  },
  {
   "property": "C81",
   "status": "proved",
   "theorems": [
    "C81_authentic",
    "C81_failed"
   ],
   "note": "Proved on the model for all inputs, states and executions described by the theorems."
  },
  {
   "property": "C82",
   "status": "proved",
   "theorems": [
    "C82_encrypts",
    "C82_decrypts",
    "C82_inverse",
    "C82_assumptions_met",
    "C82_schedule_stream"
   ],
   "note": "Proved on the model for all inputs, states and executions described by the theorems."
  },
  {
   "property": "C83",
   "status": "proved",
   "theorems": [
    "C83_derived",
    "C83_open",
    "C83_matching",
    "C83_separate"
   ],
   "note": "Proved on the model for all inputs, states and executions described by the theorems."
  },
  {
   "property": "C84",
   "status": "partial",
   "theorems": [
    "C84_any_file",
    "C84_counts_partial",
    "C84_sync_refuted",
    "C84_ranges_refuted",
    "C84_reordered_refuted",
    "C84_late_refuted",
    "C84_end_time_refuted"
   ],
   "note": "C84_counts_partial: The summary is made, every packet counts once as sent and every lost record as lost, if the replies arrive in step: of two replies, the one that arrives later and is not to an earlier packet does not have the smaller number; if the reflector's numbers are not below the range; and if no reply arrives for a packet scheduled more than the timeout before another answered packet was sent. Missing: other sessions, for which no summary is made at all, see the following theorems. / C84_sync_refuted: The flag \"synchronized\" tells nothing about the packets that were answered: if all were, it is set. / C84_ranges_refuted: A reply with a number below the range: no summary. The reflector numbers the packets that arrive, so this happens for ranges that begin after a packet that was lost on its way. / C84_reordered_refuted: The summary of a session can fail altogether although every packet was answered in time and only once: packet 0 is overtaken by packet 1 on its way, the reply to packet 1 by the reply to packet 0. / C84_late_refuted: Neither is one made if a packet was sent half a second late, and its reply, within the timeout of one second, comes after the reply to the next packet: the client records it as answered, but the summary counts the timeout from the scheduled time on. / C84_end_time_refuted: The end time of the summary is not always the scheduled time of the last packet: it is that of packet 0 if packet 0 was duplicated on its way, and packet 1, the last one, lost."
  },
  {
   "property": "C85",
   "status": "partial",
   "theorems": [
    "C85_memory_partial",
    "C85_memory_refuted"
   ],
   "note": "C85_memory_partial: Nodes in the buffers after any records: for sent packets at most as many as there are packets. Missing: a bound for the buffer of replies, other than the 2^32 possible numbers. / C85_memory_refuted: A single record, of a reply that claims to be number n, makes the program allocate n nodes, for any n up to 2^32."
  },
  {
   "property": "C86",
   "status": "proved",
   "theorems": [
    "C86_sessions_do_not_overlap"
   ],
   "note": "Proved on the model for all inputs, states and executions described by the theorems."
  },
  {
   "property": "C87",
   "status": "proved",
   "theorems": [
    "C87_records_stored_once"
   ],
   "note": "Proved on the model for all inputs, states and executions described by the theorems."
  },
  {
   "property": "C88",
   "status": "partial",
   "theorems": [
    "C88_does_not_fail_partial",
    "C88_hangup_refuted",
    "C88_printed_name_refuted"
   ],
   "note": "C88_does_not_fail_partial: C88: powstream uses no NULL pointer, fails no assertion and prints no indeterminate string. Proved without the options -t and -p. Missing: the options -t and -p, see the refutations / C88_hangup_refuted: With -t a hangup signal that arrives while the connection for fetching the records is opened closes all sessions, but the signal check, nested in itself through the records then fetched, reports that nothing has happened; powstream goes on with a connection that is closed and uses a NULL pointer / C88_printed_name_refuted: With -p, if the file of a session cannot be made for lack of resources, an indeterminate name is printed"
  },
  {
   "property": "C89",
   "status": "partial",
   "theorems": [
    "C89_summary_names_partial",
    "C89_summaries_in_order_partial",
    "C89_session_names_partial",
    "C89_all_summaries_partial",
    "C89_summary_name_refuted",
    "C89_summarized_twice_refuted",
    "C89_disjoint_names_refuted"
   ],
   "note": "C89_summary_names_partial: C89: the file of a summary of the packets from number first to number last (not included) is named after the time of the start of the range and its end according to the schedule of the session. Missing: -t, and executions in which the setup of a session fails, see the refutations / C89_summaries_in_order_partial: the ranges of a session are summarized in order, each at most once. Missing: as above / C89_session_names_partial: the files about all records of a session are named after its start and its scheduled end; those of a session that was abandoned possibly after an earlier time of its schedule. Missing: as above / C89_all_summaries_partial: if the records of a session are stored that was not abandoned, its summaries are there, unless it was reported that one could not be stored. Missing: as above / C89_summary_name_refuted: If the setup of the next session fails while a range of packets is waited for, the loop over the summaries starts again with the schedule where it was: the summaries of a session that ran without any trouble are stored under wrong times / C89_summarized_twice_refuted: If it fails later, after the time limit for the setup has passed once, the same range is summarized twice under different times, and the file of the records is named after the end of the session only / C89_disjoint_names_refuted: If the connection is lost, the records are stored under the time of the scheduled end although none can be that late, and the files of successive sessions have overlapping times"
  },
  {
   "property": "C90",
   "status": "partial",
   "theorems": [
    "C90_continuity_partial",
    "C90_clock_set_back_refuted"
   ],
   "note": "C90_continuity_partial: C90: a session starts as soon as possible (10 s after the time its setup began, later by -z for the first), or exactly when the last packet of an earlier session is scheduled, if that is later. Missing: as above / C90_clock_set_back_refuted: If a setup fails and the clock is set back, the next session starts at a time that is neither"
  },
  {
   "property": "C91",
   "status": "partial",
   "theorems": [
    "C91_wakes_partial",
    "C91_poll_partial",
    "C91_blocks",
    "C91_flag",
    "C91_no_connection",
    "C91_early_refuted",
    "C91_wrap_refuted",
    "C91_oversleeps_refuted",
    "C91_flag_with_time_refuted"
   ],
   "note": "C91_wakes_partial: It returns 1 when the wake-up time is reached. Missing: it returns up to a millisecond early, and the time must be less than 2^31 milliseconds (24.8 days) ahead, see C91_early_refuted, C91_wrap_refuted and C91_oversleeps_refuted. / C91_poll_partial: A wake-up time in the past makes it return at once, whatever happens. / C91_early_refuted: The wake-up time is rounded down to milliseconds: it returns 1 before that time. / C91_wrap_refuted: The number of milliseconds is stored in an int: with a wake-up time 49.7 days ahead it returns 1 at once ... / C91_oversleeps_refuted: ... and with one 25 days ahead it does not return when that time has come. / C91_flag_with_time_refuted: \"If wake_time is non-null, retn_on_intr is not used\" (owamp.h): with both, and with a wake-up time in the past, a set flag makes it return 2."
  },
  {
   "property": "C92",
   "status": "partial",
   "theorems": [
    "C92_wait_ends_partial",
    "C92_lost_wakeup_refuted"
   ],
   "note": "C92_wait_ends_partial: A wait does not sleep while all local sessions are over or one has failed, provided that no session ends between the function's own system calls (asking for the status, then poll). Missing: such an end is not noticed, see C92_lost_wakeup_refuted. / C92_lost_wakeup_refuted: The end of a session between the last question for the status and poll() is not noticed: the function sleeps although the only session is over, until the other side sends something."
  },
  {
   "property": "C93",
   "status": "proved",
   "theorems": [
    "C93_stops_only_then",
    "C93_stops_then",
    "C93_reflector"
   ],
   "note": "Proved on the model for all inputs, states and executions described by the theorems."
  },
  {
   "property": "C94",
   "status": "partial",
   "theorems": [
    "C94_active",
    "C94_status_partial",
    "C94_final",
    "C94_status_refuted"
   ],
   "note": "C94_status_partial: OWPSessionStatus succeeds exactly for the sessions of this connection that run here, and stores their status in the caller's variable. Missing: the variable must be 0 before, see C94_status_refuted. / C94_status_refuted: A variable that is not 0 before, for instance that of an earlier question, is not changed although the function succeeds: a session that was found running is reported to run forever."
  },
  {
   "property": "C95",
   "status": "partial",
   "theorems": [
    "C95_usable_partial",
    "C95_usable_refuted"
   ],
   "note": "C95_usable_partial: Only a server of two-way sessions returns 0 with the sessions still on the connection (OWPStopSessions and the other end of the function free them, api.c 1850-1863 and 2118-2124). Missing: that case, see C95_usable_refuted. / C95_usable_refuted: A reflector that failed stays on the connection: the function returns 0, which means that the connection is ready for new sessions, but no sessions can be started any more."
  },
  {
   "property": "C96",
   "status": "partial",
   "theorems": [
    "C96_runs_partial",
    "C96_not_before",
    "C96_rejected_refuted"
   ],
   "note": "C96_runs_partial: The process of a session waits until it is told to start, then it runs the session and nothing but the session decides on its acceptance value. Missing: it must get the processor before it is told to stop, see C96_rejected_refuted. / C96_rejected_refuted: A session that is stopped in the ordinary way before its process has noticed the start does not run, and is reported as rejected."
  },
  {
   "property": "C97",
   "status": "proved",
   "theorems": [
    "C97_names",
    "C97_numbers",
    "C97_only",
    "C97_packets",
    "C97_accepted"
   ],
   "note": "Proved on the model for all inputs, states and executions described by the theorems."
  },
  {
   "property": "C98",
   "status": "partial",
   "theorems": [
    "C98_schedule_partial",
    "C98_value_partial",
    "C98_negative_refuted"
   ],
   "note": "C98_schedule_partial: C98: whatever strtod makes of the parts, the schedule is accepted exactly if each part between the commas is a number followed by nothing, e or E (exponential) or f or F (fixed), and then its slots are those of the parts, one for each and in their order / C98_value_partial: C98: a slot of a number that is not negative is that number of seconds, rounded down to a multiple of 2^-32 s (numbers from 2^32 on, for which C does not define the conversion, are converted as if the type were wide enough) / C98_negative_refuted: C98: a negative number is not refused but becomes a slot of 0 seconds"
  },
  {
   "property": "C99",
   "status": "partial",
   "theorems": [
    "C99_read_partial",
    "C99_kinds",
    "C99_safe",
    "C99_results",
    "C99_library_keys",
    "C99_long_refuted",
    "C99_failed_refuted",
    "C99_memory_partial",
    "C99_memory_refuted"
   ],
   "note": "C99_read_partial: C99: after any sequence of operations on keys of at most 64 characters, a key has exactly the value that was stored last and not deleted; missing: longer keys, and a replacement that fails in the hash table / C99_long_refuted: C99: keys that differ only after 64 characters are the same key / C99_failed_refuted: C99: a replacement that fails takes the old value away / C99_memory_partial: C99: when the context is freed, all memory of its configuration is released if nothing was deleted from it / C99_memory_refuted: C99: deleting a key does not release its record, so the memory in use is not bounded by the number of keys"
  },
  {
   "property": "C100",
   "status": "partial",
   "theorems": [
    "C100_default_partial",
    "C100_count_refuted"
   ],
   "note": "C100_default_partial: C100: without the option the count of the key derivation is 2048, as documented / C100_count_refuted: C100: with it too: the count is taken from the configuration when the context is created and the configuration is still empty, so nothing that an application configures later changes it"
  },
  {
   "property": "C101",
   "status": "partial",
   "theorems": [
    "C101_number_partial",
    "C101_words",
    "C101_cut_refuted",
    "C101_negative_refuted",
    "C101_rest_refuted"
   ],
   "note": "C101_number_partial: C101: a number below 2^32 in owampd.conf, with blanks before it, is the value of its option; one of 2^64 or more is refused; something that does not start with a digit or a sign is refused / C101_cut_refuted: C101: a number from 2^32 to 2^64 is cut to 32 bits, ... / C101_negative_refuted: C101: ... a negative number is taken modulo 2^32, ... / C101_rest_refuted: C101: ... and what follows a number is ignored"
  },
  {
   "property": "C102",
   "status": "proved",
   "theorems": [
    "C102_limit",
    "C102_no_limit"
   ],
   "note": "Proved on the model for all inputs, states and executions described by the theorems."
  },
  {
   "property": "C103",
   "status": "partial",
   "theorems": [
    "C103_refused_only_if_full_partial",
    "C103_lost_signal_refuted",
    "C103_place_never_freed_refuted"
   ],
   "note": "C103_refused_only_if_full_partial: Without lack of memory, and if no process ends in the instant between the last waitpid of ReapChildren and the clearing of the flag of SIGCHLD, a refused connection means that the processes that serve and those that ended since the last look are maxcontrolsessions together. Missing: the two cases that are refuted below, in which a process that ended keeps its place / C103_lost_signal_refuted: With a limit of two a connection is refused although one process serves: a process ended after the last waitpid of ReapChildren and before the flag of SIGCHLD was cleared, and ReapChildren does nothing without the flag / C103_place_never_freed_refuted: With a limit of one, after realloc failed once for the array of descriptors, the process that was started then keeps its place for ever: no connection is served any more, whatever happens"
  },
  {
   "property": "C104",
   "status": "partial",
   "theorems": [
    "C104_no_crash_partial",
    "C104_unknown_process_refuted"
   ],
   "note": "C104_no_crash_partial: Without lack of memory every process that waitpid returns is in the table. Missing: lack of memory, refuted below / C104_unknown_process_refuted: If there is no memory for the record of a new process, the process is killed but is not in the table; when waitpid returns it, ReapChildren uses what the lookup of another process left, or an uninitialised pointer"
  },
  {
   "property": "C105",
   "status": "partial",
   "theorems": [
    "C105_at_most_one_more",
    "C105_nothing_left",
    "C105_signal_before_poll_refuted",
    "C105_last_process_missed_refuted",
    "C105_alarm_missed_refuted"
   ],
   "note": "C105_signal_before_poll_refuted: A signal between the test of the flag and poll is not seen: the daemon sleeps, and only a connection or another signal wakes it / C105_last_process_missed_refuted: With dieby 0, if the last process ends between the test of the flag and sigsuspend, the main process sleeps for ever although all have ended / C105_alarm_missed_refuted: With any other dieby, if the alarm comes between the test and sigsuspend, the processes are not killed after dieby seconds: the main process sleeps until another signal comes"
  },
  {
   "property": "C106",
   "status": "partial",
   "theorems": [
    "C106_all_answered_partial",
    "C106_starvation_refuted",
    "C106_not_heard_refuted"
   ],
   "note": "C106_all_answered_partial: Without lack of memory, whenever poll finds no connection all waiting messages are answered. Missing: poll finds a connection, refuted below / C106_starvation_refuted: As long as each poll finds a connection no message is answered: a process waits for n further connections to be served and ended, for every n / C106_not_heard_refuted: A process whose descriptor found no room in the array is not heard at all"
  },
  {
   "property": "C107",
   "status": "partial",
   "theorems": [
    "C107_user_given_up",
    "C107_no_way_back",
    "C107_group_given_up_partial",
    "C107_group_of_root_refuted",
    "C107_supplementary_groups_refuted",
    "C107_set_user_id_refuted"
   ],
   "note": "C107_group_given_up_partial: If a group was named, too, the same is true of the three group ids. Missing: without group option, and the supplementary groups, refuted below / C107_group_of_root_refuted: Without group option the daemon serves connections as group 0 / C107_supplementary_groups_refuted: Whatever the options are, it keeps all supplementary groups of root / C107_set_user_id_refuted: If the program is set-user-id root and a user starts it with -U and the own name, the saved user id stays 0: the daemon can become root again"
  },
  {
   "property": "C108",
   "status": "partial",
   "theorems": [
    "C108_denoted_partial",
    "C108_starts_partial",
    "C108_stale_errno_refuted",
    "C108_not_a_number_refuted"
   ],
   "note": "C108_denoted_partial: If errno happens to be 0 the daemon serves connections as the user and group that the options denote, by name or by number. Missing: errno, and options that denote nothing, refuted below / C108_starts_partial: If all is well the daemon starts / C108_stale_errno_refuted: A number is refused if errno is not 0 for any reason, for example because getpwnam found nothing: nothing sets errno to 0 before / C108_not_a_number_refuted: A number with text behind it, and one that is too large, are accepted: the daemon runs as user 1000"
  },
  {
   "property": "C109",
   "status": "partial",
   "theorems": [
    "C109_timer_partial",
    "C109_disconnects_partial",
    "C109_silent_after_sessions_refuted",
    "C109_lost_alarm_refuted"
   ],
   "note": "C109_timer_partial: Whenever the process waits for a request, or for the rest of one, or trades the last Stop-Sessions messages after SIGTERM, the timer runs or has expired. Missing: the trade of Stop-Sessions messages when sessions are complete, refuted below / C109_disconnects_partial: If the timer does not expire before the process sleeps, it runs whenever the process waits for a request, and when it expires the connection is closed. Missing: as above, and the timer that expires too early / C109_silent_after_sessions_refuted: When its sessions are complete the process trades Stop-Sessions messages without timer: a client that does not send its message keeps the process (and its place among maxcontrolsessions) for ever / C109_lost_alarm_refuted: A timer that expires between its start and the read (the process was suspended for so long) is without effect: the process sleeps without timer"
  },
  {
   "property": "C110",
   "status": "proved",
   "theorems": [
    "C110_sessions_not_cut"
   ],
   "note": "Proved on the model for all inputs, states and executions described by the theorems."
  },
  {
   "property": "C111",
   "status": "partial",
   "theorems": [
    "C111_survives_while_waiting_partial",
    "C111_closed_refuted",
    "C111_unsolicited_answer_refuted"
   ],
   "note": "C111_survives_while_waiting_partial: While it waits for sessions: if others are active it goes on waiting, in the same state. Missing: while it waits for a request, refuted below / C111_closed_refuted: If the process of a session that was accepted but not started ends while the daemon waits for a request, the daemon closes the connection / C111_unsolicited_answer_refuted: A TWAMP server sends an Accept-Session message that nobody asked for; the client will take it for the answer to its next request"
  },
  {
   "property": "C112",
   "status": "partial",
   "theorems": [
    "C112_at_most_one_more",
    "C112_ends_partial",
    "C112_not_noticed_refuted",
    "C112_sessions_go_on_refuted"
   ],
   "note": "C112_ends_partial: While it waits for a request, SIGTERM ends the connection; while sessions run, Stop-Sessions messages are traded first, with timer, and the signal does not cut the trade (OWAMP); SIGINT ends the connection at once. Missing: the moments in which nothing sleeps, refuted below / C112_not_noticed_refuted: SIGTERM after the last test of the flag and before the process sleeps is not noticed until the client sends something, or the timer expires / C112_sessions_go_on_refuted: The same before sessions are waited for: the sessions go on, and there is no timer"
  },
  {
   "property": "C113",
   "status": "partial",
   "theorems": [
    "C113_samples_partial",
    "C113_last_sample_refuted"
   ],
   "note": "C113_samples_partial: One summary for the session if no size is given or the session is not larger; otherwise summaries of pieces of the given size, the last may be smaller, and every packet is in one of them. Missing: sizes whose multiples reach 2^32, refuted below / C113_last_sample_refuted: Otherwise the last sample is not summarized: its end is computed modulo 2^32"
  },
  {
   "property": "C114",
   "status": "partial",
   "theorems": [
    "C114_accepted_partial",
    "C114_reported_partial",
    "C114_rounding_refuted",
    "C114_nan_refuted"
   ],
   "note": "C114_accepted_partial: A list is accepted exactly if each part between the commas is (for strtod) a number from 0 to 100 or NaN. Missing: that it is only a number, refuted below / C114_reported_partial: What is reported for a number: the least bucket that holds (with those below it) this percentage of the packets sent, up to a relative error of 2^-23 of the percentage. Missing: without the error, refuted below / C114_rounding_refuted: 99.9 %: 999 of 1000 packets are in the bucket 10, but the bucket 5000 of the slowest packet is reported: 99.9 becomes a float that is larger. [q] is the double next to 99.9 / C114_nan_refuted: The text \"nan\" is accepted and makes the program abort when it prints the summary"
  },
  {
   "property": "C115",
   "status": "partial",
   "theorems": [
    "C115_text_partial",
    "C115_machine_refuted"
   ],
   "note": "C115_text_partial: The lines of the text are those with packets reordered, for all n up to the size of the counters; the last line says that there is no more, or that larger n were not looked at. The packets received are taken with their duplicates. Missing: without them, C45_refuted; the percentage, C45_percentage_refuted / C115_machine_refuted: "
  },
  {
   "property": "C116",
   "status": "partial",
   "theorems": [
    "C116_fraction_partial",
    "C116_carry_refuted"
   ],
   "note": "C116_fraction_partial: The fraction of the second is printed to the millisecond. Missing: the last half of a millisecond of every second, refuted below / C116_carry_refuted: In the last half of a millisecond the text is \".1000\", the tenth part of a second"
  },
  {
   "property": "C117",
   "status": "partial",
   "theorems": [
    "C117_units_partial",
    "C117_seconds_refuted"
   ],
   "note": "C117_units_partial: For nanoseconds, microseconds and milliseconds the values are multiplied by what makes a second and the unit is printed; other letters than those of the manual (and capitals) are refused. Missing: seconds are printed without unit / C117_seconds_refuted: seconds are printed without unit"
  },
  {
   "property": "C118",
   "status": "partial",
   "theorems": [
    "C118_delay_partial",
    "C118_resolution_refuted",
    "C118_extremes_partial",
    "C118_no_minimum_refuted"
   ],
   "note": "C118_delay_partial: The delay is the difference of the two time stamps up to 2^-20 s. Missing: to the resolution of the time stamps (2^-32 s), refuted below / C118_resolution_refuted: Two time stamps of the year 2026 that differ by 2^-22 s (238 ns) give the delay 0, as if the packet had taken no time; two others with the same difference give 2^-21 s / C118_extremes_partial: The minimum and the maximum that are reported are those of the delays of the packets received; they are reported if some delay is inside of the timeout. Missing: a delay that reaches the timeout by rounding, refuted below / C118_no_minimum_refuted: With a timeout of 0.1 s, a packet that took a little less can have a computed delay above the timeout; if it is the only one, no minimum is reported"
  },
  {
   "property": "C119",
   "status": "partial",
   "theorems": [
    "C119_names_partial",
    "C119_tmpdir_refuted"
   ],
   "note": "C119_names_partial: The name of a session file fits into its buffer of PATH_MAX + 1 octets, the name of its link into another such buffer if the daemon started with this data directory, and the copy in the endpoint into a buffer of PATH_MAX octets (terminating zeros included); no name that fits is refused. Missing: the name of the temporary file of the clean-up, refuted below / C119_tmpdir_refuted: With a TMPDIR of 4081 octets the name of the temporary file is accepted, and takes one octet more than its buffer of PATH_MAX octets has"
  },
  {
   "property": "C120",
   "status": "partial",
   "theorems": [
    "C120_session_files",
    "C120_usage_partial",
    "C120_starts_partial",
    "C120_dots_refuted"
   ],
   "note": "C120_usage_partial: The usage of every class that has a limit is the space of the session files in its directory and those of the classes below. Missing: classes with the name \"..\" (or with separators), whose sessions are stored elsewhere, refuted below / C120_starts_partial: The daemon starts exactly if the directories of classes are where they belong and can be read, and no two session files have the same name; directories of unknown classes do not matter, with all that is below / C120_dots_refuted: A class named \"..\" is accepted; its session files are in the directory above that of the root, they are not counted and not found"
  },
  {
   "property": "C121",
   "status": "partial",
   "theorems": [
    "C121_fetch_partial",
    "C121_relative_refuted"
   ],
   "note": "C121_fetch_partial: With an absolute data directory, a fetch of the SID of a stored session reads its file, wherever the process has gone, and finds its class; the links of other sessions are as before. Missing: relative data directories, refuted below / C121_relative_refuted: With a relative data directory no session can be fetched: a relative target of a link starts at the directory of the link. For every such directory (without \"..\" in its name)"
  },
  {
   "property": "C122",
   "status": "partial",
   "theorems": [
    "C122_catalog_partial",
    "C122_survivor_refuted"
   ],
   "note": "C122_catalog_partial: Whatever sessions are created, refused, completed and removed, and wherever in between the daemon is stopped and started again: every link leads to an existing file, and every session file of a class of the limits file has its link, unless a call is creating or removing this session. Missing: processes of the previous daemon that still run when it is started again, refuted below / C122_survivor_refuted: "
  },
  {
   "property": "C123",
   "status": "partial",
   "theorems": [
    "C123_letters",
    "C123_not_open_partial",
    "C123_fallback_refuted",
    "C123_downgrade_refuted",
    "C123_undefined_refuted"
   ],
   "note": "C123_not_open_partial: With -A and no O among its letters the connection is never open. Missing: the same without -A, refuted below / C123_fallback_refuted: If the file with the pass phrases cannot be read, or there is no answer to the prompt, only an open connection is asked for / C123_downgrade_refuted: With a pass phrase, but without -A, the server can make the connection open by offering nothing else / C123_undefined_refuted: If the user is not in the file, a variable is used that was not set"
  },
  {
   "property": "C124",
   "status": "partial",
   "theorems": [
    "C124_status_partial",
    "C124_nothing_refuted"
   ],
   "note": "C124_status_partial: The status is 0 exactly if the sessions asked for were accepted, started and completed, and there was at most one signal, which came while they ran; it is 2 only if there was a signal. With status 0, what was asked for is printed, if the data can be fetched and summarized. Missing: that status 0 means this, refuted below / C124_nothing_refuted: When the data of the session cannot be fetched, or not summarized, nothing is printed and the status is 0"
  },
  {
   "property": "C125",
   "status": "partial",
   "theorems": [
    "C125_other_files",
    "C125_saved_partial",
    "C125_refused_refuted",
    "C125_removed_refuted"
   ],
   "note": "C125_saved_partial: With status 0 the file of -F holds what the session from the remote host has recorded, that of -T what was fetched; when a session fails the file of -F is removed. Missing: what happens to them if the session is refused or the fetch fails, refuted below / C125_refused_refuted: A session that the server refuses replaces the file of -F by what there is of the new one / C125_removed_refuted: A fetch that fails removes the file of -T, and owping ends with status 0"
  },
  {
   "property": "C126",
   "status": "proved",
   "theorems": [
    "C126_start",
    "C126_loss_timeout"
   ],
   "note": "Proved on the model for all inputs, states and executions described by the theorems."
  },
  {
   "property": "C127",
   "status": "partial",
   "theorems": [
    "C127_files_partial",
    "C127_times_differ",
    "C127_exists_refuted",
    "C127_both_directions_refuted"
   ],
   "note": "C127_files_partial: If the samples have different times and there are no files of these names, each of them is written to its file, whose name is printed; nothing else is left or changed. Missing: equal times and names that exist, refuted below / C127_exists_refuted: Nothing is printed if the file of the first sample exists, for instance when the same data are summarized again / C127_both_directions_refuted: For a schedule of fixed delays the files of the two directions of a test have the same names: only those of the direction that is reported first are written"
  },
  {
   "property": "C128",
   "status": "partial",
   "theorems": [
    "C128_fetch_partial",
    "C128_no_sid_refuted",
    "C128_removed_refuted"
   ],
   "note": "C128_fetch_partial: If all names are those of sessions (32 hex digits) and the files are different, the sessions are asked for in their order, and what the server sends is in their files; other files are not touched. Missing: names that are no SID and requests that are refused, refuted below / C128_no_sid_refuted: A name that is no SID is not refused: the session that happens to be in a variable is asked for / C128_removed_refuted: A request that is refused removes the file, whatever it held"
  },
  {
   "property": "C129",
   "status": "partial",
   "theorems": [
    "C129_number_partial",
    "C129_padding_partial",
    "C129_cut_refuted",
    "C129_negative_refuted",
    "C129_padding_refuted"
   ],
   "note": "C129_number_partial: A number below 2^32, with blanks before it, is the number of packets (-c, -N); something that is not all digits is refused / C129_padding_partial: The padding (-s) is the number given, up to 65000 octets / C129_cut_refuted: Larger numbers are taken modulo 2^32, those from 2^64 on as 2^32 - 1, ... / C129_negative_refuted: ... negative numbers modulo 2^32, nothing at all is 0, ... / C129_padding_refuted: ... and more padding than 65000 octets is reduced without a word"
  },
  {
   "property": "C130",
   "status": "proved",
   "theorems": [
    "C130_first",
    "C130_connects"
   ],
   "note": "Proved on the model for all inputs, states and executions described by the theorems."
  },
  {
   "property": "C131",
   "status": "partial",
   "theorems": [
    "C131_client_partial",
    "C131_closed_twice_refuted"
   ],
   "note": "C131_client_partial: If I2AddrByLocalSockFD does not fail for a connected socket: a connection has one descriptor, stored in the record of the address; without one, there is none; after OWPControlClose, or if OWPControlOpen fails, the descriptors are those of before, and nothing is closed that is not open. Missing: I2AddrByLocalSockFD fails, refuted below / C131_closed_twice_refuted: If it fails, the descriptor is closed at once and again when the record is freed; by then the number can belong to another file"
  },
  {
   "property": "C132",
   "status": "partial",
   "theorems": [
    "C132_server_partial",
    "C132_in_use_refuted"
   ],
   "note": "C132_server_partial: If no address is in use: it has one descriptor more if it succeeds, and none if it fails. Missing: addresses in use, refuted below / C132_in_use_refuted: If the first IPv6 address is in use no other one is tried, and a descriptor stays open"
  },
  {
   "property": "C133",
   "status": "partial",
   "theorems": [
    "C133_wiped_partial",
    "C133_server_refuted",
    "C133_client_refuted"
   ],
   "note": "C133_wiped_partial: With a connection the pass phrase has been overwritten, if one was read. Missing: when there is no connection, refuted below / C133_server_refuted: A client that names a user and does not know the pass phrase leaves it in the memory of the server, ... / C133_client_refuted: ... and a server that offers no mode of the client that the policy allows leaves it in the memory of the client"
  },
  {
   "property": "C134",
   "status": "partial",
   "theorems": [
    "C134_foreground_partial",
    "C134_two_daemons_refuted",
    "C134_wrong_id_refuted"
   ],
   "note": "C134_foreground_partial: With option -Z: whatever is started, fails or is killed at whatever time, next to a server at work no other process is past the lock, and the file of the process id names that server. Missing: without -Z, refuted below / C134_two_daemons_refuted: A daemon has no lock once it is detached: another one can be started, both serve, and the file names only one of them, ... / C134_wrong_id_refuted: ... and starting the server a second time by mistake leaves a file that names no running process"
  },
  {
   "property": "C135",
   "status": "proved",
   "theorems": [
    "C135_one",
    "C135_restart"
   ],
   "note": "Proved on the model for all inputs, states and executions described by the theorems."
  },
  {
   "property": "C136",
   "status": "partial",
   "theorems": [
    "C136_powstream",
    "C136_owampd_refuted"
   ],
   "note": "C136_owampd_refuted: The paths of owampd fit if the name of its run directory is short; it is not checked, and a longer one is copied over the end of the buffer"
  },
  {
   "property": "C137",
   "status": "partial",
   "theorems": [
    "C137_same_partial",
    "C137_relative_refuted"
   ],
   "note": "C137_same_partial: A directory given by its full name, or any with -Z: both files of the server are in the run directory, and sessions are stored in the directory that was prepared. Missing: relative names without -Z, refuted below / C137_relative_refuted: A server that detaches looks up a relative name from the root directory"
  },
  {
   "property": "C138",
   "status": "partial",
   "theorems": [
    "C138_plan_partial",
    "C138_ignored_refuted"
   ],
   "note": "C138_plan_partial: -c and -N are accepted exactly if the summaries divide the session evenly; the summaries then have N packets each, and all packets are in one of them; the wait between attempts is at most -I. Missing: the wait can be shorter, and -E has no effect, refuted below / C138_ignored_refuted: Whatever is given with -E is not used; a session that is shorter than the wait shortens it, to nothing if it is shorter than a second"
  },
  {
   "property": "C139",
   "status": "partial",
   "theorems": [
    "C139_session",
    "C139_summary_partial",
    "C139_cut_refuted"
   ],
   "note": "C139_summary_partial: A summary is complete after all calls if the last writes succeed. Missing: before that, refuted below / C139_cut_refuted: A summary gets its final name before its text is written: powstream stopped then, or a full disk at that time, leaves an empty or cut file under the final name"
  },
  {
   "property": "C140",
   "status": "partial",
   "theorems": [
    "C140_accepted",
    "C140_refused",
    "C140_agree_partial",
    "C140_orphan_refuted",
    "C140_history",
    "C140_history_partial"
   ],
   "note": "C140_agree_partial: Missing: False without an error should mean that the server has no new session either; this is proved if the policy of the client allows the session, its schedule can be computed, and the port of the answer can be stored. Without these: [C140_orphan_refuted]. / C140_orphan_refuted: the local policy refuses a sender after the server has accepted: False without an error, the session stays at the server; a later start starts it there / C140_history_partial: Missing: as for [C140_agree_partial]"
  },
  {
   "property": "C141",
   "status": "proved",
   "theorems": [
    "C141_session",
    "C141_incompatible",
    "C141_candidate",
    "C141_ports",
    "C141_ports_receiver"
   ],
   "note": "Proved on the model for all inputs, states and executions described by the theorems."
  },
  {
   "property": "C142",
   "status": "proved",
   "theorems": [
    "C142_consent",
    "C142_receiver_first",
    "C142_session"
   ],
   "note": "Proved on the model for all inputs, states and executions described by the theorems."
  },
  {
   "property": "C143",
   "status": "proved",
   "theorems": [
    "C143_started",
    "C143_when",
    "C143_sender_waits"
   ],
   "note": "Proved on the model for all inputs, states and executions described by the theorems."
  },
  {
   "property": "C144",
   "status": "proved",
   "theorems": [
    "C144_unique",
    "C144_none"
   ],
   "note": "Proved on the model for all inputs, states and executions described by the theorems."
  },
  {
   "property": "C145",
   "status": "partial",
   "theorems": [
    "C145_records_partial",
    "C145_blocks",
    "C145_marks",
    "C145_memory_refuted"
   ],
   "note": "C145_records_partial: Missing: the claim without memory for a block, see [C145_memory_refuted]. For all numbers of packets, sizes of blocks, schedules, and all histories of arrivals and removals: the records behave as a list with one place per packet. / C145_memory_refuted: Refuted for memory that runs out: when a packet far ahead needs a new block and there is none, the NULL pointer is used."
  },
  {
   "property": "C146",
   "status": "partial",
   "theorems": [
    "C146_caller_partial",
    "C146_session",
    "C146_no_process",
    "C146_no_loss_partial",
    "C146_lost_signal_refuted",
    "C146_failed_fork_refuted",
    "C146_failed_handler_refuted"
   ],
   "note": "C146_caller_partial: Missing: the claim if a call fails, see [C146_failed_fork_refuted]. If the session was started, each signal is handled as before (SIGCHLD is at least noticed), and is blocked if it was blocked before (SIGCHLD never); and all that was handled meanwhile was handled so. / C146_no_loss_partial: Missing: SIGTERM, SIGHUP and SIGPIPE, see [C146_lost_signal_refuted]. No other signal that arrives meanwhile is lost: it is handled, or stays pending if the caller had it blocked. / C146_lost_signal_refuted: Refuted for SIGTERM: it arrives when the signals have just been blocked; setting it to be ignored discards it, and the handler of the caller never runs. / C146_failed_fork_refuted: Refuted when fork fails: the handlers for the new process stay in the caller; SIGTERM is ignored from then on, and a SIGINT that was pending only sets a flag nobody looks at. / C146_failed_handler_refuted: Refuted when a sigaction fails: the signals stay blocked in the caller."
  },
  {
   "property": "C147",
   "status": "partial",
   "theorems": [
    "C147_released_partial",
    "C147_own_file",
    "C147_descriptor_refuted"
   ],
   "note": "C147_released_partial: Missing: the claim when fdopen fails, see [C147_descriptor_refuted]. For every role, every point of failure while the endpoint is prepared and while its process is started: in the end all that was acquired was given back, once, and nothing else was. / C147_descriptor_refuted: Refuted when fdopen fails: the duplicated descriptor of the session file is never closed."
  },
  {
   "property": "C148",
   "status": "partial",
   "theorems": [
    "C148_records_partial",
    "C148_overflow_refuted",
    "C148_skips"
   ],
   "note": "C148_records_partial: Missing: values that do not fit, see [C148_overflow_refuted]. With N slots of mean delays of sum S, and a loss timeout T (both in units of 2^-32 s), the receiver allocates records for the packets of twice the loss timeout, 2 T N / S, up to 2^-50 of it and to cutting off the fraction; and at least 100. / C148_overflow_refuted: Refuted for long loss timeouts: with 1000 packets per second and a loss timeout of 30 days the number does not fit in its 32 bits, which is undefined; the client chooses both."
  },
  {
   "property": "C149",
   "status": "partial",
   "theorems": [
    "C149_end_delay_partial",
    "C149_whole_partial",
    "C149_huge_refuted"
   ],
   "note": "C149_end_delay_partial: Missing: numbers that do not fit, see [C149_huge_refuted]. A delay x below 2^53 seconds becomes seconds and nanoseconds in their range, within one nanosecond of it (all in units of 2^-k s). / C149_whole_partial: a whole number of seconds stays one / C149_huge_refuted: Refuted for huge numbers: the configuration file may say \"enddelay inf\" or \"enddelay 1e30\"; the conversion to seconds is then undefined."
  },
  {
   "property": "C150",
   "status": "partial",
   "theorems": [
    "C150_precedence_partial",
    "C150_dieby_refuted"
   ],
   "note": "C150_precedence_partial: Not true for two keys that are compared as prefixes (C151), for dieby ([C150_dieby_refuted]), and for the test ports (C152). / C150_dieby_refuted: The manual page says 30."
  },
  {
   "property": "C151",
   "status": "partial",
   "theorems": [
    "C151_accepted_partial",
    "C151_prefix_refuted",
    "C151_status_refuted"
   ],
   "note": "C151_accepted_partial: The daemon goes on exactly if the path fits, a directory that is given has the file, and everything in the file and on the command line has a meaning. Not true for keys that only begin like one of two keys ([C151_prefix_refuted]). / C151_prefix_refuted: A key that begins with \"maxcontrolsessions\" and goes on is taken for that key. / C151_status_refuted: An option that does not exist (or -h) ends the daemon with status 0, as if nothing were wrong."
  },
  {
   "property": "C152",
   "status": "partial",
   "theorems": [
    "C152_ports_partial",
    "C152_zero_refuted"
   ],
   "note": "C152_ports_partial: The last text counts, and without a text, or if all are 0, the system chooses. Not true if 0 is to undo an earlier range ([C152_zero_refuted]). / C152_zero_refuted: A range of the file is not undone by -P 0: the range from 0 to 0 is put into the context, and for one random number the daemon asks for port 1 instead of a port of the choice of the system."
  },
  {
   "property": "C153",
   "status": "partial",
   "theorems": [
    "C153_row_refuted"
   ],
   "note": "C153_row_refuted: The row in the message about the file is the number of the faulty line plus the length of the name of the file: always too large."
  },
  {
   "property": "C154",
   "status": "partial",
   "theorems": [
    "C154_installed",
    "C154_closed_partial",
    "C154_twice_refuted"
   ],
   "note": "C154_closed_partial: Whatever happens, a file that was opened is closed exactly once, if fclose never fails. Not true otherwise ([C154_twice_refuted]). / C154_twice_refuted: If fclose fails for the file of the pass phrases, it is called again for the same stream, which is not defined."
  },
  {
   "property": "C155",
   "status": "partial",
   "theorems": [
    "C155_modes",
    "C155_default",
    "C155_none_refuted"
   ],
   "note": "C155_none_refuted: A line \"authmode\" without a value gives a server that offers no mode at all."
  },
  {
   "property": "C156",
   "status": "partial",
   "theorems": [
    "C156_adds_up_partial",
    "C156_ttl_refuted",
    "C156_extremes"
   ],
   "note": "C156_adds_up_partial: For every summary of records as a receiver writes them: the packets of the section BUCKETS are those SENT and not LOST, and so are those of the section TTLBUCKETS; both are histograms of the first copies of the packets received. The size of the sample is that of the range, and the session counts as finished if its file says so. Missing: the section TTLBUCKETS if all 256 values occur, refuted below / C156_ttl_refuted: With all the 256 values of the TTL there are 256 packets, and no section TTLBUCKETS"
  },
  {
   "property": "C157",
   "status": "partial",
   "theorems": [
    "C157_percentile_partial",
    "C157_rounding_refuted",
    "C157_range_refuted",
    "C157_pdv"
   ],
   "note": "C157_percentile_partial: A percentile that is reported is the delay of some packet that was received, rounded away from 0: by one width of a bucket at most, and up to the precision of double. Missing: the delay itself, refuted below; delays without a bucket, refuted below / C157_rounding_refuted: With the width of 0.0001 s the median of a single packet is greater than its delay, which is reported as the maximum / C157_range_refuted: With that width a delay of three days (clocks that differ so much) has no bucket: the conversion to int is undefined"
  },
  {
   "property": "C158",
   "status": "partial",
   "theorems": [
    "C158_report_partial",
    "C158_recorded_partial",
    "C158_unknown_control",
    "C158_unknown_refuted"
   ],
   "note": "C158_report_partial: Report against records: no packet, no report; one value, that of every packet; several values, the least, the greatest and how many. Missing: 256 different values (C46_ttl_refuted); packets whose TTL is unknown, refuted below / C158_recorded_partial: The TTL of a record is the one the system tells: for both families, the one control message that was asked for / C158_unknown_refuted: If the system does not tell the TTL, the packets are recorded as if no router was passed, and the report says so"
  },
  {
   "property": "C159",
   "status": "partial",
   "theorems": [
    "C159_short_partial",
    "C159_beginning",
    "C159_long_refuted"
   ],
   "note": "C159_short_partial: A datagram shorter than a packet of the session is not taken for one. Missing: longer ones, refuted below / C159_long_refuted: A longer one is taken for a packet, whatever follows"
  },
  {
   "property": "C160",
   "status": "partial",
   "theorems": [
    "C160_dscp",
    "C160_asked_for",
    "C160_times_partial",
    "C160_after_2036_refuted"
   ],
   "note": "C160_times_partial: The times in seconds since 1970 are exact to 2 microseconds, for all times up to the year 2036. Missing: later ones, refuted below / C160_after_2036_refuted: A packet of the year 2042 is dated before 1970"
  },
  {
   "property": "C161",
   "status": "partial",
   "theorems": [
    "C161_given_back_partial",
    "C161_record_refuted",
    "C161_interface_refuted",
    "C161_fetch_refuted"
   ],
   "note": "C161_given_back_partial: Whatever an application does with a context and whatever fails, the watchman is content, and in the end nothing is left. Missing: [usual] excludes that a connection record cannot be allocated, that an interface is named and more than one address of the server is tried, and that an address record read from the server yields no address (see the refutations below). / C161_record_refuted: If the second part of a connection record cannot be allocated the process dies of a null pointer. / C161_interface_refuted: A client that names an interface and whose first attempt to connect fails: a copy of the name is lost at each attempt. / C161_fetch_refuted: A fetch whose session has no address: the record and what belongs to it are lost."
  },
  {
   "property": "C162",
   "status": "partial",
   "theorems": [
    "C162_once_partial",
    "C162_stopped",
    "C162_closed",
    "C162_failed",
    "C162_accept_refuted"
   ],
   "note": "C162_once_partial: For each session the policy is told as often as it granted it (and, by the watchman of C161, each time after a grant and when the endpoint is gone). Missing: as in C161. / C162_accept_refuted: The outcome \"accept\" (0) does not say that the session took place: it is what the policy of a server is told if its process is started and the acceptance cannot be written to the client."
  },
  {
   "property": "C163",
   "status": "proved",
   "theorems": [
    "C163_raw",
    "C163_raw_twoway"
   ],
   "note": "Proved on the model for all inputs, states and executions described by the theorems."
  },
  {
   "property": "C164",
   "status": "proved",
   "theorems": [
    "C164_output",
    "C164_order",
    "C164_quiet"
   ],
   "note": "Proved on the model for all inputs, states and executions described by the theorems."
  },
  {
   "property": "C165",
   "status": "partial",
   "theorems": [
    "C165_offset_partial",
    "C165_unset",
    "C165_errno_refuted",
    "C165_text_refuted"
   ],
   "note": "C165_offset_partial: C165 (partial: every number that is accepted is used, to a microsecond; whether it is accepted also depends on errno, and text behind it is ignored) / C165_errno_refuted: the same value is refused or accepted: errno of an earlier call decides / C165_text_refuted: a value with text behind the number is accepted"
  },
  {
   "property": "C166",
   "status": "partial",
   "theorems": [
    "C166_bind_partial",
    "C166_lost_refuted",
    "C166_kept_refuted"
   ],
   "note": "C166_bind_partial: C166 (partial: for a process without the privilege and if the changes succeed; see the refutations) / C166_lost_refuted: a process that has the privilege (owampd or powstream run by root) loses it with the first session / C166_kept_refuted: the privilege stays if it cannot be given up, and the result does not tell"
  },
  {
   "property": "C167",
   "status": "partial",
   "theorems": [
    "C167_same_partial",
    "C167_changed_refuted"
   ],
   "note": "C167_same_partial: C167 (partial: the option -vN, said to limit the number of records printed, does not change the summary as long as N is not less than the number of records of the file; see C167_changed_refuted) / C167_changed_refuted: -M makes -v to be ignored, as owping says; the limit is not: of four packets one is reported"
  },
  {
   "property": "C168",
   "status": "proved",
   "theorems": [
    "C168_memory"
   ],
   "note": "Proved on the model for all inputs, states and executions described by the theorems."
  },
  {
   "property": "C169",
   "status": "partial",
   "theorems": [
    "C169_clean_partial",
    "C169_open_refuted",
    "C169_sample_refuted"
   ],
   "note": "C169_clean_partial: C169 (partial: if the temporary files can be opened and, with several samples, all samples can be summarized, nothing is left behind; the results named are those made, and after success there is one for each sample; see the refutations) / C169_open_refuted: a temporary file that cannot be opened: the object of statistics is lost / C169_sample_refuted: a sample after the first that cannot be summarized: the file stays open and its temporary name stays in the directory"
  },
  {
   "property": "C170",
   "status": "proved",
   "theorems": [
    "C170_histogram",
    "C170_memory",
    "C170_length"
   ],
   "note": "Proved on the model for all inputs, states and executions described by the theorems."
  },
  {
   "property": "C171",
   "status": "partial",
   "theorems": [
    "C171_order_partial",
    "C171_range_refuted"
   ],
   "note": "C171_order_partial: Buckets less than 2^31 apart: the differences that the sorting looks at are defined, and the array is in ascending order of the buckets. Missing: buckets further apart. / C171_range_refuted: With the usual width of 0.1 ms, a delay of -30 hours and one of 30 hours (a clock that was set during the session): each has a bucket, the difference of the two is no int."
  },
  {
   "property": "C172",
   "status": "partial",
   "theorems": [
    "C172_kind_partial",
    "C172_zero_refuted"
   ],
   "note": "C172_kind_partial: A percentile of one kind of delay, for a number of delays [thr]/[den] above 0, is taken from the delays of that kind although all kinds share the buckets: one of them is in that bucket, fewer than [thr]/[den] are in lower buckets and at least as many in this one and the lower ones; nothing is reported only if there are fewer delays than that. Missing: the percentile 0, and buckets 2^31 or more apart (C171). / C172_zero_refuted: The percentile 0 is the lowest bucket of any kind of delay: here a delay of kind 1 is reported as one of kind 0."
  },
  {
   "property": "C173",
   "status": "partial",
   "theorems": [
    "C173_new_partial",
    "C173_end",
    "C173_taken_refuted",
    "C173_record_refuted"
   ],
   "note": "C173_new_partial: For names that are not in use: after success the file is there, empty, and the link leads to it; after failure neither is there. Nothing else is touched, and the process holds the record and the open file exactly after success. Missing: names that are in use, and, for what the process holds, directories that cannot be made. / C173_taken_refuted: A session whose identifier is in use: the stored session of that name is removed although the request is refused / C173_record_refuted: A directory that cannot be made: the record is lost"
  },
  {
   "property": "C174",
   "status": "partial",
   "theorems": [
    "C174_fetch_partial",
    "C174_class_refuted"
   ],
   "note": "C174_fetch_partial: A session that a class of the limits file has stored below the data directory is opened with that class, and when the fetch is over exactly this is changed: file and link are removed if all of it was fetched successfully and its class wants that. Missing: sessions of classes that are not in the limits file. / C174_class_refuted: A session whose class has been taken out of the limits file: it is opened, and when it has been fetched as a whole a pointer without value is used"
  },
  {
   "property": "C175",
   "status": "partial",
   "theorems": [
    "C175_asked_partial",
    "C175_other_refuted"
   ],
   "note": "C175_asked_partial: The client asks for [sid] and the server, which keeps under each identifier a file that says so, answers: the file of the client says [sid] too. Missing: any other server, refuted below / C175_other_refuted: The client does not compare: if the server answers a request for one session with another one, the fetch succeeds and the file of the other session is stored"
  },
  {
   "property": "C176",
   "status": "partial",
   "theorems": [
    "C176_told_partial",
    "C176_code_means_refused",
    "C176_silent_refuted"
   ],
   "note": "C176_told_partial: A client whose set-up response has arrived and names one of the modes that exist for its protocol is either accepted or gets an answer of 48 octets with code 1 (rejected) or 2 (failure), and a client that gets it reports that it was denied - whatever its token, its user, the policy. Missing: responses which name no such mode, refuted below / C176_silent_refuted: A client which names the mixed mode to a one-way server (likewise: two modes) is disconnected without an answer"
  }
 ]
}