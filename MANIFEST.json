{
 "claims": [
  {
   "property": "C01",
   "status": "proved",
   "theorems": [
    "C01_ring_is_fifo",
    "C01_precondition_from_total"
   ],
   "note": "Refinement to a byte queue for every operation sequence; precondition: stored plus pushed bytes at most 2^63."
  },
  {
   "property": "C02",
   "status": "proved",
   "theorems": [
    "C02_push_all_or_nothing",
    "C02_push_within_space"
   ],
   "note": "Same precondition as C01."
  },
  {
   "property": "C03",
   "status": "proved",
   "theorems": [
    "C03_align_least_power_of_two"
   ],
   "note": ""
  },
  {
   "property": "C04",
   "status": "partial",
   "theorems": [
    "C04_align_total_refuted",
    "C04_align_ub_exactly_partial"
   ],
   "note": "REFUTED: the arguments the comment singles out (0 and values above 2^63) are undefined behaviour; the partial theorem says they are exactly the bad ones."
  },
  {
   "property": "C05",
   "status": "proved",
   "theorems": [
    "C05_number_exact",
    "C05_run_exists",
    "C05_run_unique",
    "C05_invalid_base"
   ],
   "note": ""
  },
  {
   "property": "C06",
   "status": "partial",
   "theorems": [
    "C06_overflow_reported_refuted",
    "C06_overflow_reported_partial"
   ],
   "note": "REFUTED: 2^64 in decimal parses successfully as 2^64-6 (last digit dropped, no error). The partial theorem says exactly which overflows are reported and what is returned for the others."
  },
  {
   "property": "C07",
   "status": "proved",
   "theorems": [
    "C07_narrow_never_truncates"
   ],
   "note": ""
  },
  {
   "property": "C08",
   "status": "proved",
   "theorems": [
    "C08_join_tokenize_round_trip",
    "C08_need_quote_iff"
   ],
   "note": ""
  },
  {
   "property": "C09",
   "status": "partial",
   "theorems": [
    "C09_round_trip_every_list_refuted",
    "C09_round_trip_exactly_partial"
   ],
   "note": "REFUTED: empty strings and unquoted apostrophes are lost. With C08 the partial theorem shows the round trip holds for exactly the lists of C08."
  },
  {
   "property": "C47",
   "status": "partial",
   "theorems": [
    "C47_empty_run_rejected_refuted",
    "C47_empty_run_detectable_partial"
   ],
   "note": "REFUTED: a string without digits parses successfully as 0; the stop position tells."
  },
  {
   "property": "C48",
   "status": "proved",
   "theorems": [
    "C48_join_memory_safe",
    "C48_decode_in_place_safe"
   ],
   "note": "Allocation succeeds; at most 2^60 bytes of text."
  },
  {
   "property": "C49",
   "status": "proved",
   "theorems": [
    "C49_greedy_realloc"
   ],
   "note": ""
  },
  {
   "property": "C50",
   "status": "partial",
   "theorems": [
    "C50_greedy_realloc_typed_refuted",
    "C50_greedy_realloc_typed_partial",
    "C50_zeroed_partial"
   ],
   "note": "REFUTED: the byte size is computed without overflow check; holds when it fits."
  },
  {
   "property": "C10",
   "status": "proved",
   "theorems": [
    "C10_strsplit_fields",
    "C10_fields_exist",
    "C10_fields_unique"
   ],
   "note": "Allocation succeeds."
  },
  {
   "property": "C11",
   "status": "proved",
   "theorems": [
    "C11_ratelimit_windows",
    "C11_ratelimit_sliding_bound",
    "C11_ratelimit_disabled",
    "C11_ratelimit_reset"
   ],
   "note": "Monotonic clock; the first event is not within the first interval after boot (see clock)."
  },
  {
   "property": "C12",
   "status": "proved",
   "theorems": [
    "C12_dlist_refines_sequences"
   ],
   "note": "Any number of lists; nodes at pairwise different addresses."
  },
  {
   "property": "C51",
   "status": "proved",
   "theorems": [
    "C51_path_startswith"
   ],
   "note": ""
  },
  {
   "property": "C52",
   "status": "partial",
   "theorems": [
    "C52_static_definition_equals_init_refuted",
    "C52_static_definition_partial"
   ],
   "note": "REFUTED: the static initialiser puts the burst into the wrong field; such a limiter admits everything."
  },
  {
   "property": "C13",
   "status": "proved",
   "theorems": [
    "C13_htable_is_bag"
   ],
   "note": "Pointers with a common highest bit; elements inserted under their own hash; at most 3*2^28 insertions."
  },
  {
   "property": "C14",
   "status": "proved",
   "theorems": [
    "C14_htable_terminates"
   ],
   "note": "Any non-NULL pointers and any hashes; at most 3*2^28 insertions."
  },
  {
   "property": "C15",
   "status": "proved",
   "theorems": [
    "C15_htable_visits_all"
   ],
   "note": "Same preconditions as C13."
  },
  {
   "property": "C53",
   "status": "partial",
   "theorems": [
    "C53_htable_any_pointers_refuted",
    "C53_htable_common_highest_bit_partial"
   ],
   "note": "REFUTED: a pointer whose bits are a subset of the common bits of the others can be stored as an empty or deleted entry and is lost; C13 gives the positive statement for pointers with a common highest bit."
  },
  {
   "property": "C32",
   "status": "proved",
   "theorems": [
    "C32_build_packet",
    "C32_end_found"
   ],
   "note": "Binary options with codes other than 0, 52, 255."
  },
  {
   "property": "C33",
   "status": "proved",
   "theorems": [
    "C33_read_back"
   ],
   "note": "Same precondition as C32; packet length 548 (as sent) to 628."
  },
  {
   "property": "C34",
   "status": "partial",
   "theorems": [
    "C34_lookup_terminates_refuted",
    "C34_overload_terminates_refuted",
    "C34_reads_inside_refuted",
    "C34_lookup_well_formed_partial",
    "C34_lookup_overrun_partial"
   ],
   "note": "REFUTED: an option overrunning the option area hangs the lookup, so does an overload option inside the file field; an empty overload option at the end reads past the packet. Holds for well-formed packets."
  },
  {
   "property": "C35",
   "status": "proved",
   "theorems": [
    "C35_checksum_is_complement",
    "C35_ones_sum_unique",
    "C35_checksum_verifies",
    "C35_checksum_any_byte_order"
   ],
   "note": ""
  },
  {
   "property": "C46",
   "status": "proved",
   "theorems": [
    "C46_link_local_range",
    "C46_link_local_ends",
    "C46_link_local_never_ends",
    "C46_link_local_every"
   ],
   "note": ""
  },
  {
   "property": "C54",
   "status": "proved",
   "theorems": [
    "C54_random_delay",
    "C54_random_delay_undefined"
   ],
   "note": ""
  },
  {
   "property": "C40",
   "status": "proved",
   "theorems": [
    "C40_format_choice",
    "C40_choice_unique"
   ],
   "note": ""
  },
  {
   "property": "C41",
   "status": "proved",
   "theorems": [
    "C41_touch_layout"
   ],
   "note": "Scaling ratios 1, as in the only caller."
  },
  {
   "property": "C42",
   "status": "partial",
   "theorems": [
    "C42_touch_stores_inside_refuted",
    "C42_touch_reads_inside_refuted",
    "C42_split_inside_refuted",
    "C42_number_defined_refuted",
    "C42_touch_one_byte_over_partial"
   ],
   "note": "REFUTED: every touch packet is written one byte too far; a wrong pointer count reads past the fields; a trailing comma overflows the field array; a number that is no int is undefined in atoi. For complete descriptions the one byte is the only store outside."
  },
  {
   "property": "C55",
   "status": "proved",
   "theorems": [
    "C55_resolution_mask"
   ],
   "note": ""
  },
  {
   "property": "C56",
   "status": "proved",
   "theorems": [
    "C56_key_layout"
   ],
   "note": "The result of sscanf is a parameter."
  },
  {
   "property": "C36",
   "status": "proved",
   "theorems": [
    "C36_table",
    "C36_step"
   ],
   "note": "Range below 2^32-1 as end address for the scan to end (otherwise the answer is Endless)."
  },
  {
   "property": "C37",
   "status": "partial",
   "theorems": [
    "C37_picks_host_address_refuted",
    "C37_offer_partial"
   ],
   "note": "REFUTED: an expired lease is handed on although its address ends in .0; range and exclusivity are proved, and .0/.255 is never picked afresh."
  },
  {
   "property": "C38",
   "status": "partial",
   "theorems": [
    "C38_exclusive_refuted",
    "C38_rediscover_refuted",
    "C38_C39_quiet_partial"
   ],
   "note": "REFUTED: a request of a client without lease takes over an unexpired lease; a new discover of the holder makes its lease expired. Positive statement for histories without these packets."
  },
  {
   "property": "C39",
   "status": "partial",
   "theorems": [
    "C39_reserved_refuted",
    "C38_C39_quiet_partial"
   ],
   "note": "REFUTED: the offer time is stored as an absolute time, so every offer is expired at once. Positive statement as for C38."
  },
  {
   "property": "C57",
   "status": "partial",
   "theorems": [
    "C57_expired_reused_refuted",
    "C57_discover_answered_partial"
   ],
   "note": "REFUTED for times from 2^31 on (32-bit comparison); proved below."
  },
  {
   "property": "C58",
   "status": "partial",
   "theorems": [
    "C58_server_id_refuted",
    "C58_reply_partial"
   ],
   "note": "REFUTED for the server identifier (bytes reversed on little-endian machines); everything else proved."
  },
  {
   "property": "C59",
   "status": "partial",
   "theorems": [
    "C59_reads_inside_refuted",
    "C59_decode_partial"
   ],
   "note": "REFUTED: address options without data are read past the packet; proved for well-formed packets with address options of 3 bytes or more."
  },
  {
   "property": "C60",
   "status": "partial",
   "theorems": [
    "C60_renew_refuted",
    "C60_own_address_partial"
   ],
   "note": "REFUTED for renewal by the header field (byte order); proved for the requested-address option."
  },
  {
   "property": "C16",
   "status": "proved",
   "theorems": [
    "C16_chunk_independent"
   ],
   "note": "Every handler of messages; memory allocation succeeds."
  },
  {
   "property": "C17",
   "status": "partial",
   "theorems": [
    "C17_never_inconsistent",
    "C17_inspected",
    "C17_every_byte_used_refuted",
    "C18_received_partial"
   ],
   "note": "The count and the consistency check are proved. REFUTED: the byte after an empty data packet belongs to no message; for streams of well-formed items it is proved (C18_received_partial)."
  },
  {
   "property": "C18",
   "status": "partial",
   "theorems": [
    "C18_built",
    "C18_sent",
    "C18_received_partial",
    "C18_any_number_refuted"
   ],
   "note": "REFUTED beyond 61 headers with a body (the receiver uses a freed header array); proved for up to 61 headers, bodies below 2^32 bytes and texts without control characters and quotation marks."
  },
  {
   "property": "C19",
   "status": "proved",
   "theorems": [
    "C19_sealed_complete"
   ],
   "note": "For every message made by any sequence of builder calls whose sealing does not meet C61."
  },
  {
   "property": "C20",
   "status": "proved",
   "theorems": [
    "C20_packet",
    "C18_received_partial"
   ],
   "note": ""
  },
  {
   "property": "C21",
   "status": "partial",
   "theorems": [
    "C21_large_refuted",
    "C21_empty_refuted",
    "C21_sync_partial"
   ],
   "note": "REFUTED: packets of 65536 bytes and more are announced with their length modulo 65536; after an empty packet one byte is lost. Proved for 1 to 65535 bytes."
  },
  {
   "property": "C22",
   "status": "proved",
   "theorems": [
    "C22_sealed_stays",
    "C22_changes_rejected",
    "C22_seal_again",
    "C22_seal_open"
   ],
   "note": ""
  },
  {
   "property": "C61",
   "status": "partial",
   "theorems": [
    "C61_any_headers_refuted",
    "C61_building_partial",
    "C61_sealing_partial"
   ],
   "note": "REFUTED: more than 64 headers move the header array and leave pointers into the old one. Proved up to 61."
  },
  {
   "property": "C62",
   "status": "partial",
   "theorems": [
    "C62_parser_memory_safe_refuted",
    "C62_parser_memory_safe_partial"
   ],
   "note": "REFUTED: 62 headers and a body sent by the peer. Proved unless a message has more than 60 headers."
  },
  {
   "property": "C63",
   "status": "partial",
   "theorems": [
    "C63_from_raw_inside_refuted",
    "C63_from_raw_inside_partial"
   ],
   "note": "REFUTED: one byte after the buffer is read when a text body ends with its line end."
  },
  {
   "property": "C23",
   "status": "proved",
   "theorems": [
    "C23_written_in_order"
   ],
   "note": "bytes on the wire are whole messages in queueing order plus a prefix of the first queued one; messages are left out only by replies, timeouts or cancellations"
  },
  {
   "property": "C24",
   "status": "partial",
   "theorems": [
    "C24_completes_once_refuted",
    "C24_completes_partial",
    "C24_fate_partial"
   ],
   "note": "REFUTED: a call hit by a reply or timeout while still queued stays waiting and can complete again. Proved: at most twice, and at most once when never hit while queued (distinct cookies among waiting messages)"
  },
  {
   "property": "C25",
   "status": "partial",
   "theorems": [
    "C25_cancelled_refuted",
    "C25_cancelled_partial"
   ],
   "note": "REFUTED: a call cancelled while still queued can time out later. Proved: after cancelling a call whose writing has begun no callback runs, else at most one"
  },
  {
   "property": "C26",
   "status": "partial",
   "theorems": [
    "C26_no_cookie_refuted",
    "C26_rejected_partial",
    "C26_accepted_partial"
   ],
   "note": "REFUTED: a message without cookie is always rejected with EINVAL. Proved: sealable requests with an own cookie are accepted"
  },
  {
   "property": "C27",
   "status": "proved",
   "theorems": [
    "C27_replies_matched",
    "C27_reply_completes"
   ],
   "note": "callbacks with a reply only for the request with that CSeq, never for our own replies; a reply completes the waiting call with its CSeq and else changes nothing"
  },
  {
   "property": "C64",
   "status": "partial",
   "theorems": [
    "C64_same_cseq_refuted",
    "C64_safe_partial",
    "C64_table_live_partial"
   ],
   "note": "REFUTED: three replies with one CSeq lead to use after free. Proved: safe when waiting messages have different cookies (apart from sealing, see C61)"
  },
  {
   "property": "C30",
   "status": "partial",
   "theorems": [
    "C30_reply_words_refuted",
    "C30_reply_lines_partial",
    "C30_event_tokens_partial",
    "C30_request_text_partial"
   ],
   "note": "REFUTED as stated: replies are split at newlines only. Proved: replies are their lines, events read back as the tokens they were built from, requests of plain tokens have single blanks between them"
  },
  {
   "property": "C31",
   "status": "partial",
   "theorems": [
    "C31_event_length_refuted",
    "C31_event_short_partial"
   ],
   "note": "REFUTED: the announced length of every event lacks the length of the level prefix; the exact difference is proved"
  },
  {
   "property": "C65",
   "status": "proved",
   "theorems": [
    "C65_request_round_trip",
    "C65_sealed_fixed"
   ],
   "note": ""
  },
  {
   "property": "C66",
   "status": "partial",
   "theorems": [
    "C66_any_datagram_refuted",
    "C66_defined_partial"
   ],
   "note": "REFUTED: an event level outside int is undefined (atoi). Proved for the server side, and for the client side with fewer than ten digits"
  },
  {
   "property": "C67",
   "status": "proved",
   "theorems": [
    "C67_interface_prefix"
   ],
   "note": ""
  },
  {
   "property": "C68",
   "status": "proved",
   "theorems": [
    "C68_dict_first",
    "C68_numbers",
    "C68_no_number",
    "C68_by_position",
    "C68_by_position_reply"
   ],
   "note": ""
  },
  {
   "property": "C28",
   "status": "partial",
   "theorems": [
    "C28_send_refuted",
    "C28_one_at_a_time_partial",
    "C28_written_in_order",
    "C28_callbacks_in_order_partial"
   ],
   "note": "REFUTED when a client sends a request with wpas_send, which does not wait for the reply. Proved in full for requests made with wpas_call_async (the only ones the daemon makes); the order of writing is proved for all runs"
  },
  {
   "property": "C29",
   "status": "partial",
   "theorems": [
    "C29_reply_refuted",
    "C29_cancelled_silent",
    "C29_cookie_cancels",
    "C29_reply_swallowed_partial"
   ],
   "note": "REFUTED for the second half when wpas_send was used before. Proved: a cancelled request is never written or called back later (all runs), its cookie cancels exactly it, and without wpas_send its reply is given to nobody"
  },
  {
   "property": "C45",
   "status": "partial",
   "theorems": [
    "C45_restart_refuted",
    "C45_ready_partial",
    "C45_not_before_partial",
    "C45_finishes_partial"
   ],
   "note": "REFUTED: the counter of open setup requests is not reset on failure, so a link whose process failed during setup never becomes ready. Proved: with all requests answered the link is ready iff no request was left unanswered at an earlier failure, never before, and finitely many replies answer all"
  },
  {
   "property": "C69",
   "status": "partial",
   "theorems": [
    "C69_stale_p2p_refuted",
    "C69_first_p2p_partial"
   ],
   "note": "REFUTED: the flag is never reset on a restart. Proved while no earlier process had P2P"
  },
  {
   "property": "C43",
   "status": "proved",
   "theorems": [
    "C43_subnets_distinct",
    "C43_start_iff"
   ],
   "note": ""
  },
  {
   "property": "C44",
   "status": "partial",
   "theorems": [
    "C44_double_free_refuted",
    "C44_use_after_free_refuted",
    "C44_never_freed_refuted",
    "C44_undefined_iff_partial",
    "C44_no_dangling_partial",
    "C44_torn_twice_partial",
    "C44_teardown_partial",
    "C44_last_station_partial",
    "C44_stopped_partial"
   ],
   "note": "REFUTED: tearing down a local group with stations frees it twice; a group refers to its owner after the owner was freed; a group whose owner leaves is never freed. Proved: these are the only undefined steps, exactly when the first happens, no peer refers to a freed group, tearing down removes exactly the group, the last station leaving frees it, stopping frees everything"
  },
  {
   "property": "C70",
   "status": "partial",
   "theorems": [
    "C70_connected_refuted",
    "C70_connected_partial"
   ],
   "note": "REFUTED: a peer that left the group it owns is reported connected again by a later DHCP line. Proved if owners are members of their groups at DHCP lines"
  },
  {
   "property": "C71",
   "status": "proved",
   "theorems": [
    "C71_call_order"
   ],
   "note": ""
  },
  {
   "property": "C72",
   "status": "partial",
   "theorems": [
    "C72_removed_called_refuted",
    "C72_never_again_partial"
   ],
   "note": "REFUTED within one delivery: a callback removed by an earlier one is still called for the same message. Proved: a registration no longer in force is never called again"
  },
  {
   "property": "C73",
   "status": "partial",
   "theorems": [
    "C73_remove_twice_refuted",
    "C73_idle_exact",
    "C73_delivery_partial"
   ],
   "note": "REFUTED for two removals of one pair within one delivery: both take back the same registration. Proved outside of deliveries, and within if no pair is removed twice"
  },
  {
   "property": "C74",
   "status": "partial",
   "theorems": [
    "C74_stale_wfd_refuted",
    "C74_first_wfd_partial"
   ],
   "note": "REFUTED: the flag is never reset on a restart. Proved while no earlier process had P2P"
  },
  {
   "property": "C75",
   "status": "proved",
   "theorems": [
    "C75_defined",
    "C75_held_alive",
    "C75_references_stay",
    "C75_counts"
   ],
   "note": ""
  },
  {
   "property": "C76",
   "status": "partial",
   "theorems": [
    "C76_call_leaks_refuted",
    "C76_late_message_refuted",
    "C76_last_release_partial",
    "C76_not_before"
   ],
   "note": "REFUTED: a bus released while a call is not yet written is never freed, nor is one whose queued message is released after the bus. Proved: in exactly these cases it is not freed"
  },
  {
   "property": "C77",
   "status": "proved",
   "theorems": [
    "C77_overload_lookup"
   ],
   "note": "Each field ends with an end marker and the file and name fields have no overload options of their own (those hang the lookup, C34)."
  },
  {
   "property": "C78",
   "status": "proved",
   "theorems": [
    "C78_sent_is_received",
    "C78_sent_is_valid"
   ],
   "note": "System calls of the sender succeed."
  },
  {
   "property": "C79",
   "status": "partial",
   "theorems": [
    "C79_accepted_is_valid",
    "C79_valid_is_accepted_refuted",
    "C79_valid_is_accepted_partial"
   ],
   "note": "REFUTED: valid packets whose UDP checksum is transmitted as 0xffff are dropped. Proved: what is accepted is valid; every valid packet with other checksums is accepted."
  },
  {
   "property": "C80",
   "status": "partial",
   "theorems": [
    "C80_short_packet_refuted",
    "C80_no_cookie_refuted",
    "C80_long_packets_partial"
   ],
   "note": "REFUTED: an IP packet whose total length is below 28 makes memcpy copy almost 2^64 bytes; a datagram shorter than 240 bytes makes the receiver compare uninitialised bytes. Proved: every other frame is handled."
  },
  {
   "property": "C81",
   "status": "partial",
   "theorems": [
    "C81_addresses_partial",
    "C81_numbers_partial",
    "C81_text_partial",
    "C81_unknown",
    "C81_incomplete_refuted",
    "C81_incomplete",
    "C81_short_refuted",
    "C81_undefined_exact"
   ],
   "note": "REFUTED: an option shorter than its type makes the client read an uninitialised string; an incomplete address at the end becomes an empty value. Proved: exactly which options do, all others are decoded right; message type is never decoded."
  },
  {
   "property": "C82",
   "status": "partial",
   "theorems": [
    "C82_stopped_partial",
    "C82_started_twice_refuted",
    "C82_stopped_in_callback_refuted",
    "C82_removed_once_refuted"
   ],
   "note": "REFUTED: starting a running client, or stopping it in the callback of the lease, leaves timers behind; timers that have run are removed again. Proved: none is left if callbacks do not call the client and it is started only when it does not run."
  },
  {
   "property": "C83",
   "status": "partial",
   "theorems": [
    "C83_lease_ends_partial",
    "C83_nak_refuted"
   ],
   "note": "REFUTED: after a NAK while rebinding the loss of the address is never reported. Proved for all other histories."
  },
  {
   "property": "C84",
   "status": "partial",
   "theorems": [
    "C84_renewal_refuted",
    "C84_always_ignored",
    "C84_no_option",
    "C84_rebinding_partial"
   ],
   "note": "REFUTED: while renewing every packet is ignored (its options are searched with length 0). Proved: while rebinding an acknowledgement extends the lease."
  },
  {
   "property": "C85",
   "status": "partial",
   "theorems": [
    "C85_handshake_partial",
    "C85_start_again_refuted",
    "C85_socket_error_refuted"
   ],
   "note": "REFUTED: a client that reported no lease and is started again without a stop does not answer offers; nor after a socket error. Proved: after a stop, whatever happened before."
  },
  {
   "property": "C86",
   "status": "partial",
   "theorems": [
    "C86_every_step_ends_partial",
    "C86_no_server_refuted",
    "C86_no_server_reboot_refuted",
    "C86_start_in_callback_refuted"
   ],
   "note": "REFUTED: an offer without server identifier, or an acknowledgement without one to a client asking for its last address, reads a null pointer; starting in the no-lease callback recurses for ever. Proved: all other steps are defined and end."
  },
  {
   "property": "C87",
   "status": "partial",
   "theorems": [
    "C87_goes_on_partial",
    "C87_no_socket_refuted",
    "C87_silent_refuted"
   ],
   "note": "REFUTED: if a socket cannot be made when the lease ends the client neither goes on nor reports; after the report of no lease a late offer makes it go on. Proved: with sockets, a timer is pending or the last act was the report."
  },
  {
   "property": "C88",
   "status": "partial",
   "theorems": [
    "C88_six_discovers_partial",
    "C88_refused_refuted"
   ],
   "note": "REFUTED: after seven NAKs hundreds are sent. Proved for up to six NAKs since the last stop."
  },
  {
   "property": "C89",
   "status": "partial",
   "theorems": [
    "C89_prefixed_ok_refuted",
    "C89_unsealed_refuted",
    "C89_verdict_partial",
    "C89_no_reply"
   ],
   "note": "REFUTED: a good reply behind an interface prefix is not recognised; a reply that is not sealed makes strcmp read a null pointer. Proved: received datagrams count as good exactly if their whole text is OK and a newline; requests and events never."
  },
  {
   "property": "C90",
   "status": "proved",
   "theorems": [
    "C90_connection_lost"
   ],
   "note": "The transport reporting the hangup is an event of the run."
  },
  {
   "property": "C91",
   "status": "proved",
   "theorems": [
    "C91_numbered"
   ],
   "note": "Fewer than 2^63 messages."
  },
  {
   "property": "C92",
   "status": "partial",
   "theorems": [
    "C92_claimed_partial",
    "C92_no_socket_refuted",
    "C92_socket_error_refuted"
   ],
   "note": "REFUTED: if the ARP socket cannot be opened, or fails, the client goes on and claims the address without listening. Proved for working sockets."
  },
  {
   "property": "C93",
   "status": "proved",
   "theorems": [
    "C93_kept",
    "C93_defended",
    "C93_lost",
    "C93_lost_rightly"
   ],
   "note": "For working sockets; the exact announcement is for timers in time."
  },
  {
   "property": "C94",
   "status": "partial",
   "theorems": [
    "C94_tenth_conflict_partial",
    "C94_requests_refuted",
    "C94_started_again_refuted"
   ],
   "note": "REFUTED: requests for a held address, which any host sends, count as conflicts, so a loss can end in giving up; the count survives stop and start, so a client that gave up gives up again at the first conflict. Proved for clients that never held an address, counting over all starts."
  },
  {
   "property": "C95",
   "status": "partial",
   "theorems": [
    "C95_others_partial",
    "C95_asked_refuted"
   ],
   "note": "REFUTED: a host that asks for the address makes the client drop it. Proved: packets that do not name the address change nothing."
  },
  {
   "property": "C96",
   "status": "partial",
   "theorems": [
    "C96_stopped_partial",
    "C96_stopped_when_available_partial",
    "C96_stop_refuted"
   ],
   "note": "REFUTED: stopped in the callback for a lost address the client goes on and claims another. Proved for stops outside callbacks and in the callback for an available address."
  },
  {
   "property": "C97",
   "status": "proved",
   "theorems": [
    "C97_found"
   ],
   "note": "For working sockets and timers in time."
  },
  {
   "property": "C98",
   "status": "partial",
   "theorems": [
    "C98_address_partial",
    "C98_stopped_refuted"
   ],
   "note": "REFUTED: after a stop the old address is still returned. Proved: the address held is returned; C93_lost: none after a loss."
  },
  {
   "property": "C99",
   "status": "proved",
   "theorems": [
    "C99_not_early",
    "C99_in_time"
   ],
   "note": "Lower bounds for every history; that none is missed for timers in time."
  },
  {
   "property": "C100",
   "status": "partial",
   "theorems": [
    "C100_minute_partial",
    "C100_minute_refuted"
   ],
   "note": "REFUTED: the delay has 32 bits of milliseconds, a lease of 265 days is renewed twice within a second. Proved for leases of less than 2^24 seconds."
  },
  {
   "property": "C101",
   "status": "partial",
   "theorems": [
    "C101_address_partial",
    "C101_address_refuted"
   ],
   "note": "REFUTED: the address of the offer is kept although another one was acknowledged. Proved for servers that acknowledge the address requested."
  },
  {
   "property": "C102",
   "status": "partial",
   "theorems": [
    "C102_options_partial",
    "C102_unquoted_refuted"
   ],
   "note": "REFUTED as RFC 2326 has it: the list of methods is sent as one quoted string, since it contains spaces. Proved: the exact bytes sent and that nothing else changes."
  },
  {
   "property": "C103",
   "status": "partial",
   "theorems": [
    "C103_answer_partial",
    "C103_overflow_refuted",
    "C103_once_refuted"
   ],
   "note": "REFUTED: an extension of more than 511 bytes with its name overflows the buffer; an extension named wfd_content_protection is answered twice. Proved for extensions that fit, with unique names."
  },
  {
   "property": "C104",
   "status": "proved",
   "theorems": [
    "C104_told",
    "C104_masks"
   ],
   "note": ""
  },
  {
   "property": "C105",
   "status": "partial",
   "theorems": [
    "C105_play_partial",
    "C105_timeout",
    "C105_error_refuted"
   ],
   "note": "REFUTED: the status of the reply is not looked at, PLAY follows an error reply with a Session header too. Proved: what is sent for every reply."
  },
  {
   "property": "C106",
   "status": "partial",
   "theorems": [
    "C106_uibc_partial",
    "C106_number_refuted",
    "C106_again_refuted"
   ],
   "note": "REFUTED: a capability that breaks off before the number switches the channel on without a port (the result EOF of sscanf counts as success); port=none does not switch it off again. Proved: the effect of none, of a named port and of no port at all."
  },
  {
   "property": "C107",
   "status": "partial",
   "theorems": [
    "C107_answered_partial",
    "C107_others",
    "C107_every_refuted"
   ],
   "note": "REFUTED: requests with other methods (TEARDOWN) get no reply. Proved for runs of the three known methods; others change nothing."
  },
  {
   "property": "C108",
   "status": "proved",
   "theorems": [
    "C108_one_answer",
    "C108_closed",
    "C108_busy"
   ],
   "note": ""
  },
  {
   "property": "C109",
   "status": "partial",
   "theorems": [
    "C109_reports_partial",
    "C109_hasty_refuted",
    "C109_next_refuted"
   ],
   "note": "REFUTED: a user that closes the sink in the connected callback, with a hang-up in the same event, is told of a disconnect of a closed sink, and the next connection is dropped silently. Proved for users that leave the sink alone in that callback."
  },
  {
   "property": "C110",
   "status": "partial",
   "theorems": [
    "C110_no_leak_partial",
    "C110_kept_partial",
    "C110_unconnected_partial",
    "C110_twice_refuted",
    "C110_file_refuted",
    "C110_reconnect_refuted"
   ],
   "note": "REFUTED: the bus owns the descriptor and closes it, and sink_close closes it again; the second close hits whatever a disconnected callback has opened, also the socket of a new attempt. Proved: nothing leaks; nothing foreign is closed if the callbacks open nothing; exact for connections that were never established."
  },
  {
   "property": "C111",
   "status": "partial",
   "theorems": [
    "C111_pointers_partial",
    "C111_vanished_refuted",
    "C111_broken_refuted",
    "C111_quit_refuted",
    "C111_stuck_refuted"
   ],
   "note": "REFUTED: a peer that stops being a display is forgotten by the callbacks but stays the running peer; after it is freed the next timer reads it, and no other peer is served any more; a new peer whose message breaks off is freed without a callback; at the end the sink is freed before the peers, whose callback closes it. Proved for histories without these three events."
  },
  {
   "property": "C112",
   "status": "proved",
   "theorems": [
    "C112_quiet"
   ],
   "note": ""
  },
  {
   "property": "C113",
   "status": "partial",
   "theorems": [
    "C113_session_partial",
    "C113_address",
    "C113_hot_refuted"
   ],
   "note": "REFUTED: after a refused connection the next attempt is made at once and without limit (any number of attempts at the same instant). Proved: the timetable and order of everything else, for histories as in C111; the address for all."
  },
  {
   "property": "C114",
   "status": "proved",
   "theorems": [
    "C114_descriptors",
    "C114_reports"
   ],
   "note": "Closing twice (C110) remains, but never hits another descriptor."
  },
  {
   "property": "C115",
   "status": "partial",
   "theorems": [
    "C115_lost",
    "C115_timer",
    "C115_failure",
    "C115_no_timer",
    "C115_exit_partial",
    "C115_running_refuted",
    "C115_early_refuted"
   ],
   "note": "REFUTED: at the end scanning is asked for again if a peer was running, and not switched off if the daemon has not yet confirmed it. Proved: everything before the end, for histories as in C111; the end without peers and with confirmed scanning."
  },
  {
   "property": "C116",
   "status": "partial",
   "theorems": [
    "C116_one",
    "C116_ours_partial",
    "C116_kill_refuted",
    "C116_again_refuted"
   ],
   "note": "REFUTED: sink_pid is kept when the player ends by itself: the signal goes to whoever has the number then, and no other player is started. Proved: one player at a time; signals to our own processes if players do not end by themselves."
  },
  {
   "property": "C117",
   "status": "partial",
   "theorems": [
    "C117_progress_partial",
    "C117_never_ready_partial",
    "C117_stuck_refuted"
   ],
   "note": "REFUTED: a setup request that is unanswered when its process ends is never taken off setup_cnt; the next process answers everything, but the link is not ready and nothing is pending. Proved: progress without such requests; with one, the link is never ready again."
  },
  {
   "property": "C118",
   "status": "proved",
   "theorems": [
    "C118_times",
    "C118_retry",
    "C118_backoff",
    "C118_anew"
   ],
   "note": "Clock readings up to 2^64 - 200 s; fewer than 2^64 - 4 abandoned requests."
  },
  {
   "property": "C119",
   "status": "proved",
   "theorems": [
    "C119_rate"
   ],
   "note": "Monotonic clock, as in C118."
  },
  {
   "property": "C120",
   "status": "proved",
   "theorems": [
    "C120_signals",
    "C120_stop"
   ],
   "note": "Process numbers are not reused."
  },
  {
   "property": "C121",
   "status": "partial",
   "theorems": [
    "C121_merged_refuted",
    "C121_apart_partial",
    "C121_watched_partial",
    "C121_forever_partial",
    "C121_early",
    "C121_source_partial",
    "C121_left_partial",
    "C121_stop_left",
    "C121_hup_left"
   ],
   "note": "REFUTED: a process that is stopped, or whose connection ends first, loses its child source and is left to manager_signal_fn, which waits only for the process that the signal names; if two of them end before SIGCHLD is read, as when a link with a group is stopped, one is never waited for (C121_merged_refuted). Proved: all are waited for if SIGCHLD is read between two ends, and those with a child source always; no running process is taken away."
  },
  {
   "property": "C122",
   "status": "partial",
   "theorems": [
    "C122_freed_partial",
    "C122_leak_refuted"
   ],
   "note": "REFUTED: supplicant_status_fn overwrites its message without releasing it; the messages hold the connection, which is never freed and whose descriptor stays open after a stop. Proved: freed if no process has P2P."
  },
  {
   "property": "C123",
   "status": "partial",
   "theorems": [
    "C123_counted_partial",
    "C123_twice_refuted"
   ],
   "note": "REFUTED: if the global socket serves for the device too, its end counts twice and the second failure within ten seconds is answered with a pause of 30 s. Proved: the exact count of every event."
  },
  {
   "property": "C124",
   "status": "proved",
   "theorems": [
    "C124_form",
    "C124_reads",
    "C124_idem",
    "C124_canon_inj",
    "C124_ntoa",
    "C124_blanks",
    "C124_sign"
   ],
   "note": "Example C124_ex_none: all texts without a leading digit become 00:00:00:00:00:00."
  },
  {
   "property": "C125",
   "status": "partial",
   "theorems": [
    "C125_safe",
    "C125_remote",
    "C125_local",
    "C125_router",
    "C125_other",
    "C125_station_refuted"
   ],
   "note": "REFUTED for station addresses: sta_mac is kept as wpa_supplicant wrote it and compared with the canonical text, so one written with capitals is not found. Proved: everything else, for peers whose addresses are canonical."
  },
  {
   "property": "C126",
   "status": "partial",
   "theorems": [
    "C126_local",
    "C126_fails",
    "C126_silent",
    "C126_remote_partial",
    "C126_stale_refuted",
    "C126_router_refuted"
   ],
   "note": "REFUTED: a lease for the same address and mask with another router is not passed on; with a lease without router the owner is never reported. Proved: the local address always; the remote address if every lease has a router and it changes only with the address."
  },
  {
   "property": "C127",
   "status": "partial",
   "theorems": [
    "C127_peer_partial",
    "C127_line_partial",
    "C127_late_refuted"
   ],
   "note": "REFUTED: joining reports nothing, so a peer whose address is told before it joins is reported only with the next message. Proved: reported with the message if it has joined, and with any later message."
  },
  {
   "property": "C128",
   "status": "proved",
   "theorems": [
    "C128_right_picture",
    "C128_always",
    "C128_since_the_start"
   ],
   "note": "For answers in which links come before their peers, see C131."
  },
  {
   "property": "C129",
   "status": "proved",
   "theorems": [
    "C129_late_signals"
   ],
   "note": "For answers in which links come before their peers, see C131."
  },
  {
   "property": "C130",
   "status": "partial",
   "theorems": [
    "C130_managed_refuted",
    "C130_scanning_refuted",
    "C130_addresses_refuted",
    "C130_picture_partial"
   ],
   "note": "REFUTED: Managed is never signalled, so other programs keep the old value; the end of wpa_supplicant while scanning is not signalled, so a program believes it still scans and does not ask again; addresses that change while connected are not signalled. Proved: right as long as none of these happens."
  },
  {
   "property": "C131",
   "status": "partial",
   "theorems": [
    "C131_any_order_refuted",
    "C131_links_first_partial",
    "C131_named_in_order"
   ],
   "note": "REFUTED: if a peer comes before its link the whole answer is given up, since ctl_wifi_parse_peer does not skip its properties. Proved: any order with links first, such as that of manager_dbus_enumerate; which order sd-bus uses is not modelled."
  },
  {
   "property": "C132",
   "status": "proved",
   "theorems": [
    "C132_leaves",
    "C132_order"
   ],
   "note": ""
  },
  {
   "property": "C133",
   "status": "proved",
   "theorems": [
    "C133_unknown_word",
    "C133_wrong_count",
    "C133_known_word",
    "C133_help"
   ],
   "note": ""
  },
  {
   "property": "C134",
   "status": "proved",
   "theorems": [
    "C134_sessions",
    "C134_wifid_signals",
    "C134_start",
    "C134_quit",
    "C134_ends"
   ],
   "note": "For pictures in which each link was told with friendly name and WFD subelements, as wifid does (C134_wifid_signals, C134_start)."
  },
  {
   "property": "C135",
   "status": "proved",
   "theorems": [
    "C135_commands"
   ],
   "note": "For words in the usage; with fewer than 2^32 peers."
  },
  {
   "property": "C136",
   "status": "partial",
   "theorems": [
    "C136_managed_refuted",
    "C136_connect_refuted",
    "C136_scan_refuted",
    "C136_nothing_else_partial"
   ],
   "note": "REFUTED: set-managed takes every word but no as yes (off manages the link); connect with three arguments passes on any provisioning method; p2p-scan with two links takes the last. Proved: for all other lines."
  },
  {
   "property": "C137",
   "status": "partial",
   "theorems": [
    "C137_links",
    "C137_bare_refuted",
    "C137_peers_partial"
   ],
   "note": "REFUTED: with nothing before the @ the first peer of the link is taken, since the empty text counts as number 0; disconnect @wlan0 disconnects it. Proved: links; all other names of peers."
  },
  {
   "property": "C138",
   "status": "proved",
   "theorems": [
    "C138_completes"
   ],
   "note": ""
  },
  {
   "property": "C139",
   "status": "partial",
   "theorems": [
    "C139_argument_refuted",
    "C139_past_refuted",
    "C139_argument_partial",
    "C139_no_space_partial"
   ],
   "note": "REFUTED: with four or more words in front completion_fns, an array of 3, is read past its end. Proved: right up to three words."
  },
  {
   "property": "C140",
   "status": "partial",
   "theorems": [
    "C140_bound_refuted",
    "C140_commands_partial"
   ],
   "note": "REFUTED: a bound link that appears is run on though new links are not managed; wifid refuses, the program believes it runs and run does nothing any more. Proved: for commands."
  },
  {
   "property": "C141",
   "status": "partial",
   "theorems": [
    "C141_scan_left_refuted",
    "C141_stopped_partial",
    "C141_remembered"
   ],
   "note": "REFUTED: a scan that was accepted but not signalled yet is not stopped, since ctl_link_set_p2p_scanning compares with the old value. Proved: exactly the remembered scans that were signalled are stopped; all accepted scans are remembered."
  },
  {
   "property": "C142",
   "status": "partial",
   "theorems": [
    "C142_port_refuted",
    "C142_player_refuted",
    "C142_autocmd_refuted",
    "C142_settings_partial",
    "C142_ends_partial",
    "C142_words"
   ],
   "note": "REFUTED: parse_argv resets the port and the player, so rstp-port and external-player of the file have no effect; options in autocmd count before those of the command line. Proved: what every setting is, for every command line."
  },
  {
   "property": "C143",
   "status": "partial",
   "theorems": [
    "C143_typo_refuted",
    "C143_names_partial",
    "C143_hex_partial",
    "C143_octal_partial",
    "C143_large_partial"
   ],
   "note": "REFUTED: a word that is neither name nor number gives level 0, so that only fatal messages are shown. Proved: names in any case, decimal numbers."
  },
  {
   "property": "C144",
   "status": "proved",
   "theorems": [
    "C144_wifictl",
    "C144_wifid",
    "C144_wifid_ends",
    "C144_number"
   ],
   "note": "the file says config_methods and wpa-log-level where the options are config-methods and wpa-loglevel"
  },
  {
   "property": "C145",
   "status": "proved",
   "theorems": [
    "C145_fits"
   ],
   "note": ""
  },
  {
   "property": "C146",
   "status": "partial",
   "theorems": [
    "C146_external_refuted",
    "C146_sound_refuted",
    "C146_plays_partial",
    "C146_viewer_partial",
    "C146_pipeline"
   ],
   "note": "REFUTED: an external player with UIBC gets the address first, where getopts stops, so it has no port; gstplayer (with UIBC) always plays sound. Proved: without UIBC, for values without blanks; with UIBC port, address and scaling."
  },
  {
   "property": "C147",
   "status": "partial",
   "theorems": [
    "C147_injected_refuted",
    "C147_intent_refuted",
    "C147_configures_partial",
    "C147_intent_partial",
    "C147_argv_partial",
    "C147_verbosity_partial"
   ],
   "note": "REFUTED: a friendly name with a line break writes keys of its own; go-intent of the file wraps at 2^32. Proved: for values of one line; the intent is at most 15."
  },
  {
   "property": "C148",
   "status": "proved",
   "theorems": [
    "C148_links_exist",
    "C148_links_distinct",
    "C148_no_link_zero"
   ],
   "note": ""
  },
  {
   "property": "C149",
   "status": "partial",
   "theorems": [
    "C149_renamed_refuted",
    "C149_unmoved_partial"
   ],
   "note": "REFUTED: a link that is renamed stays and stays managed. Proved: without renames."
  },
  {
   "property": "C150",
   "status": "partial",
   "theorems": [
    "C150_nameless_refuted",
    "C150_named_partial",
    "C150_free_partial"
   ],
   "note": "REFUTED: strcmp of NULL for an event without INTERFACE of a known link with --interface. Proved: if all events are named, or without --interface."
  },
  {
   "property": "C151",
   "status": "partial",
   "theorems": [
    "C151_unwanted_refuted",
    "C151_wanted_refuted",
    "C151_until_udev_partial",
    "C151_only_partial",
    "C151_new_partial",
    "C151_rely_partial",
    "C151_lazy_partial"
   ],
   "note": "REFUTED: any udev event of the device manages the link again, or with RELY_UDEV and --lazy-managed unmanages it. Proved: until the next udev event of the device; what options and tags say for new links."
  },
  {
   "property": "C152",
   "status": "proved",
   "theorems": [
    "C152_quiet"
   ],
   "note": ""
  },
  {
   "property": "C153",
   "status": "partial",
   "theorems": [
    "C153_name_refuted",
    "C153_sub_refuted",
    "C153_timely_partial",
    "C153_status_partial",
    "C153_display_partial",
    "C153_ready_partial",
    "C153_ready_sub_partial"
   ],
   "note": "REFUTED: what is set after the setup request was sent and before the setup ends is never sent. Proved: for all other times."
  },
  {
   "property": "C154",
   "status": "partial",
   "theorems": [
    "C154_host_refuted",
    "C154_user_partial"
   ],
   "note": "REFUTED: the name of the machine reaches no link. Proved: names and subelements are those a user set."
  },
  {
   "property": "C155",
   "status": "partial",
   "theorems": [
    "C155_renamed_refuted",
    "C155_unmoved_partial"
   ],
   "note": "REFUTED: after a rename a restarted wpa_supplicant gets the new name, the paths keep the old one. Proved: without renames."
  },
  {
   "property": "C156",
   "status": "partial",
   "theorems": [
    "C156_stub_refuted",
    "C156_option_partial",
    "C156_every_partial"
   ],
   "note": "REFUTED: if one to three bytes are left, a header is read past what was received. Proved: exact result for every message otherwise, and that every message of bytes is covered."
  },
  {
   "property": "C157",
   "status": "partial",
   "theorems": [
    "C157_addresses_refuted",
    "C157_expire_refuted",
    "C157_address_partial",
    "C157_prefixes_partial",
    "C157_ignored_partial"
   ],
   "note": "REFUTED: of several addresses only the last is kept; the expiry of prefixes is always 0. Proved: the exact result for every well-formed association."
  },
  {
   "property": "C158",
   "status": "partial",
   "theorems": [
    "C158_follows_refuted",
    "C158_undefined_refuted",
    "C158_short_refuted",
    "C158_well_formed_partial"
   ],
   "note": "REFUTED: max_len is never reduced and the times are read whatever the length. Proved: for well-formed associations."
  },
  {
   "property": "C159",
   "status": "partial",
   "theorems": [
    "C159_reads_on_refuted",
    "C159_array_refuted",
    "C159_lists_partial",
    "C159_bad_length_partial",
    "C159_request_partial"
   ],
   "note": "REFUTED: unterminated names are read on, labels of 255 bytes leave dns_name. Proved: for well-formed lists, and for all requested lists of a message."
  },
  {
   "property": "C160",
   "status": "partial",
   "theorems": [
    "C160_client_refuted",
    "C160_server_refuted",
    "C160_failed_read_refuted",
    "C160_refused_server_refuted",
    "C160_heard_partial"
   ],
   "note": "REFUTED: identifiers are compared as prefixes; a failed read dereferences NULL; a refused message sets the server of a rebinding client. Proved: everything that was checked, for every message; refused messages leave leases and values alone."
  },
  {
   "property": "C161",
   "status": "partial",
   "theorems": [
    "C161_rapid_refuted",
    "C161_heard_partial"
   ],
   "note": "REFUTED: a Rapid Commit option without data is refused. Proved: all others are heard, with the status and the requested server and name lists."
  },
  {
   "property": "C162",
   "status": "proved",
   "theorems": [
    "C162_ends",
    "C162_makes",
    "C162_keeps"
   ],
   "note": ""
  },
  {
   "property": "C163",
   "status": "proved",
   "theorems": [
    "C163_complete",
    "C163_blocked"
   ],
   "note": ""
  },
  {
   "property": "C164",
   "status": "partial",
   "theorems": [
    "C164_leaves_refuted",
    "C164_itself_refuted",
    "C164_below_partial",
    "C164_outside_partial",
    "C164_missing_partial"
   ],
   "note": "REFUTED: .. in the path leads out of the prefix; the prefix itself is made if it is the path. Proved: for paths without dots only directories on the way below the prefix, and the path itself, are made."
  },
  {
   "property": "C165",
   "status": "proved",
   "theorems": [
    "C165_strcat"
   ],
   "note": ""
  },
  {
   "property": "C166",
   "status": "partial",
   "theorems": [
    "C166_full_refuted",
    "C166_strjoin_partial"
   ],
   "note": "REFUTED: with 2^64 - 1 bytes malloc gets 0, since the end is not counted in the check. Proved: for every other length."
  },
  {
   "property": "C167",
   "status": "proved",
   "theorems": [
    "C167_safe",
    "C167_once"
   ],
   "note": ""
  },
  {
   "property": "C168",
   "status": "partial",
   "theorems": [
    "C168_ghost_refuted",
    "C168_known_partial"
   ],
   "note": "REFUTED: P2P-DEVICE-FOUND makes a peer of its first argument, the interface address; if that differs from p2p_dev_addr, P2P-DEVICE-LOST never removes it. Proved: for devices with one address."
  },
  {
   "property": "C169",
   "status": "proved",
   "theorems": [
    "C169_connect",
    "C169_total",
    "C169_no_object"
   ],
   "note": "Being in a group is read off the state."
  },
  {
   "property": "C170",
   "status": "partial",
   "theorems": [
    "C170_left_refuted",
    "C170_scan_refuted",
    "C170_tried_partial",
    "C170_one_partial"
   ],
   "note": "REFUTED: after the user disconnected, other devices are still refused; after a scan was started another attempt is accepted while the first goes on. Proved: the recorded attempt is the last request that was sent, unless the device was lost or disconnected, a failure was reported, a scan was started or wpa_supplicant stopped since."
  },
  {
   "property": "C171",
   "status": "partial",
   "theorems": [
    "C171_scan_refuted",
    "C171_connected_refuted",
    "C171_told_partial",
    "C171_only_partial",
    "C171_count_partial"
   ],
   "note": "REFUTED: a failure after a scan was started is told to nobody; a failure of another device's negotiation is told of the peer that is connected. Proved: told exactly for the recorded attempt, which it ends; no more failures than requests for each device."
  },
  {
   "property": "C172",
   "status": "partial",
   "theorems": [
    "C172_method_refuted",
    "C172_asked_partial",
    "C172_wanted_partial"
   ],
   "note": "REFUTED: dev_passwd_id of P2P-GO-NEG-REQUEST is ignored: push button after an earlier PIN is told as the PIN. Proved: provisioning events are told as they are, requests to negotiate with the last method asked for."
  },
  {
   "property": "C173",
   "status": "partial",
   "theorems": [
    "C173_one_partial",
    "C173_temporary",
    "C173_list_partial",
    "C173_times_refuted",
    "C173_invalid_refuted",
    "C173_many_refuted"
   ],
   "note": "REFUTED: T1 and T2 are sent as 0 if no address is added; an address that is not valid ends the list and leaves zero bytes, which read as options of code 0; 2341 addresses wrap the length. Proved: exact in all other cases."
  },
  {
   "property": "C174",
   "status": "partial",
   "theorems": [
    "C174_prefixes_partial",
    "C174_too_many",
    "C174_identity_refuted"
   ],
   "note": "REFUTED: if no identity was set before, IA_PD carries IAID 0 while the others carry one from the hardware address. Proved: exact for up to 49 prefixes with the identity that was set, refused for more."
  },
  {
   "property": "C175",
   "status": "partial",
   "theorems": [
    "C175_codes_partial",
    "C175_none_refuted",
    "C175_many_refuted"
   ],
   "note": "REFUTED: no codes give ENOMEM, 32768 codes an empty option. Proved: exact for 1 to 32767 codes."
  },
  {
   "property": "C176",
   "status": "partial",
   "theorems": [
    "C176_proper",
    "C176_message_partial",
    "C176_time_refuted",
    "C176_fits_refuted"
   ],
   "note": "REFUTED: if the client id is requested but there is none, the options requested before it, such as the elapsed time, are missing; options are left out though 1500 bytes would hold them (the last four are not used). Proved: always well-formed, no option twice, never outside of the buffer; complete within 1496 bytes if there is a client id."
  },
  {
   "property": "C177",
   "status": "partial",
   "theorems": [
    "C177_same_xid",
    "C177_time_partial",
    "C177_time_refuted"
   ],
   "note": "REFUTED: the time wraps: after 497 days it is told as 4 hundredths. Proved: same id for any calls in between; the time is right to one hundredth for 248 days."
  },
  {
   "property": "C178",
   "status": "partial",
   "theorems": [
    "C178_llt_partial",
    "C178_ll_partial",
    "C178_hardware_refuted",
    "C178_type_refuted",
    "C178_no_mac_refuted"
   ],
   "note": "REFUTED: hardware types above 255 are cut (801 is sent as 33); unknown types give success without a DUID; if the hardware address cannot be read uninitialised bytes are used. Proved: exact for hardware types below 256."
  },
  {
   "property": "C179",
   "status": "partial",
   "theorems": [
    "C179_one_partial",
    "C179_type_partial",
    "C179_none",
    "C179_two_refuted"
   ],
   "note": "REFUTED: with callbacks for CONFIRM and RENEW a CONFIRM is sent and its reply is told to the one for RENEW. Proved for one callback."
  },
  {
   "property": "C180",
   "status": "partial",
   "theorems": [
    "C180_moves_refuted",
    "C180_long_refuted",
    "C180_short_refuted",
    "C180_lines_partial",
    "C180_ends"
   ],
   "note": "REFUTED: moves (type 2) are dropped; a line of more than 254 bytes is read as several; a short write loses the rest of the message. Proved: exact for any number of lines of touches and keys up to 254 bytes; always ends."
  },
  {
   "property": "C181",
   "status": "partial",
   "theorems": [
    "C181_key_refuted",
    "C181_events_partial"
   ],
   "note": "REFUTED: a key code of more than four digits (all keys outside Latin-1 and the function keys) is cut to its first four digits, so the euro sign becomes 0x1002. Proved: clicks and codes below 65536 arrive exactly, in order; of larger codes the first four digits."
  },
  {
   "property": "C182",
   "status": "partial",
   "theorems": [
    "C182_gestures_refuted"
   ],
   "note": "REFUTED for every text: the loop reads past the array of fields, which has no null at its end, and the packet is never put into the message, so that a write from a null pointer is the best that can happen. Not reachable from main."
  },
  {
   "property": "C183",
   "status": "proved",
   "theorems": [
    "C183_watched"
   ],
   "note": "For a client that starts to listen at any moment with knowledge that is right; what it reads of an object that appears counts as unknown until the first signal."
  },
  {
   "property": "C184",
   "status": "proved",
   "theorems": [
    "C184_scans"
   ],
   "note": "Whether sending fails is an argument."
  },
  {
   "property": "C185",
   "status": "proved",
   "theorems": [
    "C185_pton",
    "C185_address",
    "C185_subnet"
   ],
   "note": "inet_pton and inet_ntop as in glibc."
  },
  {
   "property": "C186",
   "status": "proved",
   "theorems": [
    "C186_line",
    "C186_ends"
   ],
   "note": "Command lines as in C142 to C146 (Settings_Spec.line); --comm-fd within int."
  },
  {
   "property": "C187",
   "status": "proved",
   "theorems": [
    "C187_server",
    "C187_client",
    "C187_range",
    "C187_leases"
   ],
   "note": "Interface names of up to 114 bytes (the kernel allows 15): a longer one overruns the buffer for the name of the journal. Log levels below 2^31."
  },
  {
   "property": "C188",
   "status": "partial",
   "theorems": [
    "C188_links_refuted",
    "C188_link_partial"
   ],
   "note": "REFUTED: every link starts at subnet 50, so that the first groups of two links get 192.168.50.1 and the same range. Proved for the groups of a link."
  },
  {
   "property": "C189",
   "status": "partial",
   "theorems": [
    "C189_expired_refuted",
    "C189_one_partial",
    "C189_empty_partial",
    "C189_told_partial",
    "C189_end_partial",
    "C189_last_partial",
    "C189_untouched_partial"
   ],
   "note": "REFUTED: no callback for a lost lease is registered; the address stays until the client gives up half a minute later or gets another one. Proved: everything else of the statement."
  },
  {
   "property": "C190",
   "status": "partial",
   "theorems": [
    "C190_no_lease_refuted",
    "C190_not_set_refuted",
    "C190_status_partial",
    "C190_proper_partial"
   ],
   "note": "REFUTED: without a lease, or if the address cannot be set, the status is 0. Proved: the status is not 0 exactly if starting failed."
  },
  {
   "property": "C191",
   "status": "partial",
   "theorems": [
    "C191_own_refuted",
    "C191_own_partial"
   ],
   "note": "REFUTED: with --local 100 the first client is offered the address of the server. Proved if the own address is not in the range, as with the words of wifid."
  },
  {
   "property": "C192",
   "status": "proved",
   "theorems": [
    "C192_events"
   ],
   "note": "Texts of events as in the sources of wpa_supplicant; addresses, PINs and interface names are words without quotes, backslashes and =."
  },
  {
   "property": "C193",
   "status": "partial",
   "theorems": [
    "C193_refuted",
    "C193_invented_refuted",
    "C193_found_partial",
    "C193_reply_partial"
   ],
   "note": "REFUTED: a name with an apostrophe (Bob's TV) is cut and hides the words behind it, also that the device knows WFD; a name can pretend WFD subelements, which stay after the reply. Proved: exact for names without apostrophe and backslash, and for all replies."
  },
  {
   "property": "C194",
   "status": "partial",
   "theorems": [
    "C194_refuted",
    "C194_partial"
   ],
   "note": "REFUTED: UNKNOWN COMMAND makes a peer 00:00:00:00:00:00, which is shown on D-Bus. Proved for FAIL and for replies that start with an address."
  },
  {
   "property": "C195",
   "status": "partial",
   "theorems": [
    "C195_refuted",
    "C195_name_partial",
    "C195_wfd_partial"
   ],
   "note": "REFUTED: the name My TV is sent as \"My TV\" with the quotes. Proved: a name arrives exactly if and only if it has no blank, double quote or backslash; subelements arrive if they are a word."
  },
  {
   "property": "C196",
   "status": "partial",
   "theorems": [
    "C196_refuted",
    "C196_partial",
    "C196_heard_partial"
   ],
   "note": "REFUTED: a PIN with blanks adds options to P2P_CONNECT. Proved for all histories in which PINs and addresses from outside are words, as they are in events of wpa_supplicant."
  },
  {
   "property": "C197",
   "status": "partial",
   "theorems": [
    "C197_all_codes_refuted",
    "C197_code_refuted",
    "C197_overflow_refuted",
    "C197_secs_refuted",
    "C197_message_partial"
   ],
   "note": "REFUTED: requesting all 256 codes sends an empty list, a code above 255 requests another option, many of them are written after the packet on the stack, and a clock set back gives 65535 seconds. Proved for option codes 1 to 254 and a clock that does not go back."
  },
  {
   "property": "C198",
   "status": "partial",
   "theorems": [
    "C198_in_use_refuted",
    "C198_server_partial",
    "C198_client_partial",
    "C198_others_partial"
   ],
   "note": "REFUTED: the server reads the own address of the client with its bytes reversed. Proved: everything else. Option codes 1 to 254; the server sends at most the three options it knows."
  },
  {
   "property": "C199",
   "status": "proved",
   "theorems": [
    "C199_offered",
    "C199_lease"
   ],
   "note": "Times below 2^31 for the offer (C57); memory can be allocated; packets arrive; option codes 1 to 254."
  },
  {
   "property": "C200",
   "status": "partial",
   "theorems": [
    "C200_renew_refuted",
    "C200_ignored",
    "C200_unicast",
    "C200_extension_partial"
   ],
   "note": "REFUTED: for every address whose bytes do not read the same in both directions requests to extend get no answer and releases have no effect (C200_ignored), and messages for the server alone are sent to its address with the bytes reversed (C200_unicast). Proved for the other addresses, if the request reaches the server."
  },
  {
   "property": "C201",
   "status": "proved",
   "theorems": [
    "C201_end_told_once"
   ],
   "note": "Histories of unit WpasBus. The end is the None given to the match callbacks."
  },
  {
   "property": "C202",
   "status": "partial",
   "theorems": [
    "C202_same_cookie_refuted",
    "C202_detached_quiet_partial"
   ],
   "note": "REFUTED: with two calls of the same cookie the timeout of one takes the other out of the table, and rtsp_detach_event then leaves the timer of the other. Proved for histories whose waiting calls have different cookies."
  },
  {
   "property": "C203",
   "status": "proved",
   "theorems": [
    "C203_peers_map",
    "C203_links_map"
   ],
   "note": "Refines the bag of C13 with the real hash functions; addresses share their highest bit (C53) and there are at most 3*2^28 additions."
  },
  {
   "property": "C204",
   "status": "proved",
   "theorems": [
    "C204_levels",
    "C204_severity"
   ],
   "note": "Dates and times of the locale without brackets and newlines and of at most 60 bytes; writing succeeds."
  },
  {
   "property": "C205",
   "status": "partial",
   "theorems": [
    "C205_one_line_refuted",
    "C205_one_line_partial"
   ],
   "note": "REFUTED: newlines of a text are written as they are, and what follows one is read as a message of its own (wpas.c:749 logs replies with newlines). Proved: the text is the only source of further newlines."
  },
  {
   "property": "C206",
   "status": "partial",
   "theorems": [
    "C206_elapsed_refuted",
    "C206_elapsed_partial",
    "C206_cli_partial"
   ],
   "note": "REFUTED: a clock set back by two microseconds is shown as 0.999998 seconds. Proved if the clock does not go back before the start."
  },
  {
   "property": "C207",
   "status": "partial",
   "theorems": [
    "C207_date_refuted",
    "C207_date_partial"
   ],
   "note": "REFUTED: %03d in the format of strftime prints the day of the month before the milliseconds, and in the last half millisecond of a second the stamp is a second too early. Proved: date, time, day of the month and nearest millisecond at all other times."
  },
  {
   "property": "C208",
   "status": "proved",
   "theorems": [
    "C208_files",
    "C208_processes",
    "C208_stale"
   ],
   "note": "Others leave the names of the process alone; paths are compared as texts. A file under the name is removed without looking what it is."
  },
  {
   "property": "C209",
   "status": "partial",
   "theorems": [
    "C209_meet",
    "C209_other_refuted",
    "C209_other_partial",
    "C209_length"
   ],
   "note": "REFUTED: the empty text names the abstract socket of @abstract:. Proved for all other texts; abstract names of more than 86 bytes are refused though 106 would fit."
  },
  {
   "property": "C210",
   "status": "partial",
   "theorems": [
    "C210_file_refuted",
    "C210_live_refuted",
    "C210_close_refuted",
    "C210_live_partial",
    "C210_dead_partial",
    "C210_free_partial"
   ],
   "note": "REFUTED: whatever cannot be connected to is removed, also a file that is no socket and the socket of a server of another type; closing removes the socket of a later server. Proved for free names, dead sockets and servers that take connections."
  },
  {
   "property": "C211",
   "status": "partial",
   "theorems": [
    "C211_send_refuted",
    "C211_never",
    "C211_escaped_refuted",
    "C211_path_partial",
    "C211_escaped_partial",
    "C211_reply_partial"
   ],
   "note": "REFUTED: wpas_message_set_peer does not set the family of the address, so sending always fails with EINVAL; an escaped abstract name is taken for a path. Proved: path bytes are kept, and replies go back to the client."
  },
  {
   "property": "C212",
   "status": "partial",
   "theorems": [
    "C212_blocked_refuted",
    "C212_directory_refuted",
    "C212_found_partial",
    "C212_first",
    "C212_every"
   ],
   "note": "REFUTED: a directory in PATH that may not be searched ends the search with EACCES though a later one has the program; a directory named wpa_supplicant is taken for the program. Proved without those two; what is found is characterised for every PATH."
  },
  {
   "property": "C213",
   "status": "proved",
   "theorems": [
    "C213_own",
    "C213_group",
    "C213_least"
   ],
   "note": "The kernel gives the least free number; everything else that wifid opens is closed on exec; wifid does not close its standard descriptors."
  },
  {
   "property": "C214",
   "status": "partial",
   "theorems": [
    "C214_other_refuted",
    "C214_open_refuted",
    "C214_alone_partial",
    "C214_inherited"
   ],
   "note": "REFUTED: socketpair without SOCK_CLOEXEC: programs started while there are groups inherit wifid's ends of their channels. Proved: with no group it holds, and exactly what is inherited."
  },
  {
   "property": "C215",
   "status": "partial",
   "theorems": [
    "C215_closed_refuted",
    "C215_open_partial"
   ],
   "note": "REFUTED: with the standard output closed the channel can get the number 1, and dup2(2, 1) replaces it. Proved if 0, 1 and 2 are open."
  },
  {
   "property": "C216",
   "status": "proved",
   "theorems": [
    "C216_first",
    "C216_none"
   ],
   "note": "A file that is broken is skipped without a word. glib's loading and joining of paths are as documented."
  },
  {
   "property": "C217",
   "status": "partial",
   "theorems": [
    "C217_long_refuted",
    "C217_alias_refuted",
    "C217_index_partial",
    "C217_error_partial"
   ],
   "note": "REFUTED: a name of 16 bytes passes the check and the kernel ignores the last one; the kernel also ignores what follows a colon. Proved for all other names. Alternative names of interfaces are left out."
  },
  {
   "property": "C218",
   "status": "partial",
   "theorems": [
    "C218_host_refuted",
    "C218_port_refuted",
    "C218_word_refuted",
    "C218_begin_partial",
    "C218_few",
    "C218_host_partial"
   ],
   "note": "REFUTED: an unknown host ends with status 0; ports above 65535 are cut and words are port 0. Proved for ports below 65536 in decimal."
  },
  {
   "property": "C219",
   "status": "partial",
   "theorems": [
    "C219_eight_refuted",
    "C219_never",
    "C219_rows_partial",
    "C219_hex"
   ],
   "note": "REFUTED: every byte has nine digits. Proved with nine; hexdump, which nothing calls, is right."
  },
  {
   "property": "C220",
   "status": "partial",
   "theorems": [
    "C220_small_refuted",
    "C220_never",
    "C220_value_partial"
   ],
   "note": "REFUTED: for 0 and 1 with padding 0 or less one byte too much is written; 2^31 is no int. Proved for all other arguments. The only caller has padding 8."
  },
  {
   "property": "C221",
   "status": "partial",
   "theorems": [
    "C221_one_line_refuted",
    "C221_value",
    "C221_one_line_partial",
    "C221_once",
    "C221_line"
   ],
   "note": "REFUTED: values with line ends are taken and make several lines. Everything else is proved for all texts."
  },
  {
   "property": "C222",
   "status": "proved",
   "theorems": [
    "C222_own",
    "C222_exact"
   ],
   "note": "Labels: sd_bus_path_encode and sd_bus_path_decode are trusted. Leading zeros are allowed."
  },
  {
   "property": "C223",
   "status": "proved",
   "theorems": [
    "C223_own",
    "C223_exact",
    "C223_shown"
   ],
   "note": "C223_shown is for all labels and all managers. Other texts that are read as the same address also find the peer (C124)."
  },
  {
   "property": "C224",
   "status": "partial",
   "theorems": [
    "C224_missed_refuted",
    "C224_first_partial",
    "C224_none"
   ],
   "note": "REFUTED: the first shown link that knows the address decides, even if it does not show the peer while another link does. Proved if no earlier link knows the address. wifid itself makes no such paths."
  },
  {
   "property": "C225",
   "status": "partial",
   "theorems": [
    "C225_memory_refuted",
    "C225_all_partial",
    "C225_safe_partial"
   ],
   "note": "REFUTED: if the path of an object cannot be made then a variable without a value is returned. Proved if all paths can be made; the array is large enough even if the counters are wrong."
  },
  {
   "property": "C226",
   "status": "proved",
   "theorems": [
    "C226_well",
    "C226_failing",
    "C226_serves"
   ],
   "note": "Results of calls are at least -255, as errno values are. Memory for the settings can be allocated."
  },
  {
   "property": "C227",
   "status": "partial",
   "theorems": [
    "C227_vanished_refuted",
    "C227_all_partial",
    "C227_before_partial",
    "C227_safe"
   ],
   "note": "REFUTED: a device that cannot be opened any more ends the list, and no later device becomes a link. Proved if no device vanishes, and for the devices before one that does."
  },
  {
   "property": "C228",
   "status": "partial",
   "theorems": [
    "C228_empty_refuted",
    "C228_name_partial"
   ],
   "note": "REFUTED: for an empty name the log message takes friendly_name, which is NULL at the start, as a text (glibc writes (null)). Proved for all other answers, and for log levels at which the message is not written."
  },
  {
   "property": "C229",
   "status": "proved",
   "theorems": [
    "C229_told",
    "C229_hidden",
    "C229_only",
    "C229_unknown"
   ],
   "note": "wifid and the programs as in C128; signals arrive in order."
  },
  {
   "property": "C230",
   "status": "proved",
   "theorems": [
    "C230_wifictl",
    "C230_sinkctl",
    "C230_silent"
   ],
   "note": "What sinkctl does besides printing is in C111 to C116."
  },
  {
   "property": "C231",
   "status": "proved",
   "theorems": [
    "C231_flush",
    "C231_add",
    "C231_negative",
    "C231_flush_only",
    "C231_add_only",
    "C231_waits"
   ],
   "note": "Process numbers, exit statuses and signals as the kernel gives them."
  },
  {
   "property": "C232",
   "status": "proved",
   "theorems": [
    "C232_reads",
    "C232_exact",
    "C232_sealed",
    "C232_data",
    "C232_unsealed",
    "C232_bytes"
   ],
   "note": "What sscanf makes of a token is an argument."
  },
  {
   "property": "C233",
   "status": "partial",
   "theorems": [
    "C233_skip_refuted",
    "C233_never",
    "C233_skip_partial",
    "C233_rewind",
    "C233_rewind_all",
    "C233_again"
   ],
   "note": "REFUTED: rtsp_message_skip passes NULL as the name of a header, so that types with '<' always fail with EINVAL. Proved for all other types; a skip that fails stays in the header or the body."
  },
  {
   "property": "C234",
   "status": "proved",
   "theorems": [
    "C234_probe",
    "C234_announce",
    "C234_heard",
    "C234_socket"
   ],
   "note": "Little-endian machine; close does not fail."
  },
  {
   "property": "C235",
   "status": "partial",
   "theorems": [
    "C235_short_refuted",
    "C235_protocol_refuted",
    "C235_own_refuted",
    "C235_reads_partial",
    "C235_names_partial"
   ],
   "note": "REFUTED: the number of bytes read, the hardware and protocol types and the sender's hardware address are not looked at, so that part of a packet, a packet for another protocol and the client's own probe (sent back by the network) count. Proved: which byte strings count, missing bytes being zeros."
  },
  {
   "property": "C236",
   "status": "proved",
   "theorems": [
    "C236_life",
    "C236_new"
   ],
   "note": "Numbers of sources stay below 2^32 - 1 and are not used again."
  },
  {
   "property": "C237",
   "status": "partial",
   "theorems": [
    "C237_deaf_refuted",
    "C237_listens_partial",
    "C237_again"
   ],
   "note": "REFUTED: listener_event gives up the socket on an error but leaves started set, so that g_dhcp_server_start then returns 0 without listening. Proved without such errors; stopping the server first always helps."
  },
  {
   "property": "C238",
   "status": "partial",
   "theorems": [
    "C238_warns_refuted",
    "C238_removals_partial"
   ],
   "note": "REFUTED: listener_watch is unsigned and initialised with -1; stopping or freeing a server that was never started removes source 4294967295, once. Proved for all servers that were started before."
  }
 ]
}