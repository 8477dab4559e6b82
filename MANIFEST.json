{
 "claims": [
  {
   "property": "C01",
   "status": "proved",
   "theorems": [
    "C01_alignment_rounds_up",
    "C01_length_helpers"
   ],
   "note": ""
  },
  {
   "property": "C02",
   "status": "proved",
   "theorems": [
    "C02_header_roundtrip",
    "C02_header_parse_then_write",
    "C02_header_rejects_exactly_short",
    "C02_header_fills_buffer"
   ],
   "note": ""
  },
  {
   "property": "C03",
   "status": "proved",
   "theorems": [
    "C03_nfgen_roundtrip",
    "C03_attr_and_value_layout",
    "C03_in_place_variants"
   ],
   "note": ""
  },
  {
   "property": "C04",
   "status": "proved",
   "theorems": [
    "C04_requested_attributes_exact"
   ],
   "note": ""
  },
  {
   "property": "C05",
   "status": "partial",
   "theorems": [
    "C05_hostile_bytes_refuted",
    "C05_returns_iff",
    "C05_hostile_bytes_partial",
    "C05_payloads_inside_input",
    "C05_error_iff_overlong",
    "C05_outcome"
   ],
   "note": "False of the code: an attribute with declared length 0 and a type nobody asked for makes it loop for ever, one with length < 4 and a requested type crashes it. Proved: exactly which byte strings it returns for, which crash it and which hold it for ever; with no attribute header declaring a length below 4 it always returns, within len/4+1 iterations."
  },
  {
   "property": "C06",
   "status": "proved",
   "theorems": [
    "C06_error_code_survives",
    "C06_crashes_only_if_too_short"
   ],
   "note": ""
  },
  {
   "property": "C07",
   "status": "proved",
   "theorems": [
    "C07_int_to_ip_and_back",
    "C07_ip_to_int_and_back",
    "C07_v4_in_v6"
   ],
   "note": ""
  },
  {
   "property": "C08",
   "status": "proved",
   "theorems": [
    "C08_config_request_is_what_was_asked"
   ],
   "note": ""
  },
  {
   "property": "C09",
   "status": "proved",
   "theorems": [
    "C09_SetVerdict2_sends_exactly_the_verdict"
   ],
   "note": ""
  },
  {
   "property": "C10",
   "status": "partial",
   "theorems": [
    "C10_SetVerdict_sends_the_verdict_partial",
    "C10_SetVerdict_exact_for_multiples_of_four",
    "C10_SetVerdict_counts",
    "C10_SetVerdict_changes_packet_refuted"
   ],
   "note": "False of the code: the attribute length is rounded up, so the re-injected packet is the original followed by up to three zero bytes. Proved: payload = packet ++ zero padding to a multiple of 4, hence exact iff 4 | len."
  },
  {
   "property": "C11",
   "status": "partial",
   "theorems": [
    "C11_verdict_for_every_ordinary_packet_partial",
    "C11_empty_packet_refuted",
    "C11_SetVerdict2_oversize_refuted",
    "C11_SetVerdict_near_64k_refuted",
    "C11_SetVerdict_oversize_refuted",
    "C11_SetVerdict_exact",
    "C11_SetVerdict2_exact"
   ],
   "note": "False of the code: an empty packet crashes; packetLen above 65531 wraps the 16-bit attribute length, and SetVerdict on 65533 to 65535 bytes sends a well-formed message replacing the packet by an empty one. Proved exactly for every length up to 65535: SetVerdict2 hands over the packet given if and only if it has at most 65531 bytes, SetVerdict if and only if its length is a multiple of four up to 65528."
  },
  {
   "property": "C12",
   "status": "proved",
   "theorems": [
    "C12_packet_delivered_with_its_own_data"
   ],
   "note": ""
  },
  {
   "property": "C13",
   "status": "partial",
   "theorems": [
    "C13_stale_mark_exact",
    "C13_unmarked_until_first_mark_partial",
    "C13_stale_mark_refuted"
   ],
   "note": "False of the code: the attribute table is reused, so the mark is read from wherever the previous packet's mark lived in the receive buffer. Proved: it holds until the first marked packet, and after that, for every history, exactly which bytes of its own message an unmarked packet is shown as marked with."
  },
  {
   "property": "C14",
   "status": "proved",
   "theorems": [
    "C14_verdict_releases_the_delivered_id"
   ],
   "note": ""
  },
  {
   "property": "C15",
   "status": "proved",
   "theorems": [
    "C15_nfqueue_request_outcome",
    "C15_nfqueue_not_open",
    "C15_nflog_request_outcome",
    "C15_nflog_not_open",
    "C15_conntrack_request_outcome"
   ],
   "note": ""
  },
  {
   "property": "C16",
   "status": "proved",
   "theorems": [
    "C16_start_sets_up_in_order_and_cleans_up",
    "C16_start_failure_closes"
   ],
   "note": ""
  },
  {
   "property": "C17",
   "status": "partial",
   "theorems": [
    "C17_no_leak_refuted",
    "C17_leak_only_when_bind_fails_partial"
   ],
   "note": "False of the code: when bind fails the freshly created socket is never closed, in all three packages."
  },
  {
   "property": "C18",
   "status": "proved",
   "theorems": [
    "C18_started_queue_is_ready",
    "C18_loop_trace",
    "C18_loop_trace_from_any_state",
    "C18_cancel_closes_without_receiving"
   ],
   "note": ""
  },
  {
   "property": "C19",
   "status": "partial",
   "theorems": [
    "C19_packet_callback_only_after_receive_partial",
    "C19_failed_receive_reaches_packet_callback_refuted",
    "C19_failed_receive_crashes_documented_callback_refuted"
   ],
   "note": "False of the code: with no error callback registered, a failed receive invokes the packet callback with id 0, mark 0 and an empty buffer."
  },
  {
   "property": "C20",
   "status": "partial",
   "theorems": [
    "C20_started_asks",
    "C20_recv_asks",
    "C20_receive_outcome",
    "C20_receive_survives_partial",
    "C20_loop_survives_partial",
    "C20_short_datagram_crashes_refuted"
   ],
   "note": "False of the code: datagrams shorter than 20 bytes crash it. Proved: exactly which datagrams a receive survives, which crash it and which make it never return; the loop survives every run with a kernel that sends whole messages."
  },
  {
   "property": "C21",
   "status": "proved",
   "theorems": [
    "C21_concurrent_code_is_the_sequential_code",
    "C21_concurrent_SetVerdict",
    "C21_calls_finish"
   ],
   "note": ""
  },
  {
   "property": "C22",
   "status": "partial",
   "theorems": [
    "C22_one_SetVerdict2_user_partial",
    "C22_concurrent_SetVerdict2_refuted"
   ],
   "note": "False of the code: the header is assembled in a buffer shared by the whole handle; a two-goroutine schedule sends one caller's verdict and id with the other caller's packet. Proved: it holds for every schedule when only one goroutine uses SetVerdict2, whatever the others do with SetVerdict."
  },
  {
   "property": "C23",
   "status": "proved",
   "theorems": [
    "C23_nflog_requests_say_what_was_asked"
   ],
   "note": ""
  },
  {
   "property": "C24",
   "status": "partial",
   "theorems": [
    "C24_group_calls_need_open_refuted",
    "C24_family_calls_need_open_partial"
   ],
   "note": "False of the code: they return nil without sending anything, unlike NFlogBind."
  },
  {
   "property": "C25",
   "status": "proved",
   "theorems": [
    "C25_messages_delivered_in_order",
    "C25_datagram_delivered",
    "C25_once_per_packet_message"
   ],
   "note": ""
  },
  {
   "property": "C26",
   "status": "partial",
   "theorems": [
    "C26_payload_exact_partial",
    "C26_all_but_the_last_byte_partial",
    "C26_which_payloads_partial",
    "C26_refuted"
   ],
   "note": "False of the code: the last byte of every netlink message is dropped before parsing, so a payload that ends the message and whose length is a multiple of 4 is delivered with its last byte replaced by 0. Proved: exact whenever the payload is not the last attribute or its length is not a multiple of 4; otherwise exact except for that byte."
  },
  {
   "property": "C27",
   "status": "partial",
   "theorems": [
    "C27_outcome",
    "C27_outcome_unique",
    "C27_hangs_iff",
    "C27_crashes_iff",
    "C27_truncated_message_partial",
    "C27_only_these_hangs_partial",
    "C27_refuted"
   ],
   "note": "False of the code: 1..15 trailing bytes or a message with length 0 make it loop for ever; a packet message with length 1..16 crashes it. Proved: for every byte string exactly what the callback is shown and how parsing ends - finished, error, crash or never - as a deterministic relation on the bytes; in particular a message whose declared length exceeds the remaining bytes is reported as truncated and not delivered, after the preceding messages were delivered."
  },
  {
   "property": "C28",
   "status": "proved",
   "theorems": [
    "C28_reader_loop_exact",
    "C28_reader_loop",
    "C28_socket_closed_exactly_once"
   ],
   "note": ""
  },
  {
   "property": "C29",
   "status": "proved",
   "theorems": [
    "C29_listen_sets_up_in_order_and_cleans_up",
    "C29_listen_failure_closes"
   ],
   "note": ""
  },
  {
   "property": "C30",
   "status": "proved",
   "theorems": [
    "C30_mark_update_request"
   ],
   "note": ""
  },
  {
   "property": "C31",
   "status": "partial",
   "theorems": [
    "C31_label_update_request_partial",
    "C31_tcp_label_request_refuted"
   ],
   "note": "False of the code for TCP: the two TCP flag attributes declare length 4 although two data bytes follow, so the nested TCP block does not decode. Proved for every non-TCP protocol."
  },
  {
   "property": "C32",
   "status": "proved",
   "theorems": [
    "C32_only_matching_flows_updated",
    "C32_count_is_number_of_matches",
    "C32_mark_zero_sends_nothing"
   ],
   "note": ""
  },
  {
   "property": "C33",
   "status": "partial",
   "theorems": [
    "C33_absent_flow_reported_refuted",
    "C33_count_after_failure_refuted",
    "C33_count_right_without_error_partial",
    "C33_error_means_zero_partial",
    "C33_label_error_means_zero_partial"
   ],
   "note": "False of the code: it returns 0,nil; and after a failure it returns 0 although earlier flows were updated."
  },
  {
   "property": "C34",
   "status": "partial",
   "theorems": [
    "C34_update_uses_and_closes_one_socket_partial",
    "C34_open_failure_is_an_error_refuted"
   ],
   "note": "The last part is false of the code: failure to open crashes."
  },
  {
   "property": "C35",
   "status": "partial",
   "theorems": [
    "C35_ipv4_text_exact",
    "C35_panic_exact",
    "C35_malformed_address_handled_refuted",
    "C35_ipv4_addresses_never_panic_partial"
   ],
   "note": "False of the code: the calls panic. Exact: which texts name an IPv4 address, and that each update call panics before any system call when and only when one of the two texts names none (and the flow list, where there is one, is not empty)."
  },
  {
   "property": "C36",
   "status": "proved",
   "theorems": [
    "C36_ipv4_parsing_shows_the_wire"
   ],
   "note": ""
  },
  {
   "property": "C37",
   "status": "partial",
   "theorems": [
    "C37_ipv4_outcome_partial",
    "C37_no_crash_with_room_partial",
    "C37_never_crashes_refuted"
   ],
   "note": "The last sentence is false of the code: the exact crash conditions are proved."
  },
  {
   "property": "C38",
   "status": "partial",
   "theorems": [
    "C38_ipv6_parsing_shows_the_wire",
    "C38_ipv6_outcome_partial",
    "C38_short_input_rejected_refuted"
   ],
   "note": "Last clause false of the code: they crash."
  },
  {
   "property": "C39",
   "status": "proved",
   "theorems": [
    "C39_checksum_is_rfc1071",
    "C39_piecewise",
    "C39_folding_terminates"
   ],
   "note": ""
  },
  {
   "property": "C40",
   "status": "proved",
   "theorems": [
    "C40_parsed_packets_agree",
    "C40_incremental_update_ipv4",
    "C40_incremental_update_ipv6"
   ],
   "note": ""
  },
  {
   "property": "C41",
   "status": "proved",
   "theorems": [
    "C41_verify_ipv4_checksum",
    "C41_update_ipv4_checksum"
   ],
   "note": ""
  },
  {
   "property": "C42",
   "status": "partial",
   "theorems": [
    "C42_update_tcp_checksum_exact",
    "C42_verify_tcp_checksum_exact",
    "C42_verify_tcp_checksum_partial",
    "C42_update_tcp_checksum_partial",
    "C42_update_tcp_checksum_refuted"
   ],
   "note": "False of the code when the bytes still in the buffer or the attached options have odd length and more bytes are attached after them. Proved for pieces of every length: what is written is the checksum of the pieces each padded to an even length, VerifyTCPChecksum accepts it, and the segment sent is valid exactly when the 16-bit words of the pieces starting at an odd octet sum to a multiple of 257 - always, when both are even."
  },
  {
   "property": "C43",
   "status": "proved",
   "theorems": [
    "C43_detach_then_attach",
    "C43_detach_with_options"
   ],
   "note": ""
  },
  {
   "property": "C44",
   "status": "partial",
   "theorems": [
    "C44_attach_exact_partial",
    "C44_right_iff_harmless",
    "C44_own_data_refuted",
    "C44_attach_keeps_all_partial",
    "C44_options_refused_partial",
    "C44_attach_keeps_all_refuted"
   ],
   "note": "False of the code: when options were detached from the middle of the caller's array, appending new options overwrites the detached data in place, so data taken from GetTCPData is corrupted. Proved: exactly which bytes are emitted for data anywhere in memory, that they are right if and only if every byte the new options store over the data is the byte already there, and that it holds when the options were dropped or did not come from the packet."
  },
  {
   "property": "C45",
   "status": "proved",
   "theorems": [
    "C45_seq_ack_history",
    "C45_decrease_undoes_increase"
   ],
   "note": ""
  },
  {
   "property": "C46",
   "status": "proved",
   "theorems": [
    "C46_auth_option",
    "C46_walk_deterministic"
   ],
   "note": ""
  },
  {
   "property": "C47",
   "status": "proved",
   "theorems": [
    "C47_reverse_flow"
   ],
   "note": ""
  },
  {
   "property": "C48",
   "status": "proved",
   "theorems": [
    "C48_control_packet",
    "C48_control_reply",
    "C48_marker",
    "C48_type_of_buffer"
   ],
   "note": ""
  },
  {
   "property": "C49",
   "status": "partial",
   "theorems": [
    "C49_attach_exact_partial",
    "C49_right_iff_harmless",
    "C49_own_payload_refuted",
    "C49_detach_attach_partial",
    "C49_detach_attach_refuted"
   ],
   "note": "False of the code when the data given is the packet's own payload, e.g. from GetUDPData, and a header is prefixed: appending the header in place overwrites the data before it is appended. Proved: exactly which payload results for header and data anywhere in memory, that it is right if and only if every header byte stored over the data is the byte already there - in particular whenever they do not overlap."
  },
  {
   "property": "C50",
   "status": "partial",
   "theorems": [
    "C50_ipv6_checksum_valid_partial",
    "C50_ipv6_checksum_never_zero_refuted"
   ],
   "note": "The last clause is false of the code: a sum of 0 is written as 0. Exact: what is written is valid and is the value the sum gives, so 0 exactly when the sum gives 0."
  },
  {
   "property": "C51",
   "status": "proved",
   "theorems": [
    "C51_flow_hash_ipv4"
   ],
   "note": ""
  },
  {
   "property": "C52",
   "status": "partial",
   "theorems": [
    "C52_flow_hash_ipv6_partial",
    "C52_flow_hash_ipv6_exact",
    "C52_reverse_hash_partial",
    "C52_flow_hash_ipv6_refuted"
   ],
   "note": "False of the code: two different IPv6 flows can have the same hash text (zero groups shift between the two addresses). Exact: the hashes are equal when and only when the ports are and the two addresses' texts joined by a colon are the same text; equal for equal flows and for the reverse hash of the opposite direction, and injective when either address pair is equal or has no zero run."
  },
  {
   "property": "C53",
   "status": "partial",
   "theorems": [
    "C53_hash_every_history_partial",
    "C53_hash_follows_refuted",
    "C53_hash_follows_example_refuted"
   ],
   "note": "False of the code: the cached hash of the original direction is returned. Proved for every history of calls: the hash is that of the shown flow after an even number of reversals and of the opposite flow after an odd number."
  },
  {
   "property": "C54",
   "status": "proved",
   "theorems": [
    "C54_fin_ack"
   ],
   "note": ""
  },
  {
   "property": "C55",
   "status": "proved",
   "theorems": [
    "C55_flags_text",
    "C55_flags_text_equal"
   ],
   "note": ""
  },
  {
   "property": "C56",
   "status": "partial",
   "theorems": [
    "C56_wrapper_outcome_partial",
    "C56_nil_iff_success_partial",
    "C56_single_calls_partial",
    "C56_called_once_refuted"
   ],
   "note": "False of the code: bind, setsockopt, close and sendto are issued a second time after a failure, and the second outcome is what the caller sees. Proved: exact behaviour - nil iff the first or the second attempt succeeded, one attempt after success, two after failure."
  },
  {
   "property": "C57",
   "status": "proved",
   "theorems": [
    "C57_every_packet_is_released"
   ],
   "note": ""
  },
  {
   "property": "C58",
   "status": "partial",
   "theorems": [
    "C58_buffer_valid_until_next_receive_partial",
    "C58_buffer_reused_refuted"
   ],
   "note": "False of the code: the buffer is a window into the receive buffer that the next receive overwrites."
  },
  {
   "property": "C59",
   "status": "partial",
   "theorems": [
    "C59_verdict_memory_partial",
    "C59_verdict_memory_exact",
    "C59_verdict_overwrites_neighbours_refuted"
   ],
   "note": "False of the code when the packet's slice has room for the padding. Exact: a verdict call leaves the caller's memory unchanged when and only when the slice has no room for the padding behind the packet or the bytes there are zero already."
  },
  {
   "property": "C60",
   "status": "partial",
   "theorems": [
    "C60_reads_only_the_packet_partial",
    "C60_reads_only_the_packet_refuted",
    "C60_fields_of_the_buffer",
    "C60_udp_ports_exact",
    "C60_tcp_fields_own",
    "C60_tcp_checksum_exact",
    "C60_ipv6_addresses_exact"
   ],
   "note": "False of the code: header fields are sliced up to the capacity, so an unvalidated packet that ends before its transport header is accepted with ports taken from whatever follows in the buffer - e.g. the previous packet. Proved exactly: every field is the one found in the packet followed by the memory behind it; a UDP packet's ports are its own if and only if it holds four bytes of UDP header, a TCP packet's ports, numbers, offset and flags always are and its checksum if and only if the packet reaches it, IPv6 addresses if and only if the packet holds the IPv6 header."
  },
  {
   "property": "C61",
   "status": "partial",
   "theorems": [
    "C61_closed_once_partial",
    "C61_start_to_finish_partial",
    "C61_closed_once_refuted",
    "C61_closes_bounded_partial"
   ],
   "note": "Proved when the callbacks do not stop the queue. False of the code once StopQueue is used: it closes the socket but keeps the number, so the loop uses and closes the number again. Proved with any callbacks: the loop works on no other socket and closes its own at most once per request sent on it plus once when cancelled, and the bound is reached."
  },
  {
   "property": "C62",
   "status": "partial",
   "theorems": [
    "C62_stop_outcome_partial",
    "C62_stop_closes_refuted"
   ],
   "note": "The last part is false of the code: when the kernel refuses, or the exchange fails, it returns the error and leaves the socket open. Proved: the request, the outcome, and that the socket is closed straight after a successful exchange and untouched after a failed one."
  },
  {
   "property": "C63",
   "status": "partial",
   "theorems": [
    "C63_every_history",
    "C63_total_is_bytes_sent_partial",
    "C63_total_exact",
    "C63_total_is_bytes_sent_refuted"
   ],
   "note": "The last part is false of the code for every order of calls: attaching twice counts both lengths. Proved for orderly histories - attach once, after what was detached has been dropped or is being re-attached - and exactly for every history: the length is right if and only if what was attached and what the packet still carries have the same length modulo 65536."
  },
  {
   "property": "C64",
   "status": "partial",
   "theorems": [
    "C64_payload_accessors_partial",
    "C64_bytes_from_offset",
    "C64_udp_payload",
    "C64_empty_as_parsed_partial",
    "C64_empty_refuted",
    "C64_reads_never_crash_refuted"
   ],
   "note": "The last two parts are false of the code: New accepts a data offset pointing beyond the packet and ReadTCPData then panics; and the emptiness test looks at what was parsed, not at what the packet carries after an edit. Proved: the exact bytes, the exact crash condition, and emptiness as parsed."
  },
  {
   "property": "C65",
   "status": "proved",
   "theorems": [
    "C65_source_port_hash",
    "C65_both_directions"
   ],
   "note": ""
  },
  {
   "property": "C66",
   "status": "partial",
   "theorems": [
    "C66_print_partial",
    "C66_print_others",
    "C66_expected_ack_refuted"
   ],
   "note": "The expected acknowledgement is wrong for every segment with FIN. Proved: all the rest, and its exact value."
  },
  {
   "property": "C67",
   "status": "partial",
   "theorems": [
    "C67_set_flags_partial",
    "C67_set_flags_refuted"
   ],
   "note": "The first part is false of the code for every packet and every change: only the cached field changes, the bytes sent keep the old flags. Proved: what changes and what does not."
  },
  {
   "property": "C68",
   "status": "partial",
   "theorems": [
    "C68_concurrent_partial",
    "C68_no_deadlock",
    "C68_same_packet_refuted",
    "C68_wrong_answer_refuted",
    "C68_bytes_refuted"
   ],
   "note": "False of the code when goroutines share a packet: verification clears the packet's checksum and puts it back, so two verifications can erase the checksum for good, one of them can be told that a right checksum is wrong, and a concurrent GetTCPBytes can return the packet without it. Proved for any number of goroutines and calls, interleaved byte access by byte access in any way, when no goroutine looks at a packet another one verifies."
  },
  {
   "property": "C69",
   "status": "proved",
   "theorems": [
    "C69_type_halves",
    "C69_type_whole"
   ],
   "note": ""
  },
  {
   "property": "C70",
   "status": "proved",
   "theorems": [
    "C70_queues_do_not_mix",
    "C70_queues_finish"
   ],
   "note": ""
  },
  {
   "property": "C71",
   "status": "partial",
   "theorems": [
    "C71_update_by_any_text_partial",
    "C71_address_text",
    "C71_update_by_text_partial",
    "C71_ipv6_refuted",
    "C71_ipv6_marks_ipv4_flow_refuted"
   ],
   "note": "False of the code for IPv6: whatever two IPv6 addresses are given, the flow updated is the IPv4 one between the addresses made of their last four bytes. Proved: for IPv4 addresses written in dotted decimal."
  },
  {
   "property": "C72",
   "status": "partial",
   "theorems": [
    "C72_ipv4_version_partial",
    "C72_ipv6_version_refuted"
   ],
   "note": "False of the code for IPv6: every IPv6 packet is reported with Version 4, next to its own IPv6 addresses. Proved: for IPv4 packets the version is right."
  },
  {
   "property": "C73",
   "status": "partial",
   "theorems": [
    "C73_cut_datagram_reported_partial",
    "C73_cut_in_header_refuted",
    "C73_cut_between_messages_refuted"
   ],
   "note": "False of the code in two cases: a cut that leaves 1 to 15 bytes of a message header makes the reader loop for ever without reporting anything, and a cut exactly between two messages loses the rest without a report. Proved: when at least the 16 bytes of the header are left."
  },
  {
   "property": "C74",
   "status": "proved",
   "theorems": [
    "C74_text_shows_packet",
    "C74_text_identifies_bytes",
    "C74_unreadable_header"
   ],
   "note": ""
  },
  {
   "property": "C75",
   "status": "proved",
   "theorems": [
    "C75_attribute_header",
    "C75_values",
    "C75_nfgen_getters",
    "C75_netlink_data"
   ],
   "note": ""
  },
  {
   "property": "C76",
   "status": "partial",
   "theorems": [
    "C76_list_partial",
    "C76_list_then_update",
    "C76_empty_table_refuted",
    "C76_other_families_refuted"
   ],
   "note": "False of the code: an empty table is reported as an error and only IPv4 flows are ever listed. Proved: a non-empty IPv4 listing is passed on unchanged, failures are reported, and listing followed by a mark update touches exactly the matching flows."
  },
  {
   "property": "C77",
   "status": "partial",
   "theorems": [
    "C77_reader_closes_once_partial",
    "C77_start_to_finish_partial",
    "C77_closed_once_refuted"
   ],
   "note": "Proved when the application leaves the closing to the reader. False of the code once NFlogClose is called while the reader runs: the reader goes on receiving from the closed number and closes it a second time."
  },
  {
   "property": "C78",
   "status": "partial",
   "theorems": [
    "C78_receiving_and_answering_partial",
    "C78_all_finish",
    "C78_delivered_buffer_refuted"
   ],
   "note": "False of the code when the delivered buffer itself is handed to another goroutine: for every next datagram some schedule makes that verdict carry the next datagram's bytes. Proved for goroutines working on copies, one goroutine using SetVerdict2."
  },
  {
   "property": "C79",
   "status": "proved",
   "theorems": [
    "C79_mutex_keeps_verdicts_apart",
    "C79_no_deadlock"
   ],
   "note": ""
  },
  {
   "property": "C80",
   "status": "partial",
   "theorems": [
    "C80_udp_history",
    "C80_calls_succeed",
    "C80_lengths",
    "C80_complete_after_data_partial",
    "C80_complete_refuted"
   ],
   "note": "The last part is false of the code: UDPDataDetach leaves the IP length alone and UDPTokenAttach adds to it, so after detach and token attach the IP length still counts the detached data. Proved: the IP length exceeds the actual length by exactly what was detached since the last data attachment or reversal, the IPv4 header checksum stays right, the UDP fields are right unless the last edit was a detachment, and the packet is complete whenever a data attachment or reversal followed the last detachment."
  },
  {
   "property": "C81",
   "status": "partial",
   "theorems": [
    "C81_each_packet_once_in_order_partial",
    "C81_packet_during_setup_lost_refuted"
   ],
   "note": "False of the code: a packet that arrives between the creation of the queue and the end of the set-up is taken for the answer to the next set-up request and lost: it is never shown and never gets a verdict. Proved: it holds for every run, callback that does not stop the queue and arrival schedule when packets only arrive after the last set-up answer was sent."
  },
  {
   "property": "C82",
   "status": "partial",
   "theorems": [
    "C82_result_is_the_kernels_answer_partial",
    "C82_refused_request_reported_as_done_refuted"
   ],
   "note": "False of the code when a packet is waiting on the socket: any message that is not an error is taken for the acknowledgement, so StopQueue returns nil although the kernel refused it. Proved: it holds for every configuration call when nothing is waiting."
  },
  {
   "property": "C83",
   "status": "partial",
   "theorems": [
    "C83_version_reported",
    "C83_lengths_reported",
    "C83_udp_start",
    "C83_test_packet_partial",
    "C83_test_packet_flow_hash_refuted"
   ],
   "note": "The last part is false of the code for L4FlowHash: the test packet's is empty for every flow. Proved: addresses, ports, SourcePortHash and the reverse flow hash."
  },
  {
   "property": "C84",
   "status": "partial",
   "theorems": [
    "C84_each_log_once_in_order_partial",
    "C84_log_during_setup_lost_refuted",
    "C84_refusal_unreported_refuted"
   ],
   "note": "False of the code: a log message that arrives between the binding of the first group and the end of the set-up is taken for the answer to the next request: its packets are never shown, and a refusal of a later request is skipped by the reader and never reported. Proved: for every run in which the answers to the set-up requests come first."
  },
  {
   "property": "C85",
   "status": "partial",
   "theorems": [
    "C85_pieces_make_a_turn",
    "C85_pieces_make_StopQueue",
    "C85_each_datagram_one_receiver_partial",
    "C85_StopQueue_waits_for_ever_refuted",
    "C85_packet_overwritten_refuted",
    "C85_refusal_overwritten_refuted"
   ],
   "note": "The counting part is proved for every schedule; that StopQueue returns, that it reports a refusal it received, and that a packet the loop took is shown as it is are refuted: the loop can take the answer, after which StopQueue waits for ever in every continuation, and the two receive into one buffer."
  },
  {
   "property": "C86",
   "status": "partial",
   "theorems": [
    "C86_at_most_one_more_partial",
    "C86_loop_returns",
    "C86_cancelled_loop_waits_refuted"
   ],
   "note": "Proved: at most one more, none if it was not already waiting, and at its next look at the context it closes and returns; refuted: that it returns - a loop blocked in its receive stays there in every continuation in which no datagram arrives."
  },
  {
   "property": "C87",
   "status": "partial",
   "theorems": [
    "C87_set_data",
    "C87_drop_data",
    "C87_drop_all",
    "C87_length_stays_true_partial",
    "C87_length_false_refuted"
   ],
   "note": "The last part is false of the code, which does not touch the length: proved that it stays true exactly when a replacement is as long as what it replaces and nothing is dropped."
  },
  {
   "property": "C88",
   "status": "partial",
   "theorems": [
    "C88_conntrack_example_partial",
    "C88_first_entry_translated_refuted",
    "C88_empty_table_refuted",
    "C88_table_emptied_refuted",
    "C88_second_example"
   ],
   "note": "Partial: the first entry is marked exactly when its addresses and ports are not translated; a translated first entry is left alone and 0 is printed without error; on an empty or unreadable table, or one that has become empty, the program panics."
  },
  {
   "property": "C89",
   "status": "proved",
   "theorems": [
    "C89_nfqueue_example"
   ],
   "note": ""
  },
  {
   "property": "C90",
   "status": "partial",
   "theorems": [
    "C90_flows_created",
    "C90_no_connection_left_open",
    "C90_nil_means_all_partial",
    "C90_failed_write_unnoticed_refuted"
   ],
   "note": "Partial: a failed send goes unnoticed: nil does not mean that the datagrams were sent."
  },
  {
   "property": "C91",
   "status": "proved",
   "theorems": [
    "C91_tagged_packet_released",
    "C91_malformed_packet_dropped"
   ],
   "note": ""
  },
  {
   "property": "C92",
   "status": "partial",
   "theorems": [
    "C92_error_callback_data_partial",
    "C92_data_is_never_nil_refuted"
   ],
   "note": "False of the code: the data is never nil - when nothing was received or the kernel reported an error it is a non-nil interface holding a nil *NfqGenMsg, so the usual nil test passes and using it panics; what is given in each case is proved exactly."
  },
  {
   "property": "C93",
   "status": "partial",
   "theorems": [
    "C93_notification_channel_silent_refuted"
   ],
   "note": "The property a user expects, that a received packet appears on the channel, is false of the code; the theorem states the opposite for every history."
  },
  {
   "property": "C94",
   "status": "proved",
   "theorems": [
    "C94_queue_uses_own_descriptors",
    "C94_log_uses_own_descriptors"
   ],
   "note": ""
  },
  {
   "property": "C95",
   "status": "partial",
   "theorems": [
    "C95_queue_use_after_close_refuted",
    "C95_log_use_after_close_refuted"
   ],
   "note": "False: closing does not clear the descriptor. After NfqClose or NFlogClose every configuration call still sends its request on the closed number, which the operating system may have given to another file of the program; what holds is C94."
  },
  {
   "property": "C96",
   "status": "proved",
   "theorems": [
    "C96_memory_left_alone"
   ],
   "note": ""
  },
  {
   "property": "C97",
   "status": "proved",
   "theorems": [
    "C97_log_leaves_memory_alone",
    "C97_conntrack_leaves_memory_alone"
   ],
   "note": ""
  },
  {
   "property": "C98",
   "status": "partial",
   "theorems": [
    "C98_conntrack_descriptors_partial",
    "C98_failed_bind_leaks_refuted"
   ],
   "note": "The last part is false after a failed bind: the descriptor of that socket is never closed, and the call panics. It is proved for all histories without a failed bind."
  },
  {
   "property": "C99",
   "status": "partial",
   "theorems": [
    "C99_stale_payload_refuted",
    "C99_stale_id_refuted",
    "C99_no_payload_yet_refuted"
   ],
   "note": "False: the attribute table is never cleared. As long as no message has carried a payload every packet is shown with a buffer of 76800 bytes; afterwards with as many bytes as the last payload had, taken from its own message at the place where that payload was; the id likewise. The theorems say exactly this for every run."
  },
  {
   "property": "C100",
   "status": "partial",
   "theorems": [
    "C100_each_part_uses_its_own_sockets_partial",
    "C100_stopped_queue_closes_anothers_socket_refuted"
   ],
   "note": "False of the code for a queue whose callback stops it: the loop later closes the number again, and by then it may be another part's socket. Proved: for queues that are not stopped from a callback, all log listeners and all updates."
  },
  {
   "property": "C101",
   "status": "proved",
   "theorems": [
    "C101_edits_stay_inside",
    "C101_capacity_is_needed"
   ],
   "note": ""
  },
  {
   "property": "C102",
   "status": "proved",
   "theorems": [
    "C102_udp_packet_answered",
    "C102_tcp_packet_passes",
    "C102_malformed_packet_dropped"
   ],
   "note": ""
  },
  {
   "property": "C103",
   "status": "proved",
   "theorems": [
    "C103_every_message_answered_in_turn"
   ],
   "note": ""
  },
  {
   "property": "C104",
   "status": "partial",
   "theorems": [
    "C104_right_after_first_queue",
    "C104_before_first_queue",
    "C104_every_use_right_refuted",
    "C104_concurrent_creation",
    "C104_creation_race_free_refuted"
   ],
   "note": "False: nfqueue keeps the order in a package variable that is nil until the first NewNFQueue. Before that, GetPacketInfo on any message with a packet header, NfqMsgVerdictHdr.ToWireFormat and requests on the socket of an NfQueue that was not made by NewNFQueue panic; and concurrent first calls of NewNFQueue write the variable in a data race. After the first queue every answer is right, in every history; and under sequential consistency every interleaving of creations leaves the variable at the machine's order, never back at nil."
  }
 ]
}