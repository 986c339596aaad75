{
 "claims": [
  {
   "property": "C01",
   "status": "proved",
   "theorems": [
    "C01_buffer_is_bit_string_from_bytes",
    "C01_buffer_is_bit_string_from_new"
   ],
   "note": ""
  },
  {
   "property": "C02",
   "status": "proved",
   "theorems": [
    "C02_write_then_read"
   ],
   "note": ""
  },
  {
   "property": "C03",
   "status": "proved",
   "theorems": [
    "C03_reads"
   ],
   "note": ""
  },
  {
   "property": "C04",
   "status": "proved",
   "theorems": [
    "C04_accepted_names"
   ],
   "note": ""
  },
  {
   "property": "C05",
   "status": "proved",
   "theorems": [
    "C05_name_wire_round_trip"
   ],
   "note": ""
  },
  {
   "property": "C06",
   "status": "partial",
   "theorems": [
    "C06_refuted_exactly_which_names_survive",
    "C06_root_lost",
    "C06_long_label_lost"
   ],
   "note": "REFUTED: the root is encoded as two zero bytes and labels longer than 63 bytes are encoded with a length byte that is not a label length. Proved: exactly which accepted names survive (non-root, labels of at most 63 bytes), plus witnesses of the failure."
  },
  {
   "property": "C07",
   "status": "proved",
   "theorems": [
    "C07_decoded_names_are_accepted"
   ],
   "note": ""
  },
  {
   "property": "C08",
   "status": "proved",
   "theorems": [
    "C08_name_decoding_terminates"
   ],
   "note": ""
  },
  {
   "property": "C09",
   "status": "partial",
   "theorems": [
    "C09_decoding_is_rfc_decompression_partial",
    "C09_release_reads_pointers_modulo_8192",
    "C09_refuted_release",
    "C09_refuted_dot_in_label"
   ],
   "note": "REFUTED in general: release builds read pointers modulo 8192, and a wire label holding a dot comes back as two labels. Proved: completeness for offsets below 8192 in both profiles, soundness in debug builds, and the exact characterisation for release builds."
  },
  {
   "property": "C10",
   "status": "partial",
   "theorems": [
    "C10_exactly_which_names_panic",
    "C10_exact_nonvacuous",
    "C10_no_panic_if_pointers_in_range_partial",
    "C10_refuted_pointer_past_end_panics",
    "C10_refuted_witness"
   ],
   "note": "REFUTED: every name starting with a pointer past the end panics. Proved: exactly which names panic (those that run into a fatal pointer within 256 bytes of text and 16 pointers; all others return), and no panic when every candidate pointer is in range and below 8192."
  },
  {
   "property": "C11",
   "status": "proved",
   "theorems": [
    "C11_zone_membership",
    "C11_membership_is_a_partial_order",
    "C11_only_in_auth_zone"
   ],
   "note": ""
  },
  {
   "property": "C12",
   "status": "partial",
   "theorems": [
    "C12_refuted_root_zone_contains_only_root",
    "C12_witness"
   ],
   "note": "REFUTED: the root zone contains only the root itself."
  },
  {
   "property": "C13",
   "status": "partial",
   "theorems": [
    "C13_refuted_case_sensitive",
    "C13_witness"
   ],
   "note": "REFUTED: comparison is byte equality; names differing only in case are unrelated."
  },
  {
   "property": "C14",
   "status": "proved",
   "theorems": [
    "C14_encode_header",
    "C14_decode_header",
    "C14_round_trip",
    "C14_decode_total",
    "C14_only_std_is_encoded"
   ],
   "note": ""
  },
  {
   "property": "C15",
   "status": "proved",
   "theorems": [
    "C15_encode_question",
    "C15_decode_question",
    "C15_encode_record",
    "C15_decode_record",
    "C15_normal"
   ],
   "note": ""
  },
  {
   "property": "C16",
   "status": "partial",
   "theorems": [
    "C16_refuted",
    "C16_refuted_txt_never_round_trips",
    "C16_refuted_witness"
   ],
   "note": "REFUTED: the TXT decoder steps back one bit instead of one byte; no TXT record is ever read back from its own bytes. The encoder side is right (C15_encode_record)."
  },
  {
   "property": "C17",
   "status": "partial",
   "theorems": [
    "C17_decode_wks",
    "C17_refuted_short_bitmap_panics",
    "C17_refuted_ports_never_come_back",
    "C17_refuted_witness",
    "C17_portless_round_trip_partial"
   ],
   "note": "REFUTED: a WKS bit map naming a port panics debug builds and hangs release builds; a short bit map panics. Proved: the full behaviour on well-formed WKS records, and the round trip of port-less ones."
  },
  {
   "property": "C18",
   "status": "partial",
   "theorems": [
    "C18_rdlength_enforced_debug",
    "C18_rdlength_modulo_release_partial",
    "C18_refuted_release_witness"
   ],
   "note": "Proved for debug builds. REFUTED in release builds, where the length is compared modulo 8192 bytes (proved exactly)."
  },
  {
   "property": "C19",
   "status": "proved",
   "theorems": [
    "C19_encode_message",
    "C19_decode_message",
    "C19_round_trip"
   ],
   "note": ""
  },
  {
   "property": "C20",
   "status": "proved",
   "theorems": [
    "C20_decoded_is_supported"
   ],
   "note": ""
  },
  {
   "property": "C21",
   "status": "proved",
   "theorems": [
    "C21_unknown_types_skipped",
    "C21_unknown_record_exact"
   ],
   "note": ""
  },
  {
   "property": "C22",
   "status": "partial",
   "theorems": [
    "C22_exactly_which_queries_panic_partial",
    "C22_exact_nonvacuous",
    "C22_debug_never_hangs_partial",
    "C22_release_returns_if_tame_partial",
    "C22_questions_return_partial",
    "C22_plain_queries_return_partial",
    "C22_refuted_witnesses"
   ],
   "note": "REFUTED: packets that panic (both profiles) or hang (release) are exhibited. Proved: debug builds never hang; release builds return on packets with in-range pointers and no WKS/TXT type bytes; both return on query-shaped packets with in-range pointers; exactly which packets without records panic, and that they never hang."
  },
  {
   "property": "C23",
   "status": "proved",
   "theorems": [
    "C23_trunc_at_most_512"
   ],
   "note": ""
  },
  {
   "property": "C24",
   "status": "proved",
   "theorems": [
    "C24_maximal_prefix",
    "C24_header_fields"
   ],
   "note": ""
  },
  {
   "property": "C25",
   "status": "proved",
   "theorems": [
    "C25_short_messages_unchanged"
   ],
   "note": ""
  },
  {
   "property": "C26",
   "status": "proved",
   "theorems": [
    "C26_type_numbers",
    "C26_class_numbers",
    "C26_op_and_response_codes",
    "C26_type_names",
    "C26_supported"
   ],
   "note": ""
  },
  {
   "property": "C27",
   "status": "proved",
   "theorems": [
    "C27_encode",
    "C27_round_trip",
    "C27_decode"
   ],
   "note": ""
  },
  {
   "property": "C28",
   "status": "proved",
   "theorems": [
    "C28_reply_mirrors_request"
   ],
   "note": ""
  },
  {
   "property": "C29",
   "status": "proved",
   "theorems": [
    "C29_outside_is_refused"
   ],
   "note": "for accepted, non-root zone names (C12 covers the root)"
  },
  {
   "property": "C30",
   "status": "proved",
   "theorems": [
    "C30_sub_zone_is_delegated"
   ],
   "note": "of overlapping sub zones the first configured one answers"
  },
  {
   "property": "C31",
   "status": "proved",
   "theorems": [
    "C31_authoritative_answer",
    "C31_server_started_from_files"
   ],
   "note": ""
  },
  {
   "property": "C32",
   "status": "proved",
   "theorems": [
    "C32_negative_answer"
   ],
   "note": ""
  },
  {
   "property": "C33",
   "status": "partial",
   "theorems": [
    "C33_nxdomain_only_if_nothing_to_answer_partial",
    "C33_refuted_existing_names_denied",
    "C33_refuted_witness"
   ],
   "note": "REFUTED: every existing name lacking the asked type (and a CNAME) gets NXDOMAIN. Proved: NXDOMAIN implies there is nothing of the asked type and no alias."
  },
  {
   "property": "C34",
   "status": "partial",
   "theorems": [
    "C34_refuted_udp",
    "C34_refuted_tcp",
    "C34_refuted_witness",
    "C34_invalid_requests_get_formerr_partial"
   ],
   "note": "REFUTED: every request with a readable header that fails to decode panics its worker while the error reply is encoded. Proved: decodable requests that are no queries get FORMERR on both transports."
  },
  {
   "property": "C35",
   "status": "proved",
   "theorems": [
    "C35_unreadable_udp",
    "C35_unreadable_tcp",
    "C35_short_stream"
   ],
   "note": ""
  },
  {
   "property": "C36",
   "status": "partial",
   "theorems": [
    "C36_refuted_unknown_types_crash",
    "C36_refuted_witness"
   ],
   "note": "REFUTED: every well-formed query of unknown type panics the worker on both transports."
  },
  {
   "property": "C37",
   "status": "partial",
   "theorems": [
    "C37_valid_queries_are_answered_partial",
    "C37_server_started_from_files_answers_partial",
    "C37_refuted_long_txt",
    "C37_refuted_from_files"
   ],
   "note": "REFUTED: a zone with a TXT string over 255 bytes (the loader accepts it) panics. Proved: for zones with what the loader guarantees and strings of at most 255 bytes, every valid query is answered on both transports."
  },
  {
   "property": "C38",
   "status": "partial",
   "theorems": [
    "C38_request_framing",
    "C38_short_streams",
    "C38_reply_framing_modulo",
    "C38_reply_framing_partial",
    "C38_refuted_long_replies",
    "C38_refuted_witness"
   ],
   "note": "REFUTED for replies of 65536 bytes and more (length modulo 65536). Proved: requests are read exactly; replies below that are framed exactly."
  },
  {
   "property": "C39",
   "status": "proved",
   "theorems": [
    "C39_store_is_the_list_of_added_records",
    "C39_every_history"
   ],
   "note": ""
  },
  {
   "property": "C40",
   "status": "proved",
   "theorems": [
    "C40_loaded_records_respect_the_zone",
    "C40_C42_nonvacuous"
   ],
   "note": "for configurations whose zone names are accepted and not the root"
  },
  {
   "property": "C41",
   "status": "proved",
   "theorems": [
    "C41_one_soa_and_ns_at_the_apex"
   ],
   "note": ""
  },
  {
   "property": "C42",
   "status": "proved",
   "theorems": [
    "C42_loaded_sub_zones",
    "C40_C42_give_zone_loaded"
   ],
   "note": ""
  },
  {
   "property": "C44",
   "status": "proved",
   "theorems": [
    "C44_tokenizer_total",
    "C44_sequence_is_unique",
    "C44_nonvacuous"
   ],
   "note": ""
  },
  {
   "property": "C45",
   "status": "proved",
   "theorems": [
    "C45_idle_lines_are_invisible",
    "C45_loading_ignores_idle_lines",
    "C45_nonvacuous"
   ],
   "note": "for all files"
  },
  {
   "property": "C43",
   "status": "partial",
   "theorems": [
    "C43_refuted_escapes",
    "C43_refuted_endless_loop",
    "C43_refuted_include_cycle",
    "C43_loading_terminates_partial",
    "C43_nonvacuous"
   ],
   "note": "REFUTED: an unquoted word with a backslash running to the end of its line panics; odd white space in TXT data loops for ever; include cycles recurse without bound. Proved: plain files (no backslash, only blanks and tabs) with acyclic includes always load to zones or an error."
  },
  {
   "property": "C46",
   "status": "proved",
   "theorems": [
    "C46_C47_loading_computes_what_files_say",
    "C46_C47_files_say_one_thing",
    "C46_includes_do_not_leak",
    "C46_C47_nonvacuous"
   ],
   "note": ""
  },
  {
   "property": "C47",
   "status": "proved",
   "theorems": [
    "C46_C47_loading_computes_what_files_say",
    "C46_C47_files_say_one_thing",
    "C47_omitted_ttls_are_inherited",
    "C46_C47_nonvacuous"
   ],
   "note": ""
  },
  {
   "property": "C48",
   "status": "proved",
   "theorems": [
    "C48_cache_is_a_map_with_expiry",
    "C48_gets",
    "C48_every_schedule",
    "C48_nonvacuous",
    "C48_schedules_nonvacuous"
   ],
   "note": "every schedule of every set of threads is linearizable to a map with expiry; calls that would overflow the clock or whose callback panics are C67"
  },
  {
   "property": "C49",
   "status": "proved",
   "theorems": [
    "C49_cleaning_is_unobservable",
    "C49_cleaning_is_complete",
    "C49_nonvacuous"
   ],
   "note": ""
  },
  {
   "property": "C67",
   "status": "partial",
   "theorems": [
    "C67_panicking_callbacks_disable_the_cache",
    "C67_refuted_witness",
    "C48_cache_is_a_map_with_expiry"
   ],
   "note": "REFUTED: a panicking callback poisons the lock and every later call panics. Proved: with callbacks that do not panic and expiries below the end of the clock, every call of every history returns (C48)."
  },
  {
   "property": "C50",
   "status": "partial",
   "theorems": [
    "C50_ttl_is_what_is_left",
    "C50_store_then_search",
    "C50_ttl_never_raised_partial",
    "C50_nonvacuous",
    "C50_refuted_slow_read"
   ],
   "note": "REFUTED for reads that take long: the clock is read before the cache is asked, so a record stored in between can come out with a TTL above the stored one. Proved: never returned at or after expiry; the TTL is the whole seconds left at the reading; never above the stored TTL if the access takes less than a second."
  },
  {
   "property": "C51",
   "status": "proved",
   "theorems": [
    "C51_store",
    "C51_store_nonvacuous",
    "C51_cache_stays_in_order",
    "C51_other_lookups_qualify"
   ],
   "note": "for every run of every lookup, from every cache in order, other threads being lookups too"
  },
  {
   "property": "C52",
   "status": "partial",
   "theorems": [
    "C52_owners_partial",
    "C52_nonvacuous",
    "C52_refuted_ns_owners"
   ],
   "note": "REFUTED for NS records: all NS records of a response are stored under the owner of the first. Proved for all other types."
  },
  {
   "property": "C53",
   "status": "proved",
   "theorems": [
    "C53_extract_records",
    "C53_extract_record",
    "C53_nonvacuous"
   ],
   "note": ""
  },
  {
   "property": "C54",
   "status": "proved",
   "theorems": [
    "C54_servers_with_addresses_first",
    "C54_nonvacuous"
   ],
   "note": ""
  },
  {
   "property": "C55",
   "status": "proved",
   "theorems": [
    "C55_hierarchy",
    "C55_hierarchy_is_accepted",
    "C55_nonvacuous"
   ],
   "note": ""
  },
  {
   "property": "C56",
   "status": "proved",
   "theorems": [
    "C56_lookups_terminate",
    "C56_debug_lookups_terminate",
    "C56_nonvacuous",
    "C56_only_a_received_packet_hangs",
    "C56_hang_nonvacuous"
   ],
   "note": "the depth of nested lookups is bounded by the number of accepted names only Release builds: a lookup hangs only if a packet it received hangs the decoder."
  },
  {
   "property": "C57",
   "status": "partial",
   "theorems": [
    "C57_answer_is_an_alias_chain_partial",
    "C57_owners_distinct_partial",
    "C57_refuted_repeated_owner",
    "C57_refuted_ns_owners"
   ],
   "note": "REFUTED twice: an alias of a name to itself repeats its owner, and NS answers from the cache may have other owners (C52). Proved: the chain, its length, its order, no way back; owners distinct if no alias is its own target; owners of the final records for types other than NS."
  },
  {
   "property": "C58",
   "status": "partial",
   "theorems": [
    "C58_delegations_descend_partial",
    "C58_follows_only_delegations_partial",
    "C58_own_servers_come_with_addresses",
    "C58_nonvacuous",
    "C58_refuted_not_enclosing"
   ],
   "note": "REFUTED: zones are compared as texts, so a delegation of example.com. is followed for notexample.com. Proved: the name ends with the text of the zone, whose text is strictly longer than the current zone's; nothing else is followed."
  },
  {
   "property": "C59",
   "status": "proved",
   "theorems": [
    "C59_one_zone",
    "C59_one_zone_any_servers",
    "C59_whole_lookup",
    "C59_nonvacuous"
   ],
   "note": "the bound for whole lookups is astronomic: it rests on the number of accepted names"
  },
  {
   "property": "C60",
   "status": "partial",
   "theorems": [
    "C60_only_responses_with_the_id_partial",
    "C60_every_record_has_an_origin_partial",
    "C60_refuted_poisoning",
    "C60_nonvacuous",
    "C60_every_record_was_received_partial"
   ],
   "note": "REFUTED: addresses sent along with a delegation are cached for any name at all. Proved: only packets that answer that try and carry the id sent are used, and every record answered or cached was known before, is a root server's, or came in such a packet. The packets meant are those received by this lookup in reply to its own (C90)."
  },
  {
   "property": "C61",
   "status": "partial",
   "theorems": [
    "C61_calm_lookups_do_not_panic_partial",
    "C61_nonvacuous",
    "C61_refuted_server_without_address",
    "C61_refuted_bad_packet",
    "C61_refuted_ttl_overflow",
    "C61_calm_replies_do_not_panic_partial",
    "C90_calm_nonvacuous"
   ],
   "note": "REFUTED three ways: NXDOMAIN for the name of a name server without address, packets the decoder panics on, slow cache accesses with the highest TTL. Proved: those causes aside, no lookup panics, NXDOMAIN for other names included. Only what this lookup received, stored and did itself matters (C90)."
  },
  {
   "property": "C62",
   "status": "partial",
   "theorems": [
    "C62_silent_traces_have_no_text_partial",
    "C62_nonvacuous",
    "C62_refuted_nested"
   ],
   "note": "REFUTED: nested lookups leave empty nested traces even when silent. Proved: there is never any text."
  },
  {
   "property": "C63",
   "status": "proved",
   "theorems": [
    "C63_reply_mirrors_request",
    "C63_what_is_sent_udp",
    "C63_what_is_sent_tcp",
    "C63_counts_are_exact",
    "C63_nonvacuous"
   ],
   "note": "for every run of every request; counts of truncated UDP replies are C24"
  },
  {
   "property": "C68",
   "status": "partial",
   "theorems": [
    "C68_refuted",
    "C68_refuted_witness",
    "C68_invalid_requests_get_formerr_partial",
    "C68_partial_nonvacuous",
    "C68_unreadable_requests_are_dropped"
   ],
   "note": "REFUTED: every request with a readable header that fails to decode panics its worker while the error reply is encoded. Proved: decodable requests that are no queries get FORMERR; unreadable ones are dropped."
  },
  {
   "property": "C69",
   "status": "partial",
   "theorems": [
    "C69_refuted_unknown_types_crash",
    "C36_refuted_witness"
   ],
   "note": "REFUTED: every well-formed query of unknown type panics the resolver's worker on both transports."
  },
  {
   "property": "C70",
   "status": "partial",
   "theorems": [
    "C70_queries_get_replies_partial",
    "C70_nonvacuous",
    "C70_refuted_bad_packet",
    "C83_refuted_deep_nesting",
    "C70_calm_replies_suffice_partial",
    "C90_calm_nonvacuous",
    "C70_calm_replies_of_few_zones_partial"
   ],
   "note": "REFUTED by C61: an upstream packet that makes the lookup panic takes the reply with it; and by C83: in debug builds with log level info, so does printing a deeply nested trace. Proved: with C61's causes of panics excluded, traces nested at most 255 deep (or a release build, or a higher log level) and upstream packets that decode in finite time, every valid query is answered on both transports with what the lookup found. Only what the lookup received matters (C90); traces are not nested that deep if it heard of at most 255 zones (C91)."
  },
  {
   "property": "C64",
   "status": "proved",
   "theorems": [
    "C64_jobs_start_once_in_order",
    "C64_worker_runs_one_by_one",
    "C64_drop_waits_for_all_jobs",
    "C64_no_starvation",
    "C64_bounded_work",
    "C64_no_deadlock",
    "C64_nonvacuous"
   ],
   "note": "as a transition system with one step per channel, lock or thread operation; also no starvation, no deadlock, bounded work"
  },
  {
   "property": "C65",
   "status": "partial",
   "theorems": [
    "C65_exactly_when_it_keeps_serving_partial",
    "C65_exact_nonvacuous",
    "C65_refuted",
    "C65_refuted_in_every_schedule",
    "C65_refuted_dead_pool_serves_nothing",
    "C65_refuted_next_request_aborts",
    "C65_refuted_every_schedule",
    "C65_refuted_reachable",
    "C65_harmless_requests_are_served_partial",
    "C65_partial_nonvacuous"
   ],
   "note": "REFUTED: as many crashing packets (12 bytes each) as there are threads, and the next packet aborts the process; on both servers and transports, in every schedule. Proved: the name server's UDP side serves everything as long as all requests are queries of known types, decodable non-queries or unreadable; and, on both transports and in every schedule, that it serves all other requests as long as fewer requests of those that crash (C87) than threads were read, and ends dead once there are as many."
  },
  {
   "property": "C66",
   "status": "partial",
   "theorems": [
    "C66_accepted_nameserver_confs",
    "C66_accepted_resolver_confs",
    "C66_nameserver_starts_partial",
    "C66_resolver_starts_partial",
    "C66_tcp_serves_partial",
    "C66_refuted_read_timeout",
    "C66_refuted_witness",
    "C66_refuted_root_zone",
    "C66_refuted_root_witness",
    "C66_nonvacuous"
   ],
   "note": "REFUTED: a TCP read timeout of 0 is accepted, and then every TCP connection is dropped; the root is accepted as a zone, and then every other name is refused. Proved: exactly which configurations are accepted, and that otherwise they are usable."
  },
  {
   "property": "C71",
   "status": "partial",
   "theorems": [
    "C71_drop_ends",
    "C71_drop_returns_partial",
    "C71_refuted_drop_panics",
    "C71_nonvacuous",
    "C71_partial_nonvacuous"
   ],
   "note": "REFUTED: after any job has panicked, drop can only panic. Proved: drop always ends within a bounded number of steps, and if no job panics it returns after all jobs."
  },
  {
   "property": "C72",
   "status": "partial",
   "theorems": [
    "C72_returns_only_when_both_ended",
    "C72_stops_only_after_a_failure",
    "C72_shutdown_completes_partial",
    "C72_partial_nonvacuous",
    "C72_refuted_lost_wake_up",
    "C72_refuted_after_a_crash"
   ],
   "note": "REFUTED: a wake-up sent before the other server has bound its address is lost, and start_servers panics after 4 s; also after any request has panicked. Proved: it returns only when both ended, stops only after a failed bind, and otherwise the shutdown completes."
  },
  {
   "property": "C73",
   "status": "proved",
   "theorems": [
    "C73_all_tries_are_made",
    "C73_nonvacuous"
   ],
   "note": "for a server with an address; only its first address is used"
  },
  {
   "property": "C74",
   "status": "proved",
   "theorems": [
    "C74_one_working_server_is_enough",
    "C74_failures_are_of_later_zones",
    "C74_nonvacuous"
   ],
   "note": "per zone; whole lookups in a healthy DNS are C78"
  },
  {
   "property": "C75",
   "status": "partial",
   "theorems": [
    "C75_queries_say_what_is_asked_partial",
    "C75_nonvacuous",
    "C75_refuted_root",
    "C75_queries_rely_on_what_was_received_partial"
   ],
   "note": "REFUTED for the root name, which is written wrongly. Proved: every packet sent is a standard query, recursion not desired, with one question that the lookup may ask, to an address the lookup relies on; and the question is written as RFC 1035 says if its name is not the root and its labels have at most 63 bytes."
  },
  {
   "property": "C76",
   "status": "proved",
   "theorems": [
    "C76_answers_are_cached",
    "C76_nonvacuous"
   ],
   "note": "Assumes that one cache access takes less than a second, that other threads only ever prolong entries that are still valid, and that both lookups end before the first of the TTLs counted from the start of the first."
  },
  {
   "property": "C77",
   "status": "proved",
   "theorems": [
    "C77_no_such_name_needs_a_denial",
    "C77_nonvacuous",
    "C77_no_such_name_was_received",
    "C77_received_nonvacuous"
   ],
   "note": "The denial was received by this lookup, in reply to a packet it sent."
  },
  {
   "property": "C78",
   "status": "partial",
   "theorems": [
    "C78_lookups_find_what_is_there_partial",
    "C78_all_lookups_find_what_is_there_partial",
    "C78_other_lookups_qualify_partial",
    "C78_nonvacuous",
    "C78_nonvacuous_glueless",
    "C78_refuted_after_ns_lookup",
    "C78_refuted_expired_glue",
    "C78_refuted_cname_race",
    "C78_refuted_no_data",
    "C78_refuted_alias_suffix"
   ],
   "note": "REFUTED: after a lookup of a zone's NS records, or when its servers' addresses expire before them, lookups in the zone fail; a response without records and without error (NODATA) fails the lookup; an alias whose target only textually ends with the zone's name is looked up at the wrong servers; a CNAME lookup can race with a concurrent one and deny the record. Proved for all healthy DNSs in which the above do not occur: every lookup, and every lookup of any sequence, returns exactly what there is. Healthy: per zone fewer than max_ns servers are broken (silent or worthless) and the others honest; a zone either is referred to with the addresses of a working server that last until the end of the lookups, or its servers' names lie in zones of smaller depth, where the resolver looks them up (NS lookups are allowed of zones of the latter kind)."
  },
  {
   "property": "C79",
   "status": "partial",
   "theorems": [
    "C79_answers_partial",
    "C79_alias_partial",
    "C79_denial_partial",
    "C79_refusal",
    "C79_delegation_partial",
    "C79_nonvacuous",
    "C79_refuted_long_replies",
    "C79_refuted_txt"
   ],
   "note": "REFUTED for replies over 512 bytes (cut by the server, taken for complete by the resolver) and for TXT records (C16). Proved for zones without TXT records and replies that fit; for delegations also that servers without addresses whose names end with the text of the zone are excluded."
  },
  {
   "property": "C80",
   "status": "proved",
   "theorems": [
    "C80_tracing_changes_nothing",
    "C80_nonvacuous"
   ],
   "note": ""
  },
  {
   "property": "C81",
   "status": "proved",
   "theorems": [
    "C81_well_formed_files_are_loaded",
    "C81_loaded_files_are_well_formed",
    "C81_loaded_iff_well_formed",
    "C81_refused_iff_not_well_formed",
    "C81_nonvacuous"
   ],
   "note": "Zone names of the configuration are assumed accepted and not the root (params_ok; C66 covers configurations). The grammar is over tokens; which tokens a text has is given by the separate lexical grammar (LexSpec.v, C82), so the specification does not mention the tokenizer or the parser. The refusal statement needs files without backslashes and odd white space and includes without cycles (otherwise loading may panic or not end: C43)."
  },
  {
   "property": "C82",
   "status": "proved",
   "theorems": [
    "C82_tokens_are_those_of_the_text",
    "C82_unambiguous",
    "C82_other_text_is_not_read",
    "C82_nonvacuous",
    "C82_other_text_nonvacuous"
   ],
   "note": "For all files. Lines are given as code points (line splitting and UTF-8 decoding by BufRead::lines are trusted). Text outside of the rules may also panic (a word with an escape running to the end of the line) or be read for ever (odd white space starting a token); for files without those C44 says that reading ends."
  },
  {
   "property": "C83",
   "status": "partial",
   "theorems": [
    "C83_traces_are_printed_partial",
    "C83_deep_traces",
    "C83_printed_once",
    "C83_nonvacuous",
    "C83_refuted_deep_nesting",
    "C83_few_zones_are_printed_partial"
   ],
   "note": "REFUTED: nesting is counted in a u8; a debug build panics on traces nested deeper than 255, which a chain of 256 glueless delegations causes even with tracing switched off, and the query is not answered. Proved: up to 255 levels everything is printed in order with its indentation; in release builds always, with the indentation modulo 256; and lookups that heard of at most 255 zones are printed (C91)."
  },
  {
   "property": "C84",
   "status": "proved",
   "theorems": [
    "C84_traces_tell_of_every_packet",
    "C84_packets_are_counted",
    "C84_nonvacuous"
   ],
   "note": "For lookups that end (C56, C61 say which do)."
  },
  {
   "property": "C85",
   "status": "partial",
   "theorems": [
    "C85_published_zones_are_found_partial",
    "C85_name_servers_are_good_partial",
    "C85_nonvacuous",
    "C85_refuted_large_and_txt"
   ],
   "note": "REFUTED in general for the reasons given at C16 (TXT records cannot be read back), C24 (replies over 512 bytes are truncated and the resolver ignores TC), C78 (NS lookups of zones with anchors and expiring glue break later lookups) and C79. Proved for zones without those: any number of zones, servers, sub zones; some or all servers may be of this project, the others as in C78. The witness has two zones loaded from texts, one server losing every other packet."
  },
  {
   "property": "C86",
   "status": "partial",
   "theorems": [
    "C86_clients_are_told_what_is_there_partial",
    "C86_published_zones_reach_clients_partial",
    "C86_nonvacuous"
   ],
   "note": "REFUTED in general as C78 and C85 are (what is not found is not told), and because replies over 512 bytes are cut over UDP (C24). Proved for healthy DNSs as in C78, and for zones published as in C85; for debug builds that log at level info, servers must speak of at most 255 zones (C83, C91)."
  },
  {
   "property": "C87",
   "status": "proved",
   "theorems": [
    "C87_exactly_which_requests_crash",
    "C87_nonvacuous"
   ],
   "note": "An equivalence for every datagram and every framed TCP request, given loaded zones without over-long character strings (C37 shows those crash too). On which queries the decoder panics is C22_exactly_which_queries_panic_partial."
  },
  {
   "property": "C88",
   "status": "proved",
   "theorems": [
    "C88_traces_are_accounts",
    "C88_results_can_be_read_off",
    "C88_nonvacuous"
   ],
   "note": "For lookups that end (C56, C61 say which do). The grammar of accounts is AccountSpec.v."
  },
  {
   "property": "C89",
   "status": "proved",
   "theorems": [
    "C89_exactly_which_requests_crash",
    "C89_nonvacuous"
   ],
   "note": "An equivalence for every datagram and every framed TCP request; upstream servers and caches may hold any well-formed data. Which lookups panic is C61."
  },
  {
   "property": "C90",
   "status": "proved",
   "theorems": [
    "C90_lookups_depend_on_what_they_receive",
    "C90_nonvacuous"
   ],
   "note": "For lookups that end, panic or run out of rounds alike. Used to restate C56, C60, C61, C70, C75 and C77 in terms of the packets received."
  },
  {
   "property": "C91",
   "status": "proved",
   "theorems": [
    "C91_not_deeper_than_zones",
    "C91_not_deeper_than_zones_heard_of",
    "C91_nonvacuous",
    "C91_heard_nonvacuous"
   ],
   "note": "For lookups that end, panic or run out of rounds. The witness is the chain of C83: 260 zones and the root, nesting 260."
  },
  {
   "property": "C92",
   "status": "proved",
   "theorems": [
    "C92_nameserver_program_answers",
    "C92_something_is_due",
    "C92_only_that_is_due",
    "C92_what_is_due_is_sent",
    "C92_nameserver_program_exits",
    "C92_resolver_program",
    "C92_nonvacuous",
    "C92_exits_nonvacuous"
   ],
   "note": "Scope: the root is not a zone (C66), TTLs are u32 (their type), records can be written as RFC 1035 says (labels of at most 63 bytes, no root names, strings of at most 255 bytes, WKS without ports: C06, C17, C37), at most 65535 records per section; TCP with a read timeout (C66) and replies below 65536 bytes (C38). Exits: files as in C43. Reading and parsing the JSON file is a parameter."
  },
  {
   "property": "C93",
   "status": "proved",
   "theorems": [
    "C93_cache_stays_in_order",
    "C93_each_lookup_is_as_if_alone",
    "C93_answers_are_alias_chains",
    "C93_packets_are_bounded",
    "C93_no_lookup_waits_for_another",
    "C93_every_lookup_ends",
    "C93_calm_lookups_do_not_panic_partial",
    "C93_nonvacuous"
   ],
   "note": "Steps are accesses to the cache (atomic: they hold its lock), packets with their replies or time outs, new requests and cleanings, in any order. Limits of the single theorems carry over: answers as far as C57 goes, packets that decode without looping (C22; for debug builds no assumption, C56), no panic under the assumptions of C61 (which is refuted without them). Two readings of the clock around an access need no relation but order (except for panics: less than a second apart)."
  },
  {
   "property": "C94",
   "status": "proved",
   "theorems": [
    "C94_cache_is_true_at_every_moment",
    "C94_lookups_find_what_is_there",
    "C94_every_lookup_ends_right",
    "C94_nonvacuous",
    "C94_refuted_for_questions_of_type_CNAME"
   ],
   "note": "Conditions: healthy_setting (the domain name system is healthy, HealthSpec.v, in every environment the setting allows; the clock is read twice within a second; fair questions with the configured limits, not of type CNAME, and not of type NS for zones of depth 0, see C78), and it can be told which servers are anchors. The exception is real: C94_refuted_for_questions_of_type_CNAME shows two lookups of which one makes the other answer NXDOMAIN to a CNAME query although the record exists."
  },
  {
   "property": "C95",
   "status": "proved",
   "theorems": [
    "C95_clients_are_sent_what_is_there",
    "C95_every_client_is_served",
    "C95_the_handler_is_its_lookup_and_the_rest",
    "C95_published_zones_qualify",
    "C95_nonvacuous"
   ],
   "note": "Conditions of C94; and for debug builds that log, at most 255 zones are spoken of (C83, C91). Reading the request and sending the reply touch nothing shared, so they are not steps of their own; the theorems speak of the bytes given to the transport. That replies are not UDP-truncated mid-record etc. is C25/C38."
  },
  {
   "property": "C96",
   "status": "partial",
   "theorems": [
    "C96_the_line_named_is_the_first_wrong_line_partial",
    "C96_where_no_line_is_named_partial",
    "C96_the_places_change_nothing",
    "C96_nonvacuous",
    "C96_refuted_line_zero",
    "C96_refuted_unreadable_line",
    "C96_refuted_unopened_include"
   ],
   "note": "REFUTED in general: a wrong first word of an included file or of a sub-zone's file is reported at line 0, a line that cannot be read is reported at the (right) entry before it, and an included file that cannot be opened is reported as the including file without a line. Proved for files whose lines can all be read and do not start with a parenthesis: the lines before the named one load, and (if the named line has no parenthesis, so that its entry ends there) every file with the same lines up to it fails at it. Line 0 means the first word. The texts of the messages are modelled by how they are made."
  },
  {
   "property": "C97",
   "status": "proved",
   "theorems": [
    "C97_every_state_has_a_history",
    "C97_the_cache_holds_what_was_heard",
    "C97_answers_say_what_was_heard",
    "C97_denials_were_heard",
    "C97_queries_rely_on_what_was_heard_partial",
    "C97_deliveries_answer_packets_sent",
    "C97_clients_are_told_what_was_heard",
    "C97_silence_tells_nothing",
    "C97_nonvacuous"
   ],
   "note": "No assumption about what the network delivers. That a datagram came from a server that may speak for the record's owner is another matter (C60 is refuted). The question in a query is known to be right for sendable names (all but the root and names with labels of more than 63 bytes, see C75), hence the suffix _partial of that theorem."
  },
  {
   "property": "C98",
   "status": "proved",
   "theorems": [
    "C98_the_handler_does_what_is_planned",
    "C98_no_client_is_misled",
    "C98_every_client_is_sent_its_reply",
    "C98_at_most_one_reply",
    "C98_nonvacuous"
   ],
   "note": "Conditions of C94 and C95; requests are those queries, or others that do not make the handler panic by itself (C89 says which do; C27 what a panic does to a pool). Not starved: lookups go on (as in C94), a free worker takes the lock or a job sooner or later if one can, and a worker whose reply is ready returns. Reading from a TCP client is one action (a client that stalls keeps its worker until the read timeout, not modelled), as is handing the reply to the operating system, which is assumed to succeed."
  }
 ]
}