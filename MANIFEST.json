{
 "claims": [
  {
   "property": "C01",
   "status": "proved",
   "theorems": [
    "C01_primeBelow_largest_prime",
    "C01_header_claim_refuted"
   ],
   "note": "Proved for every n >= 2. The header's remark that n >= 994009 gives 994009 is refuted (994009 = 997^2)."
  },
  {
   "property": "C02",
   "status": "proved",
   "theorems": [
    "C02_slots_point_to_active"
   ],
   "note": "Every history of commands for which the model gives a result; that it always does is C06."
  },
  {
   "property": "C03",
   "status": "proved",
   "theorems": [
    "C03_balanced"
   ],
   "note": "Floor/ceil bounds and pairwise difference at most one."
  },
  {
   "property": "C04",
   "status": "proved",
   "theorems": [
    "C04_table_is_function_of_active_set"
   ],
   "note": ""
  },
  {
   "property": "C05",
   "status": "partial",
   "theorems": [
    "C05_rows_are_permutations_partial",
    "C05_large_table_refuted"
   ],
   "note": "Proved for M <= 65536. False above: with M = 65537, skip 65536 and offset 0 the 32-bit product wraps and slot 1 is missing (C05_large_table_refuted)."
  },
  {
   "property": "C06",
   "status": "partial",
   "theorems": [
    "C06_commands_total_partial",
    "C06_large_table_refuted"
   ],
   "note": "Proved for M <= 65536. False above: init with M = 65537, N = 1 and unlucky random numbers, then activate, runs off the preference list (C06_large_table_refuted)."
  },
  {
   "property": "C07",
   "status": "partial",
   "theorems": [
    "C07_layout_disjoint_partial",
    "C07_too_short",
    "C07_accepted_sizes_partial",
    "C07_large_size_refuted"
   ],
   "note": "Proved when the size is below 2^32 bytes. Beyond the computed length wraps and the areas never fit (C07_too_short, C07_large_size_refuted)."
  },
  {
   "property": "C08",
   "status": "proved",
   "theorems": [
    "C08_set_semantics"
   ],
   "note": ""
  },
  {
   "property": "C09",
   "status": "proved",
   "theorems": [
    "C09_concurrent_reader",
    "C09_crash_points",
    "C09_deactivated_gone"
   ],
   "note": "All interleavings of one reader with the writer's stores (sequentially consistent), all crash points."
  },
  {
   "property": "C10",
   "status": "proved",
   "theorems": [
    "C10_same_flow_same_key",
    "C10_different_flows_different_keys"
   ],
   "note": "IPv4 with any header length, IPv6 without extension headers (see C17)."
  },
  {
   "property": "C11",
   "status": "proved",
   "theorems": [
    "C11_hash_depends_on",
    "C11_sctp_ports_only",
    "C11_every_byte_counts"
   ],
   "note": "Dependence stated exactly; additionally every single byte of what the hash depends on matters."
  },
  {
   "property": "C12",
   "status": "partial",
   "theorems": [
    "C12_icmp_error_follows_flow_partial",
    "C12_icmp_error_follows_encap_partial",
    "C12_other_icmp6_errors_refuted",
    "C12_other_icmp6_key_refuted",
    "C12_quoted_header_refuted"
   ],
   "note": "Proved for ICMP types 3,4,5,11 and ICMPv6 types 1,2, quoted packets without IPv6 extension headers, plain and encapsulated. False for all others: an ICMPv6 message of another type (time exceeded, parameter problem) never has the key of a flow (C12_other_icmp6_key_refuted), and the options or routing headers of a quoted packet are taken for ports, or the message is rejected (C12_quoted_header_refuted)."
  },
  {
   "property": "C13",
   "status": "partial",
   "theorems": [
    "C13_table_sessions",
    "C13_table_first_steers",
    "C13_table_value_of_a_first",
    "C13_table_one_value",
    "C13_other_fragments",
    "C13_first_fragments",
    "C13_one_datagram",
    "C13_flowlb",
    "C13_lb",
    "C13_flowlb_interleaved",
    "C13_lb_interleaved"
   ],
   "note": "lb and flowlb: packets handled one after the other in any order with flows, targets and shared memory changing in between (the table of the LB tier, if any, unchanged; clock not running backwards; lifetime as in C23), and every interleaving of handlers with uninterrupted calls of the fragment table; every interleaving of threads inside the table: C13_table_value_of_a_first. Missing: interleavings inside the table in which an entry is removed between the two reads of ctLookup; false there (C92_other_value_refuted)."
  },
  {
   "property": "C14",
   "status": "proved",
   "theorems": [
    "C14_ipv4_fragments_share_key",
    "C14_ipv6_fragments_share_key",
    "C14_different_datagrams_different_keys",
    "C14_lb_tier_hash_uses_both_addresses"
   ],
   "note": "IPv6: fragment header directly after the IPv6 header."
  },
  {
   "property": "C15",
   "status": "partial",
   "theorems": [
    "C15_ipv4_reads_inside_partial",
    "C15_ipv6_reads_inside_partial",
    "C15_reads_outside_refuted"
   ],
   "note": "Proved except for truncated ICMP headers and IPv6 fragment headers, for which it is false (C15_reads_outside_refuted)."
  },
  {
   "property": "C16",
   "status": "partial",
   "theorems": [
    "C16_ipv4_terminates",
    "C16_ipv6_terminates_partial",
    "C16_endless_loop_refuted"
   ],
   "note": "IPv4 proved; IPv6 proved except first fragments, where a 48-byte packet makes the parser loop for ever (refuted)."
  },
  {
   "property": "C17",
   "status": "partial",
   "theorems": [
    "C17_no_extension_headers_partial",
    "C17_short_extension_header_rejected",
    "C17_hop_by_hop_refuted",
    "C17_destination_options_refuted",
    "C17_ports_from_header_refuted",
    "C17_addresses"
   ],
   "note": "Proved for packets without extension headers, and, for packets with any headers, that the addresses in the key (and so the hash of the LB tier) are right (C17_addresses). Otherwise false: 8-byte headers are rejected, and for every longer options or routing header the ports of the key are bytes of that header (C17_ports_from_header_refuted)."
  },
  {
   "property": "C18",
   "status": "partial",
   "theorems": [
    "C18_ipv4_not_rejected_partial",
    "C18_header_only_refuted",
    "C18_match_header_only_refuted"
   ],
   "note": "Proved for IPv4 packets with payload; refuted for packets that end with the IP header (hash key) or with the layer-4 header (matcher)."
  },
  {
   "property": "C19",
   "status": "proved",
   "theorems": [
    "C19_map_with_ttl"
   ],
   "note": "Refinement of a map with time-to-live for every history with non-decreasing clock readings below 2^64; when an insert may be refused is C21. Calls one after the other; for threads see C92."
  },
  {
   "property": "C20",
   "status": "partial",
   "theorems": [
    "C20_data_conserved",
    "C20_freed_at_most_once",
    "C20_not_freed_while_found",
    "C20_all_freed_in_the_end_partial",
    "C20_eternal_entry_leaks_refuted"
   ],
   "note": "Conservation and at-most-once are proved for every history with any clock readings. That destroy frees the rest is proved when no entry's last reference + ttl reaches 2^64-1; false otherwise (C20_eternal_entry_leaks_refuted)."
  },
  {
   "property": "C21",
   "status": "proved",
   "theorems": [
    "C21_insert_fails_only_at_capacity",
    "C21_capacity"
   ],
   "note": ""
  },
  {
   "property": "C22",
   "status": "partial",
   "theorems": [
    "C22_live_entry_kept_partial",
    "C22_older_clock_expires_refuted"
   ],
   "note": "False: an operation with a clock reading older than the entry's last reference expires the entry (C22_older_clock_expires_refuted). Proved: operations with a newer reading keep live entries."
  },
  {
   "property": "C23",
   "status": "partial",
   "theorems": [
    "C23_timeout_partial",
    "C23_timeout_refuted"
   ],
   "note": "Holds up to 4294 ms; refuted above: the product millis*1000000 is computed in 32 bits, 5000 ms gives 0.7 s."
  },
  {
   "property": "C24",
   "status": "partial",
   "theorems": [
    "C24_conserved"
   ],
   "note": "For every interleaving of any number of threads (steps as in DESIGN.md), up to the use-after-release of C25. Missing: executions in which an entry is removed between the two reads of ctLookup (C92)."
  },
  {
   "property": "C25",
   "status": "partial",
   "theorems": [
    "C25_released_partial",
    "C25_only_window_partial",
    "C25_prompt_partial",
    "C25_use_after_release_refuted"
   ],
   "note": "Refuted: use after release in the window between ctInsert and REFINC in fragDataLookup; proved: that is the only failing step, entries are allocated iff used, and executions without another step in the window never fail. A second way to use an object after release, and to lose one: C92, which is not part of these executions."
  },
  {
   "property": "C26",
   "status": "partial",
   "theorems": [
    "C26_every_item_free_or_held",
    "C26_operations_succeed",
    "C26_create_partial",
    "C26_large_pool_refuted",
    "C26_empty_pool_destroy_refuted"
   ],
   "note": "Partition, exact statistics and success of operations are proved for every history of client operations of any number of threads. Creation is proved safe while n*(24+size) < 2^32; it writes outside the block if the product wraps, and destroying a pool of no items frees an uninitialised pointer (both refuted)."
  },
  {
   "property": "C27",
   "status": "partial",
   "theorems": [
    "C27_one_hole_partial",
    "C27_split_refuted",
    "C27_early_refuted",
    "C27_extension_ignored_refuted",
    "C27_extension_early_refuted"
   ],
   "note": "Proved from packet bytes for every arrival order that never leaves bytes missing on both sides of a fragment (in order, reverse order, both ends; duplicates and overlaps). False otherwise: step 6 overwrites the left hole and takes over a stale one, and itemDeleted is not reset; a datagram is reported complete although bytes are missing. IPv6 fragments behind another extension header are never counted, or reported as the whole datagram (C27_extension_*_refuted): ra6 takes the fields of the first header for those of the fragment header."
  },
  {
   "property": "C28",
   "status": "partial",
   "theorems": [
    "C28_enough_items_partial",
    "C28_packet_reads_partial",
    "C28_exhausted_refuted",
    "C28_fresh_refuted"
   ],
   "note": "Safe when all items were written to and enough are free, and for every pool when there are no splits; packet reads stay in bounds. False in general: a fragment from the middle of a datagram that arrives first dereferences NULL or reads an uninitialised descriptor."
  },
  {
   "property": "C29",
   "status": "proved",
   "theorems": [
    "C29_union_exact",
    "C29_refused"
   ],
   "note": "For every sort function meeting C's qsort requirements, every list of fewer than 2^32 ranges."
  },
  {
   "property": "C30",
   "status": "proved",
   "theorems": [
    "C30_canonical_and_shallow",
    "C30_canonical_unique"
   ],
   "note": "Search depth is stated as the recursion of rangeSetIn being covered by log2(n)+1 levels."
  },
  {
   "property": "C31",
   "status": "partial",
   "theorems": [
    "C31_one_update_partial",
    "C31_second_update_refuted",
    "C31_use_after_free_refuted"
   ],
   "note": "Holds for one update (how flow.c uses it); with a second update false: endless search, endless destroy, use after free."
  },
  {
   "property": "C32",
   "status": "partial",
   "theorems": [
    "C32_text_fits_partial",
    "C32_overflow_refuted",
    "C32_cut_text_refuted"
   ],
   "note": "Holds if the buffer is long enough; for short buffers false: writes outside the buffer, truncated text reported as success."
  },
  {
   "property": "C33",
   "status": "proved",
   "theorems": [
    "C33_prefix",
    "C33_list"
   ],
   "note": "Every valid CIDR text and list, against the prefix arithmetic on addresses as numbers; inet_pton is a parameter with its contract (libc_ok)."
  },
  {
   "property": "C34",
   "status": "partial",
   "theorems": [
    "C34_valid_lengths",
    "C34_ipv6_refused_partial",
    "C34_ipv4_refused_partial",
    "C34_length_wraps_refuted",
    "C34_garbage_refuted",
    "C34_bare_number_refuted"
   ],
   "note": "Valid lengths are accepted and printed; larger decimal lengths are refused within the stated ranges. False in general: IPv4 lengths wrap modulo 2^32 (a.b.c.d/4294967200 matches everything), text after the length is ignored, and 10/8 is taken as an IPv6 address."
  },
  {
   "property": "C35",
   "status": "proved",
   "theorems": [
    "C35_any_packet",
    "C35_rules"
   ],
   "note": "Any history, key and packet (any_packet); the meaning of matching is proved end to end from packet bytes for valid definitions and unfragmented TCP/UDP/SCTP packets (rules). qsort is a parameter with its contract."
  },
  {
   "property": "C36",
   "status": "proved",
   "theorems": [
    "C36_map",
    "C36_valid_accepted",
    "C36_invalid_refused"
   ],
   "note": "Any history of flowDefine/flowDelete that is executed; C37/C61 say which are."
  },
  {
   "property": "C37",
   "status": "partial",
   "theorems": [
    "C37_order_partial",
    "C37_overflow_refuted"
   ],
   "note": "Ordered when differences of priorities fit an int and address texts fit the buffer of parseCidrs. False in general: INT_MAX and -1 overflow (undefined behaviour)."
  },
  {
   "property": "C38",
   "status": "partial",
   "theorems": [
    "C38_match_partial",
    "C38_encapsulated_partial",
    "C38_ipv4_first_fragment",
    "C38_ipv6_first_fragment_refuted",
    "C38_ipv6_options_refuted"
   ],
   "note": "Proved for IPv4 (incl. options and first fragments), for IPv6 without extension headers, and for SCTP in UDP, when at least one byte follows the layer-4 header, numbers have no leading zeros and fit 32 bits, and the mask is not 0; refuted for IPv6 first fragments and IPv6 packets with an 8-byte options or routing header."
  },
  {
   "property": "C39",
   "status": "partial",
   "theorems": [
    "C39_accepted_in_header_partial",
    "C39_evaluation_safe_partial",
    "C39_parse_safe",
    "C39_offset_wraps_refuted"
   ],
   "note": "Accepted expressions lie in the header and evaluation is memory safe for every packet unless offset+length wraps around 2^32; the wrap is refuted (tcp[4294967295:1] is accepted and reads out of bounds)."
  },
  {
   "property": "C40",
   "status": "partial",
   "theorems": [
    "C40_syntax",
    "C40_numbers_partial",
    "C40_printed_form_partial",
    "C40_leading_zero_refuted",
    "C40_large_number_refuted",
    "C40_mask_zero_refuted"
   ],
   "note": "Proved: accepted syntax, numbers without leading zeros below 2^32, printed form reads back as the same match. Refuted: leading zeros (octal), numbers of 2^32 and more, mask 0."
  },
  {
   "property": "C41",
   "status": "partial",
   "theorems": [
    "C41_echo_requests",
    "C41_other_protocols_partial",
    "C41_echo_reply_refuted"
   ],
   "note": "Echo requests as stated; packets of other protocols unaffected. False in general: other ICMP messages (for instance echo replies) are taken too."
  },
  {
   "property": "C42",
   "status": "partial",
   "theorems": [
    "C42_byte_matches_partial",
    "C42_encapsulated_decision_partial",
    "C42_lower_priority_refuted",
    "C42_encapsulated_like_native",
    "C42_encapsulated_key"
   ],
   "note": "Key and hash proved; the decision is that for native SCTP when only companions with the port accept the UDP packet, also with byte matches (C42_encapsulated_decision_partial, C42_byte_matches_partial). False with a lower-priority flow that accepts UDP (C42_lower_priority_refuted)."
  },
  {
   "property": "C43",
   "status": "partial",
   "theorems": [
    "C43_counted_partial",
    "C43_never_used_after_release_partial",
    "C43_retarget_refuted",
    "C43_race_refuted",
    "C43_refused_retarget_refuted",
    "C43_refused_new_refuted",
    "C43_port0_refuted",
    "C43_port0_abort_refuted",
    "C43_trace_refuted",
    "C43_companion_refuted"
   ],
   "note": "Proved for every interleaving under stated conditions (no flow gets another target, valid requests, no search for a target between its last release and its unlinking, no UDP to port 0, no traces); false without each of them (refutations)."
  },
  {
   "property": "C44",
   "status": "partial",
   "theorems": [
    "C44_refused_changes_nothing_partial",
    "C44_new_flow_refuted",
    "C44_other_target_refuted",
    "C44_companion_refuted"
   ],
   "note": "Proved for four kinds of refusals; refuted for the others (leaked object, flow with a released object, companion flow left behind)."
  },
  {
   "property": "C45",
   "status": "partial",
   "theorems": [
    "C45_client_to_server",
    "C45_client_refuses",
    "C45_request_decoded",
    "C45_other_commands",
    "C45_reader_total",
    "C45_no_terminator",
    "C45_bad_line",
    "C45_unknown_field_refuted",
    "C45_long_name_refuted",
    "C45_udpencap_cut_refuted"
   ],
   "note": "Decoding, missing terminator and lines without ':' proved; an unknown field is ignored, not refused (refuted); overlong names and udpencap above 65535 are misread."
  },
  {
   "property": "C46",
   "status": "proved",
   "theorems": [
    "C46_exactly_the_pieces",
    "C46_pieces_unique"
   ],
   "note": ""
  },
  {
   "property": "C47",
   "status": "proved",
   "theorems": [
    "C47_verdicts",
    "C47_never_more",
    "C47_ends"
   ],
   "note": "Every queued packet gets exactly one verdict, in order: drop iff the handler's result is negative, else accept with exactly that mark; never more verdicts than packets. Payload attribute absent is modelled as undefined (the code does not check); netlink framing by libmnl is in the trusted base."
  },
  {
   "property": "C48",
   "status": "proved",
   "theorems": [
    "C48_lb_decisions",
    "C48_flowlb_decisions",
    "C48_lb_during",
    "C48_flowlb_during",
    "C48_lb_exact",
    "C48_lb_served",
    "C48_flowlb_exact",
    "C48_flowlb_served"
   ],
   "note": "All executions of lb and flowlb with any interleaving of packets, flow commands and shared-memory changes; exact decisions for packets of flows while flows and table do not change; fragments other than the first get what the fragment table holds. Calls of the fragment table are one at a time in this model (its own interleavings are in Frag_Model)."
  },
  {
   "property": "C49",
   "status": "partial",
   "theorems": [
    "C49_prints",
    "C49_lb",
    "C49_flowlb",
    "C49_tier_flowlb",
    "C49_tier_lb",
    "C49_bracketed_ipv4_source_refuted",
    "C49_bracketed_ipv4_destination_refuted"
   ],
   "note": "Proved for IPv6 addresses in brackets and IPv4 addresses without, every flow, hash mode and table, in every execution of lb and flowlb, and for the LB tier. Refuted for IPv4 addresses in brackets, which the command accepts (another hash, or undefined behaviour). getaddrinfo is a parameter with a contract."
  },
  {
   "property": "C50",
   "status": "partial",
   "theorems": [
    "C50_commands_found_partial",
    "C50_nfqlb_command_lost_refuted"
   ],
   "note": "Proved for up to 20 commands with different names. False of nfqlb, which registers 21: for every registration order one command is unknown (C50_nfqlb_command_lost_refuted)."
  },
  {
   "property": "C51",
   "status": "partial",
   "theorems": [
    "C51_makeip_fields_partial",
    "C51_makeip_injective_partial",
    "C51_wide_slot_refuted"
   ],
   "note": "Proved for wrapping signed arithmetic, and by the C standard for first slots that leave other than 31 bits. A /1 (IPv4) or /97 (IPv6) first slot overflows an int (C51_wide_slot_refuted). /0 and IPv6 below /97 are refused by design. The text of the addresses is parsed in C83."
  },
  {
   "property": "C52",
   "status": "partial",
   "theorems": [
    "C52_contains_partial",
    "C52_zero_prefix_refuted",
    "C52_odd_prefix_refuted"
   ],
   "note": "Proved for prefix lengths 1..32/128 except, by the C standard, those that compute (1<<31)-1. Length 0 also contains addresses of the other family (C52_zero_prefix_refuted)."
  },
  {
   "property": "C53",
   "status": "proved",
   "theorems": [
    "C53_modified_eui64",
    "C53_injective"
   ],
   "note": ""
  },
  {
   "property": "C54",
   "status": "partial",
   "theorems": [
    "C54_union_partial",
    "C54_unknown_ignored_refuted"
   ],
   "note": "The union is proved; unknown names are accepted and ignored (C54_unknown_ignored_refuted)."
  },
  {
   "property": "C55",
   "status": "partial",
   "theorems": [
    "C55_repeat_after_kill_refuted",
    "C55_next_change_repairs_partial"
   ],
   "note": "False as stated (C55_repeat_after_kill_refuted). Proved instead: the next command that changes anything repairs the table after any number of kills."
  },
  {
   "property": "C56",
   "status": "partial",
   "theorems": [
    "C56_same_fwmarks_same_steering_refuted"
   ],
   "note": "False as stated; the theorem is the refutation. With equal indices it is true: C04."
  },
  {
   "property": "C57",
   "status": "partial",
   "theorems": [
    "C57_minimal_disruption_refuted"
   ],
   "note": "False as stated; the theorem is the refutation."
  },
  {
   "property": "C58",
   "status": "proved",
   "theorems": [
    "C58_replace_restores_table"
   ],
   "note": ""
  },
  {
   "property": "C59",
   "status": "partial",
   "theorems": [
    "C59_ipv4_first_fragment_like_whole_packet",
    "C59_ipv6_first_fragment_refuted"
   ],
   "note": "Proved for IPv4. False for IPv6: the key contains bytes of the fragment header instead of the ports, for every first fragment."
  },
  {
   "property": "C60",
   "status": "partial",
   "theorems": [
    "C60_list_read_partial",
    "C60_long_list_refuted"
   ],
   "note": "Holds for texts up to 1024 characters; longer ones are silently cut, a wrong port is added and success reported."
  },
  {
   "property": "C61",
   "status": "partial",
   "theorems": [
    "C61_lookup_safe_partial",
    "C61_define_safe_partial",
    "C61_long_cidr_refuted"
   ],
   "note": "Safe for address texts that fit the buffer and priorities that do not overflow; lookups safe unless a byte match wraps (C39). False in general: every CIDR text with ':' of 128 or more characters overflows the stack buffer."
  },
  {
   "property": "C62",
   "status": "proved",
   "theorems": [
    "C62_conserved",
    "C62_terminates"
   ],
   "note": "All histories that are executed (C28 says which are)."
  },
  {
   "property": "C63",
   "status": "proved",
   "theorems": [
    "C63_always",
    "C63_answered",
    "C63_between"
   ],
   "note": "udpencap is an unsigned short, as the parser of requests yields it; the libc functions used satisfy their contracts (libc_ok)."
  },
  {
   "property": "C64",
   "status": "partial",
   "theorems": [
    "C64_goes_on_partial",
    "C64_answered_soon",
    "C64_no_target_refuted",
    "C64_no_name_refuted",
    "C64_priority_refuted"
   ],
   "note": "Proved for valid requests that name a target, with priorities less than 2^31 apart, under the conditions of C43 (no retargeting, no companion names, no tracing ...), and a bound of 11 steps for all requests; refuted for set without target, without name, and for priorities far apart (also for companion names, see C43). Trace requests are in C66."
  },
  {
   "property": "C65",
   "status": "partial",
   "theorems": [
    "C65_listing_partial",
    "C65_one_partial",
    "C65_absent",
    "C65_names",
    "C65_safe",
    "C65_name_refuted",
    "C65_priority_refuted",
    "C65_protocols_refuted",
    "C65_match_refuted",
    "C65_ports_refuted"
   ],
   "note": "Proved for definitions whose name has no quotes, with a non-negative priority, a list of protocols that is not empty, port texts below 1023 characters and at most 31 byte matches whose offset does not wrap; each of these but the last is refuted otherwise. Memory safety, absent names and the listing of names are proved in full (names without quotes)."
  },
  {
   "property": "C66",
   "status": "partial",
   "theorems": [
    "C66_named",
    "C66_named_icmp",
    "C66_missed",
    "C66_missed_icmp",
    "C66_listing",
    "C66_names",
    "C66_safe_partial",
    "C66_freed_once",
    "C66_memory_partial",
    "C66_race_refuted",
    "C66_no_name_refuted",
    "C66_no_answer_refuted",
    "C66_leak_refuted",
    "C66_short_icmp_refuted"
   ],
   "note": "Attribution (TCP, UDP, SCTP and ICMP that quotes nothing), missed packets, listings, and freeing once are proved in full. Use only while the name exists is proved if no name is freed while a packet is traced with it and set gives a name; absence of leaks if no set is refused or replaces a flow. Refuted: use after free in the race with trace-delete, trace-set without name, no answer to an accepted trace-set, leaked names, reads beyond short ICMP messages. The text with addresses and ports is in C88."
  },
  {
   "property": "C67",
   "status": "partial",
   "theorems": [
    "C67_mark",
    "C67_served",
    "C67_active",
    "C67_killed_refuted"
   ],
   "note": "Proved for tables on which no command is at work (after any commands); refuted for a table being changed or left by a killed command (active[-1] is read). Packets without IPv6 extension headers other than a fragment header (C12, C17)."
  },
  {
   "property": "C68",
   "status": "proved",
   "theorems": [
    "C68_line",
    "C68_one_value",
    "C68_required",
    "C68_help",
    "C68_unknown",
    "C68_flag_value",
    "C68_no_value",
    "C68_accepted",
    "C68_tables",
    "C68_absent"
   ],
   "note": "For all tables and lists of words; getopt_long_only is modelled after glibc's documentation and source, with POSIXLY_CORRECT unset. What is printed is not modelled."
  },
  {
   "property": "C69",
   "status": "partial",
   "theorems": [
    "C69_range",
    "C69_backwards",
    "C69_one",
    "C69_some",
    "C69_checked_refuted"
   ],
   "note": "Proved for decimal numbers and ranges; refuted for other texts (\"two\" serves queue 0, \"1-3\" queue 1)."
  },
  {
   "property": "C70",
   "status": "partial",
   "theorems": [
    "C70_flow_set",
    "C70_sent",
    "C70_newline_refuted",
    "C70_long_name_refuted"
   ],
   "note": "Proved for lines without newlines and name, prio and udpencap of at most 1000 characters; refuted otherwise (a newline adds a field; a long name is sent but not read)."
  },
  {
   "property": "C71",
   "status": "partial",
   "theorems": [
    "C71_init_partial",
    "C71_too_large",
    "C71_large_table_refuted",
    "C71_commands",
    "C71_history_partial",
    "C71_readers_partial",
    "C71_init_in_use_refuted",
    "C71_failed_init_refuted"
   ],
   "note": "Proved for files below 2^31 bytes and, where commands run, M <= 65536 (C06). Refuted: larger files, init while a packet handler has the table mapped, and a failed init, which leaves a damaged table."
  },
  {
   "property": "C72",
   "status": "partial",
   "theorems": [
    "C72_show",
    "C72_show_determines",
    "C72_show_set_partial"
   ],
   "note": "The text and that it determines what is shown are proved in full; the composition with histories for M <= 65536 (C06) and files below 2^31 bytes."
  },
  {
   "property": "C73",
   "status": "partial",
   "theorems": [
    "C73_reassembled_partial",
    "C73_json_refuted",
    "C73_shown_partial",
    "C73_determines",
    "C73_counts_partial",
    "C73_ttl",
    "C73_ttl_refuted"
   ],
   "note": "The printed text is refuted to be JSON: a comma is missing after fragsDiscarded (with it, the text is the object with the counters, and determines them). Counters: proved for statistics that only one process uses; collected entries without removals. Of the counters of stored fragments fragsDiscarded is proved with threads in C24_conserved, fragsAllocated in C80_interleavings, and reAssembled for orderly fragments, for calls one after the other in C73_reassembled_partial and with threads in C80_threads_partial. ttlMillis is refuted above 4294."
  },
  {
   "property": "C74",
   "status": "partial",
   "theorems": [
    "C74_undisturbed_partial",
    "C74_failed_start_refuted",
    "C74_larger_refuted",
    "C74_smaller_refuted"
   ],
   "note": "Proved as long as the shared statistics hold the size of the table (so for different --ft_shm, or equal sizes once started). Refuted in general: a start that fails (wrong --mtu) kills a running load-balancer with the same statistics; a second one with another --ft_size kills it or makes it lose entries. Operations on tables are atomic steps here."
  },
  {
   "property": "C75",
   "status": "partial",
   "theorems": [
    "C75_lb_partial",
    "C75_flowlb_partial",
    "C75_lb_packets",
    "C75_lb_ends",
    "C75_lb_no_table",
    "C75_lb_no_crash_partial",
    "C75_flowlb_packets",
    "C75_lb_only",
    "C75_flowlb_only",
    "C75_flowlb_ping",
    "C75_lb_plain",
    "C75_flowlb_no_crash_partial",
    "C75_size_refuted",
    "C75_flowlb_size_refuted",
    "C75_range_refuted",
    "C75_tun_name_refuted"
   ],
   "note": "Proved for lines whose values are decimal numbers in range: the options, the queues and (for lb) the marks of the packets of a flow. Refuted: values are not checked (--ft_size=0 or no number is accepted and the first fragment kills the process; numbers out of range wrap around; a long tun name overflows). Trace server and log level are left out."
  },
  {
   "property": "C76",
   "status": "partial",
   "theorems": [
    "C76_lines_partial",
    "C76_answers",
    "C76_deleted",
    "C76_one_object",
    "C76_primebelow",
    "C76_text_refuted",
    "C76_large_mark_refuted",
    "C76_index_refuted"
   ],
   "note": "Proved for lines as a user may write them with int numbers, M <= 65536, tables below 2^31 bytes and no write errors; a process whose table is made anew by init is not followed (C71_init_in_use_refuted). A command is one step here; its single stores are in C71. Refuted: words that are no numbers are fwmark 0, fwmarks from 2^31 on are accepted and do nothing, --index without fwmark ends well."
  },
  {
   "property": "C77",
   "status": "partial",
   "theorems": [
    "C77_no_undef",
    "C77_survives_partial",
    "C77_trace_arrives",
    "C77_log_arrives",
    "C77_logged",
    "C77_trace_stderr",
    "C77_who_gets_partial",
    "C77_only_session",
    "C77_lock_partial",
    "C77_descriptors_partial",
    "C77_session_ends",
    "C77_stall_refuted",
    "C77_stalls",
    "C77_dead_client",
    "C77_dead_client_refuted",
    "C77_flow_client_refuted",
    "C77_mask_refuted",
    "C77_descriptor_refuted",
    "C77_exit_refuted"
   ],
   "note": "Proved for all interleavings: no FILE that is closed or NULL is used; a text traced or logged in a session arrives whole, only at the client served; the process stays up and texts go only where they should if clients stay until served and no descriptor is opened between fclose and close of the server; the lock is let go if clients read. Refuted without these: clients that have left kill the process, the double close takes away other descriptors, a client that does not read stops threads, and the end of a session clears the mask set by the next client."
  },
  {
   "property": "C78",
   "status": "partial",
   "theorems": [
    "C78_told",
    "C78_lines",
    "C78_trace_checks",
    "C78_flow_set",
    "C78_flow_delete",
    "C78_trace_delete",
    "C78_listed",
    "C78_answers",
    "C78_long_reply_refuted",
    "C78_pieces_refuted",
    "C78_trace_set_refuted",
    "C78_write_refuted"
   ],
   "note": "the requests sent, the status of flow-set and flow-delete and the listings are proved for all lines and states, for answers that arrive in one piece; refuted for trace-flow-set (no answer), for refused match items so long that the answer has 64 characters or more, for answers in pieces, and for listings that cannot be written"
  },
  {
   "property": "C79",
   "status": "partial",
   "theorems": [
    "C79_with_fragments",
    "C79_host_partial",
    "C79_answers",
    "C79_same_target",
    "C79_fragments",
    "C79_new_table_refuted"
   ],
   "note": "Proved for histories of any length (below 2^30) of events one after the other: lines on tables, starts of lb and flowlb, flow-set (also with --udpencap, for sctp alone) and flow-delete lines, packets of flows, SCTP packets in UDP, fragments that the LB tier sends elsewhere, ends of processes; C79_with_fragments: the same with all first and other fragments, which get the mark of their flow and of their datagram (allowing refusals for lack of memory), and with packets for several flows of highest priority with different tables, which get the mark of one of these flows; C79_fragments: other fragments follow the first one in any history on the host. Refuted: a flow set anew gets the table made anew (C79_new_table_refuted); first fragments of IPv6 go by bytes of the fragment header (C59); SCTP in UDP that a flow is for as UDP (C42). Missing: threads within one event (C43-C48), refused requests (C44), errors of the system."
  },
  {
   "property": "C80",
   "status": "partial",
   "theorems": [
    "C80_interleavings",
    "C80_all_free",
    "C80_served_partial",
    "C80_watched_partial",
    "C80_threads_partial",
    "C80_ends_partial",
    "C80_out_of_order_refuted",
    "C80_forgotten_refuted"
   ],
   "note": "Proved: with any number of threads in any interleaving the table behaves as one of those with an arbitrary reassembler (so C13, C24, C25 hold), the items are conserved, trackers belong to allocated objects, all items are free again at the end, and fragsAllocated counts the stored fragments. Proved for fragments that leave no bytes missing on both sides: for calls one after the other no call fails, every fragment gets the value of the first, and the session ends exactly with the fragment that completes the datagram; with threads in any interleaving no step fails that does not without reassembler (C25), the key is free exactly when the datagram is complete, and reAssembled counts these. Refuted in general: a gap crashes the first datagram of every reassembler, and ends later ones too early so that remaining fragments are stored for ever. IPv6 fragments behind other extension headers are misread (C27_extension_*_refuted). Interleavings inside the table are those in which the second read of ctLookup gets what was found (C92)."
  },
  {
   "property": "C81",
   "status": "partial",
   "theorems": [
    "C81_there",
    "C81_registers_partial",
    "C81_loglevel",
    "C81_loglevel_shows",
    "C81_trace_selection",
    "C81_trace_mask",
    "C81_crash_refuted",
    "C81_lost_refuted",
    "C81_failed_trace_refuted",
    "C81_words_refuted"
   ],
   "note": "Proved: on a host where the log configuration is there, in all interleavings; from a fresh host if no process starts while another one is starting; what loglevel and trace do from line to end, run without interruption. Refuted, and therefore partial: simultaneous first starts (SIGBUS, lost level), a failing trace changes nothing, wrong words are refused. Not covered: buffering of stdout."
  },
  {
   "property": "C82",
   "status": "partial",
   "theorems": [
    "C82_reaches",
    "C82_same_server",
    "C82_lines",
    "C82_nobody_dies_partial",
    "C82_reachable_partial",
    "C82_second_refuted",
    "C82_long_name_refuted"
   ],
   "note": "Proved for all executions: who is reached, and that it stays so. That nobody dies and all servers can be reached: proved if the addresses of running processes can be used (names up to 107 characters) and are different. Refuted without: a second load-balancer with the same address (the default of --trace_address) starts and then dies (C82_second_refuted); names from 108 characters on kill the process, from 125 on they overflow a buffer (C82_long_name_refuted)."
  },
  {
   "property": "C83",
   "status": "partial",
   "theorems": [
    "C83_makeip",
    "C83_makeip_refuses",
    "C83_makeip_malformed",
    "C83_distinct",
    "C83_contains",
    "C83_contains_refuses",
    "C83_contains_malformed",
    "C83_contained",
    "C83_any_word_refuted",
    "C83_linklocal",
    "C83_linklocal_refuses",
    "C83_no_cidr",
    "C83_unknown",
    "C83_no_value"
   ],
   "note": "For makeip, contains and linklocal the statement is proved for all lines, texts and both families, except: contains with a length of 0, an empty one or one that begins with a letter accepts every word (C83_any_word_refuted); a first slot that leaves 31 bits, and the lengths 1, 33, 65, 97 of contains, need wrapping int arithmetic (wrap = true; C51/C52 refutations). Numbers of slots are decimal or 0x hexadecimal texts; other texts (leading zeros are octal) are not described."
  },
  {
   "property": "C84",
   "status": "partial",
   "theorems": [
    "C84_verdicts",
    "C84_whole",
    "C84_alive",
    "C84_served",
    "C84_undisturbed",
    "C84_second_refuted",
    "C84_wraps_refuted",
    "C84_buffer",
    "C84_buffer_refuted"
   ],
   "note": "Verdicts, service, and absence of disturbance proved for all executions. The last sentence is refuted: a second load-balancer with a queue in use ends, and so does one whose range has more than 65536 numbers. Not modelled: failing allocation, the kernel's reuse of packet identifications."
  },
  {
   "property": "C85",
   "status": "partial",
   "theorems": [
    "C85_flows",
    "C85_server",
    "C85_server_bounded",
    "C85_descriptors_refuted"
   ],
   "note": "Proved for all histories of calls and all connections, with the exact blocks (C85_flows, C85_server, C85_server_bounded). Refuted: a failing fdopen after dup leaks a descriptor per request (C85_descriptors_refuted). CIDR texts with a colon are shorter than 128 characters (the others are UB, C36)."
  },
  {
   "property": "C86",
   "status": "partial",
   "theorems": [
    "C86_start",
    "C86_of_start",
    "C86_injected",
    "C86_one_user",
    "C86_kept",
    "C86_long_name_refuted",
    "C86_very_long_name_refuted"
   ],
   "note": "Proved for names of 1 to 15 characters without '%' in all histories, with the kernel modelled as described in Tun_Model.v. Refuted for longer names (C86_long_name_refuted: another device is used; C86_very_long_name_refuted: undefined behaviour from 40 characters on)."
  },
  {
   "property": "C87",
   "status": "partial",
   "theorems": [
    "C87_all_given_back_partial",
    "C87_overflow_refuted",
    "C87_no_buffers_refuted"
   ],
   "note": "Proved for all interleavings when signed overflow wraps around and there are buffers for fragments and extra buckets. Refuted: by the C standard every call overflows (C87_overflow_refuted); with 0 buffers or 0 extra buckets an uninitialised pointer is freed (C87_no_buffers_refuted). Interleavings inside the table are those in which the second read of ctLookup gets what was found (C92)."
  },
  {
   "property": "C88",
   "status": "partial",
   "theorems": [
    "C88_flow",
    "C88_any",
    "C88_line_read",
    "C88_fragment",
    "C88_stored",
    "C88_packet",
    "C88_off",
    "C88_sctp",
    "C88_sctp_only",
    "C88_injected",
    "C88_protocol_partial",
    "C88_protocol_refuted",
    "C88_silent_refuted"
   ],
   "note": "Proved for every packet of a TCP, UDP or SCTP flow for which a trace flow is found (C88_flow) and for any packet without an LB tier (C88_any): mark and target are told; the lines can be read in one way (C88_line_read); fragments (C88_fragment, C88_stored), packets (C88_packet), no trace (C88_off). Refuted: a UDP packet dropped because it is too short for SCTP (C88_silent_refuted); protocols without a name with several threads (C88_protocol_refuted), proved when no other thread asks meanwhile (C88_protocol_partial). Not covered: that tracef writes the text (C77), interleavings of a packet with requests (the state is that of one moment). Interleavings inside the table are those in which the second read of ctLookup gets what was found (C92)."
  },
  {
   "property": "C89",
   "status": "partial",
   "theorems": [
    "C89_hops",
    "C89_settles",
    "C89_home",
    "C89_meet",
    "C89_packets",
    "C89_steered",
    "C89_together",
    "C89_order_refuted"
   ],
   "note": "Proved for any mix of lb and flowlb processes with the same --udpencap (0 for flowlb), with marks of targets that are not marks of load-balancers. C89_steered holds for all executions, with any changes of the tables of the tier; C89_hops, C89_home, C89_meet, C89_packets and C89_together for packets that come after the tables have become the same, and C89_settles for those on their way then. Packets lost between load-balancers are those that are never taken, doubled ones are others that enter. Refuted if only the sets of activated marks are the same: with marks activated in another order a fragment goes round for ever (C89_order_refuted). Interleavings inside the table are those in which the second read of ctLookup gets what was found (C92)."
  },
  {
   "property": "C90",
   "status": "proved",
   "theorems": [
    "C90_flowlb",
    "C90_lb",
    "C90_tier",
    "C90_hop",
    "C90_goes_on",
    "C90_leaves"
   ],
   "note": "C90_flowlb and C90_lb for one load-balancer in any environment; C90_tier, C90_hop, C90_goes_on and C90_leaves for the LB tier. Failures of a load-balancer (use of a released object, undefined behaviour) are excluded as such: see C43 and C44 for when they happen. While the tables of the tier differ a packet may go round for ever (C89_order_refuted), each round within C90_hop."
  },
  {
   "property": "C91",
   "status": "proved",
   "theorems": [
    "C91_own",
    "C91_exclusive",
    "C91_no_deadlock",
    "C91_ends",
    "C91_flow_client",
    "C91_trace_client_refuted"
   ],
   "note": "Proved for all interleavings: locks are taken in one order, every path gives them back, exclusive means exclusive, no deadlock and all calls end if the clients read, and a flow client that does nothing holds up no packet (no queue thread: it is the only one that writes the flows). The same is not so for trace clients, C91_trace_client_refuted: one that does not read stops a packet thread that traces nothing any more, since the flow thread traces under lblistLock."
  },
  {
   "property": "C92",
   "status": "partial",
   "theorems": [
    "C92_calm_partial",
    "C92_value_of_a_first_partial",
    "C92_only_if_removed_partial",
    "C92_kept_partial",
    "C92_one_queue_partial",
    "C92_calls_partial",
    "C92_never_invented_partial",
    "C92_other_value_refuted",
    "C92_use_after_release_refuted",
    "C92_lost_refuted"
   ],
   "note": "Refuted: ctLookup reads the data of the bucket again after it has given back the mutex, so that another datagram's object or nothing is returned (C92_other_value_refuted, C92_use_after_release_refuted, C92_lost_refuted). Proved: this happens only if the entry leaves the table in between (C92_only_if_removed_partial); all other executions are executions of the table with the look-up as one step, with the same events (C92_kept_partial, C92_calm_partial), so that C13, C24, C25 hold of them; with one queue all executions are such, and no step fails (C92_one_queue_partial), as with any number of threads if calls do not overlap (C92_calls_partial); in all executions a value returned is that of some first fragment, and success told for a first fragment is true (C92_never_invented_partial)."
  }
 ]
}