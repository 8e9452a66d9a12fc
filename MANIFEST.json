{
 "claims": [
  {
   "property": "C01",
   "status": "proved",
   "theorems": [
    "C01_plain_export_is_a_flat_disk",
    "C01_every_stream_is_requests_then_a_stop"
   ],
   "note": "Every session on every plain export (any number of non-empty files, any short transfers and I/O errors): the reply bytes decode to one answer per request and the answers form a history of one flat disk. WRITE_ZEROES above 64 MiB and TRIM are specified as the code does them (see C15, C16)."
  },
  {
   "property": "C02",
   "status": "proved",
   "theorems": [
    "C02_offsets_map_to_one_place",
    "C02_places_are_distinct"
   ],
   "note": "Offset lookup agrees with the arithmetic spec `place`, which is injective."
  },
  {
   "property": "C03",
   "status": "partial",
   "theorems": [
    "C03_empty_member_refuted"
   ],
   "note": "False: with an empty member in the middle the lookup returns the empty file with the 'no limit' marker. Witness by computation."
  },
  {
   "property": "C04",
   "status": "proved",
   "theorems": [
    "C04_refused_without_side_effects",
    "C04_valid_requests_are_not_refused"
   ],
   "note": "Refused requests produce exactly the error reply and no other effect; in-range requests with known flags are never refused for range or permission reasons. Export size at most 2^63-1."
  },
  {
   "property": "C05",
   "status": "proved",
   "theorems": [
    "C05_threads_never_modify",
    "C05_readonly_never_modified",
    "C05_configured_or_demoted",
    "C05_modifications_answered_eperm"
   ],
   "note": "For every request stream, every export kind (plain, tree, copy-on-write, splice) and every oracle; C05_threads_never_modify: the same with worker threads on every schedule."
  },
  {
   "property": "C06",
   "status": "proved",
   "theorems": [
    "C06_threads_leave_the_base",
    "C06_base_image_untouched"
   ],
   "note": "For every request stream on a copy-on-write export without splice (the configuration parser rejects the combination, see C49), also with worker threads on every schedule. Block files of a copy-on-write tree export may be created (all zero) by reading; existing ones are unchanged."
  },
  {
   "property": "C07",
   "status": "partial",
   "theorems": [
    "C07_read_back_refuted"
   ],
   "note": "False: after a page found in the diff file the read context is not advanced, so the following page is read to the wrong place. Witness returns stale and uninitialised bytes. What does hold is C08."
  },
  {
   "property": "C08",
   "status": "proved",
   "theorems": [
    "C08_cow_pages_are_exact"
   ],
   "note": "Whole sessions over any number of base files, any short transfers (no spurious end of file), any errors; stated on the wire against the flat disk."
  },
  {
   "property": "C09",
   "status": "partial",
   "theorems": [
    "C09_sparse_cow_refuted"
   ],
   "note": "False: the map says page n but the page is appended sequentially."
  },
  {
   "property": "C10",
   "status": "partial",
   "theorems": [
    "C10_memory_safety_refuted",
    "C10_no_undefined_behaviour_partial"
   ],
   "note": "False: three witnesses (partial last page, empty read at 0, structured read over two pages). C10_no_undefined_behaviour_partial: every session whose requests avoid these cases (no empty READ/WRITE at offset 0, nothing in an incomplete last page, with structured replies no READ whose later pages were written before) is free of undefined behaviour, for any file contents, any failing or short system calls, sparse or not. Missing: exactly those three cases, where the claim is false."
  },
  {
   "property": "C11",
   "status": "partial",
   "theorems": [
    "C11_failed_write_refuted"
   ],
   "note": "False: the map entry is set before the page is written and is kept when that fails."
  },
  {
   "property": "C12",
   "status": "proved",
   "theorems": [
    "C12_path_is_the_base_1024_expansion",
    "C12_depth_is_unique",
    "C12_same_file_iff_same_block"
   ],
   "note": "All sizes below 2^63 and all offsets; base-1024 layout `block_path` with 4-digit hexadecimal names, unique depth <= 5, injective on blocks."
  },
  {
   "property": "C13",
   "status": "proved",
   "theorems": [
    "C13_tree_export_is_a_flat_disk",
    "C13_initially_zero"
   ],
   "note": "All sessions on tree exports up to 2^63-4096 bytes; the process may exit when a block file or directory cannot be created, which the theorem covers explicitly."
  },
  {
   "property": "C14",
   "status": "proved",
   "theorems": [
    "C14_trim_touches_only_its_range",
    "C14_tree_trim_drops_whole_blocks_only"
   ],
   "note": "Plain exports of any number of files; tree exports (size <= 2^63-4096) drop only whole blocks inside the range."
  },
  {
   "property": "C15",
   "status": "partial",
   "theorems": [
    "C15_single_file_exact",
    "C15_trim_partial",
    "C15_trim_refuted"
   ],
   "note": "False for ranges in the upper part of the file: the length computation subtracts the offset twice. Exact characterisation of what is discarded, and the positive part for ranges with 2*from+len<=size."
  },
  {
   "property": "C16",
   "status": "partial",
   "theorems": [
    "C16_write_zeroes_partial",
    "C16_write_zeroes_refuted"
   ],
   "note": "False above 64 MiB (only the first 64 MiB are written, repeatedly); proved up to 64 MiB."
  },
  {
   "property": "C17",
   "status": "partial",
   "theorems": [
    "C17_plain_fua_write_is_durable_partial",
    "C17_tree_fua_write_is_durable_partial",
    "C17_failed_sync_is_acknowledged_refuted"
   ],
   "note": "Proved for plain and tree exports, WRITE and WRITE_ZEROES up to 64 MiB, when no system call of the request fails; false otherwise: fsync/fdatasync results are ignored (rawexpwrite), witness by computation. Crash points: any later point before the byte is modified again. Copy-on-write exports are not meant to outlive their connection: which page is where in the diff file is only in memory."
  },
  {
   "property": "C18",
   "status": "proved",
   "theorems": [
    "C18_flush_answer",
    "C18_plain_flush_is_durable",
    "C18_tree_flush_is_durable",
    "C18_cow_flush_is_durable"
   ],
   "note": "Whole sessions on plain exports; writable tree exports (sync()); the diff file of copy-on-write exports. Failing syncs are reported. Requests handled one after the other."
  },
  {
   "property": "C19",
   "status": "partial",
   "theorems": [
    "C19_flush_after_switch_refuted"
   ],
   "note": "False: after the switch expflush still syncs the diff file only. Witness by computation."
  },
  {
   "property": "C20",
   "status": "proved",
   "theorems": [
    "C20_each_request_answered_once"
   ],
   "note": "All export kinds (waitfile: export array fixed during the connection), any number of threads, all schedules, failing storage; distinct cookies of the requests of one connection are assumed, as the protocol requires."
  },
  {
   "property": "C21",
   "status": "proved",
   "theorems": [
    "C21_messages_are_never_torn"
   ],
   "note": "At every reachable state, including killed and failed connections."
  },
  {
   "property": "C22",
   "status": "proved",
   "theorems": [
    "C22_stream_decoded_exactly"
   ],
   "note": "For every client state and any tail."
  },
  {
   "property": "C23",
   "status": "proved",
   "theorems": [
    "C23_all_requests_before_disconnect_are_answered",
    "C23_plain_connections_finish",
    "C23_plain_connections_are_defined"
   ],
   "note": "Completion whenever the server gets to the end: all export kinds. That it always gets there and is never undefined: plain exports, when no write to the socket fails and the stream does not end inside a logged payload (see C52). What each request does to the disk is C58."
  },
  {
   "property": "C24",
   "status": "proved",
   "theorems": [
    "C24_structured_read_tiles_the_range"
   ],
   "note": "The strict client parser `collect` accepts every answer."
  },
  {
   "property": "C25",
   "status": "partial",
   "theorems": [
    "C25_no_simple_reply_to_read_refuted",
    "C25_splice_read_refuted",
    "C25_refused_reads_always_simple",
    "C25_served_reads_partial"
   ],
   "note": "False: refused READs and splice READs are answered by simple replies. Proved for READs that are carried out without splice."
  },
  {
   "property": "C26",
   "status": "partial",
   "theorems": [
    "C26_error_chunk_refuted",
    "C26_message_length_always_swapped",
    "C26_error_code_partial"
   ],
   "note": "False: the message length is sent in host byte order (little endian here), so the message never decodes. The error code itself does."
  },
  {
   "property": "C27",
   "status": "partial",
   "theorems": [
    "C27_df_reads_always_refused",
    "C27_df_refuted"
   ],
   "note": "False: the flag is in the set of unknown flags, every request carrying it is answered EINVAL."
  },
  {
   "property": "C28",
   "status": "proved",
   "theorems": [
    "C28_errno_mapping_total",
    "C28_errors_are_protocol_errors"
   ],
   "note": "errno translation is total into the protocol's list; on plain exports every error answer is from the list and a failed storage call is never reported as success (flat_step)."
  },
  {
   "property": "C29",
   "status": "proved",
   "theorems": [
    "C29_readit_delivers_exactly",
    "C29_readit_tls_delivers_exactly",
    "C29_healthy_reads_complete",
    "C29_consume_skips_exactly",
    "C29_consume_len_skips_exactly"
   ],
   "note": "Exactly the requested bytes in order, for every sequence of partial reads, interruptions and errors; plain and TLS reads, and the two discarding readers."
  },
  {
   "property": "C30",
   "status": "partial",
   "theorems": [
    "C30_writeit_partial",
    "C30_writeit_tls_sends_exactly",
    "C30_eagain_duplicates_a_byte_refuted",
    "C30_eagain_first_reads_before_the_buffer"
   ],
   "note": "False for plain writes: after EAGAIN the length grows by one and the pointer moves back by one, so a byte is sent twice (or one from before the buffer). Proved without EAGAIN, and for TLS writes unconditionally."
  },
  {
   "property": "C31",
   "status": "proved",
   "theorems": [
    "C31_request_is_big_endian",
    "C31_request_decoder_agrees",
    "C31_request_round_trip",
    "C31_reply_layouts",
    "C31_option_headers_round_trip",
    "C31_ntohll_is_an_involution",
    "C31_ntohll_reverses_bytes"
   ],
   "note": "All headers; the decoder agrees with the big-endian encoding and rejects a wrong magic."
  },
  {
   "property": "C32",
   "status": "proved",
   "theorems": [
    "C32_ring_is_a_fifo",
    "C32_read_span",
    "C32_write_span",
    "C32_done_read",
    "C32_counters"
   ],
   "note": "Ring buffer refines a FIFO queue for every operation sequence that respects the spans it hands out."
  },
  {
   "property": "C33",
   "status": "proved",
   "theorems": [
    "C33_relays_in_order",
    "C33_orderly_end_loses_nothing"
   ],
   "note": "For every sequence of readiness events and call results (no retry after back-pressure, see C65)."
  },
  {
   "property": "C34",
   "status": "partial",
   "theorems": [
    "C34_mask_matches_prefix_partial",
    "C34_no_mask_is_equality",
    "C34_ipv6_entry_ipv4_client_refuted",
    "C34_ipv6_entry_counts_from_bit_96"
   ],
   "note": "Proved for same-family entries and IPv4 entries with IPv6 clients, all masks and addresses; false for IPv6 entries with IPv4 clients (mask counted from bit 96)."
  },
  {
   "property": "C35",
   "status": "partial",
   "theorems": [
    "C35_file_is_enforced_partial",
    "C35_missing_and_empty_file",
    "C35_long_comment_admits_refuted"
   ],
   "note": "Proved for text files with lines up to 254 bytes; false for longer lines: the rest of a long comment is read as an entry."
  },
  {
   "property": "C36",
   "status": "partial",
   "theorems": [
    "C36_ipv4_clients_are_safe_partial",
    "C36_ipv6_clients_partial",
    "C36_unmasked_ipv4_entry_over_reads",
    "C36_over_read_refuted",
    "C36_unix_client_aborts_refuted",
    "C36_word_as_mask_admits_everybody",
    "C36_mask_number_truncated_refuted"
   ],
   "note": "False: an IPv4 entry without mask over-reads for the mapped IPv6 client, an AF_UNIX client trips the assertion, a non-numeric mask admits the whole family. Proved safe for all files and all IPv4 clients, and for IPv6 clients under the exact guard."
  },
  {
   "property": "C37",
   "status": "partial",
   "theorems": [
    "C37_entry_is_authorized_partial",
    "C37_limit_bypass_refuted",
    "C37_negotiation_ends"
   ],
   "note": "For every byte stream, configuration and environment. The connection limit is only guaranteed for the first commitment of a connection: after a GO refused late, a second GO is not checked (refuted)."
  },
  {
   "property": "C38",
   "status": "proved",
   "theorems": [
    "C38_nothing_leaks_in_clear",
    "C38_no_entry_without_tls"
   ],
   "note": "Every message piece sent in clear is classified, for every client stream and every outcome; entry without TLS implies neither the server nor the export forces it."
  },
  {
   "property": "C39",
   "status": "proved",
   "theorems": [
    "C39_nothing_survives_starttls"
   ],
   "note": "Structured replies in effect inside TLS were acknowledged inside TLS, the export was chosen inside TLS. (The read-only demotion of an export record and the connection-limit token are not reset; they are not negotiated state.)"
  },
  {
   "property": "C40",
   "status": "partial",
   "theorems": [
    "C40_options_framed_partial",
    "C40_list_with_data_refuted",
    "C40_info_bad_length_refuted"
   ],
   "note": "Proved for all properly formed options with any payload of unknown options, in every state; false for LIST with data (not skipped, answered twice) and INFO/GO whose name length exceeds the declared length."
  },
  {
   "property": "C41",
   "status": "partial",
   "theorems": [
    "C41_info_memory_safe_partial",
    "C41_info_overflow_refuted"
   ],
   "note": "False for name length 2^32-1 (allocation of 0 bytes); proved to be the only case, apart from C36 and off_t overflow reached through GO."
  },
  {
   "property": "C42",
   "status": "partial",
   "theorems": [
    "C42_same_export_partial",
    "C42_duplicates_refuted"
   ],
   "note": "False with duplicate names (EXPORT_NAME takes the first, GO the last); proved for distinct names."
  },
  {
   "property": "C43",
   "status": "proved",
   "theorems": [
    "C43_announcement_matches"
   ],
   "note": "The hypothesis on F_AUTOREADONLY excludes flag words the configuration parser cannot produce."
  },
  {
   "property": "C44",
   "status": "partial",
   "theorems": [
    "C44_info_reports_connection_size",
    "C44_info_size_refuted"
   ],
   "note": "False: INFO reports the size field of the connection, 0 before any export was opened."
  },
  {
   "property": "C45",
   "status": "partial",
   "theorems": [
    "C45_zeroes_depend_on_client_partial",
    "C45_leak_refuted"
   ],
   "note": "False when the server does not fork; proved for one connection starting from clean global flags, which is every connection of a forking server."
  },
  {
   "property": "C46",
   "status": "partial",
   "theorems": [
    "C46_answers_as_due",
    "C46_grants_within_limit",
    "C46_duplicate_names_refuted"
   ],
   "note": "Any history of requests, reloads and child exits (fewer than 2^31-1 events): the answer, and the number of grants per name against the limit of the export found first under that name. Where two exports share a name the one served by GO may be another (refuted). Simplification: one process at a time; the message of the child is as sent by commit_client or arbitrary bytes."
  },
  {
   "property": "C47",
   "status": "partial",
   "theorems": [
    "C47_slot_not_given_back_refuted",
    "C47_full_stays_full",
    "C47_unused_slots_partial"
   ],
   "note": "False: slots are never given back (refuted, and full stays full for every later history). The true part: unlimited exports and limits not yet reached admit."
  },
  {
   "property": "C48",
   "status": "partial",
   "theorems": [
    "C48_reload_adds",
    "C48_added_names",
    "C48_exports_stay",
    "C48_oldstyle_reload_refuted"
   ],
   "note": "Every reachable state and every configuration read. A reload asking for the old protocol crashes the server (refuted)."
  },
  {
   "property": "C49",
   "status": "proved",
   "theorems": [
    "C49_accepted_as_written",
    "C49_clash_rejects_file",
    "C49_harmless_accepted"
   ],
   "note": "Every configuration file and included directory; GKeyFile taken at its documented behaviour, values as bytes. Also: nothing harmless is rejected."
  },
  {
   "property": "C50",
   "status": "partial",
   "theorems": [
    "C50_no_use_after_free",
    "C50_held_iff_alive",
    "C50_end_keeps_the_rest",
    "C50_not_freed_when_unused_refuted",
    "C50_reference_leak_refuted"
   ],
   "note": "No use after free or double free in any history; records are alive exactly while held as long as the process runs. At the end of a forked connection the record is not freed, and a refused commit leaks a reference (refuted)."
  },
  {
   "property": "C51",
   "status": "proved",
   "theorems": [
    "C51_log_records_the_history"
   ],
   "note": "For streams ending between requests or with DISC; the log is that of one connection."
  },
  {
   "property": "C52",
   "status": "partial",
   "theorems": [
    "C52_shutdown_with_log_partial",
    "C52_drop_in_logged_payload_refuted",
    "C52_failed_send_refuted"
   ],
   "note": "False: two deadlocks. Proved for plain exports when the stream does not end inside a payload being logged and no write to the socket fails."
  },
  {
   "property": "C53",
   "status": "partial",
   "theorems": [
    "C53_replay_applies_the_log",
    "C53_sequential_session_partial",
    "C53_concurrent_session_partial",
    "C53_refused_writes_are_replayed_refuted",
    "C53_trims_are_replayed_refuted",
    "C53_stale_log_refuted",
    "C53_unaligned_read_ends_replay_refuted",
    "C53_cow_session_partial",
    "C53_overlap_refuted",
    "C53_tree_session_partial"
   ],
   "note": "Proved: replay applies exactly the logged requests in log order, for every log, block size, image and short pwrite()s; for sequential sessions on plain, tree and copy-on-write exports (there for the requests C08 allows, on a copy of the base), and for concurrent sessions on plain exports with disjoint requests (with the log the server model wrote), the result is the final disk. Refuted: TRIM, refused requests, requests not in whole blocks, a log file left from an earlier session, and overlapping requests in flight together, where the log order need not be the order of execution. Simplification: the image and the log are read and written without I/O errors except short transfers."
  },
  {
   "property": "C54",
   "status": "partial",
   "theorems": [
    "C54_dump_shows_the_log_partial",
    "C54_dump_shows_the_data_log_partial",
    "C54_payload_length_refuted",
    "C54_replay_stops_at_structured_reply",
    "C54_replay_structured_session_refuted"
   ],
   "note": "nbd-trdump stays in step for every log and shows every value but payload lengths of chunks, which lose their low 16 bits (refuted). nbd-trplay stops at the first structured reply (proved in general and shown for a session)."
  },
  {
   "property": "C55",
   "status": "partial",
   "theorems": [
    "C55_file_holds_all_writes_partial",
    "C55_reads_latest_partial",
    "C55_no_ub_partial",
    "C55_switch_completes_partial",
    "C55_read_after_switch_partial",
    "C55_refused_write_refuted",
    "C55_sparse_refuted",
    "C55_over_2gib_refuted"
   ],
   "note": "All schedules of the request thread and the waiting thread, with failing and short commits, for exports up to 2 GiB, whole-page writes, up to 2^20 page writes before the switch, no sparse_cow, and no write in progress at the moment of the switch (that is C56): every read with data returns the latest, the file is complete after the switch, the switch terminates, later reads succeed, no UB. Refuted: refused part-page writes, sparse_cow, exports over 2 GiB (for every such export). One request at a time, diff file does not fail."
  },
  {
   "property": "C56",
   "status": "partial",
   "theorems": [
    "C56_lost_write_refuted",
    "C56_gap_refuted",
    "C56_no_race_no_loss_partial"
   ],
   "note": "Refuted by a schedule (write acknowledged, later read returns the old file), and a page is unreadable between its commit and the switch. Proved: every interleaving in which the switch does not fall between the check for the file and the end of a write loses nothing."
  },
  {
   "property": "C57",
   "status": "partial",
   "theorems": [
    "C57_concurrent_cow_writes_refuted"
   ],
   "note": "False: the map entry and the append to the diff file are not atomic together."
  },
  {
   "property": "C58",
   "status": "proved",
   "theorems": [
    "C58_each_byte_follows_its_request",
    "C58_disjoint_writes_in_any_order"
   ],
   "note": "Plain exports, byte by byte, any mix of commands, any schedule and any short or failing transfer; disjoint successful WRITEs equal their application in any order."
  },
  {
   "property": "C59",
   "status": "proved",
   "theorems": [
    "C59_nothing_else_in_clear",
    "C59_starttls_was_accepted"
   ],
   "note": "Every server stream, every short, empty or failing read, TLS handshake success or failure from an oracle. That the server really accepted STARTTLS needs complete reads (a short read leaves old bytes in the variable, which is modelled)."
  },
  {
   "property": "C60",
   "status": "partial",
   "theorems": [
    "C60_listing_in_bounds",
    "C60_negotiation_in_bounds_partial",
    "C60_long_error_refuted",
    "C60_short_info_refuted",
    "C60_percent_m_refuted"
   ],
   "note": "Proved for the listing (-l) without restriction, and for the negotiation for streams without a reply to be wary of: an error reply announcing 4096 bytes or more or whose text has %m or %h, an information reply of under 2 bytes, an export information of under 12. Each of those is refuted by a run. malloc() is taken to succeed."
  },
  {
   "property": "C61",
   "status": "partial",
   "theorems": [
    "C61_go_uses_the_last_announcement",
    "C61_export_name_uses_the_answer",
    "C61_fallback_uses_the_answer",
    "C61_sizes_come_from_the_server_partial",
    "C61_no_announcement_refuted",
    "C61_dropped_connection_refuted",
    "C61_foreign_reply_refuted"
   ],
   "note": "Proved for GO, for -g (EXPORT_NAME) and for the fallback to EXPORT_NAME, with and without TLS, for every size, flags and surrounding replies; and, for an arbitrary server, that size and flags are 0 or were announced. False for an ACK without announcement (size 0), for -g with a dropped connection (any size), for replies to other options, and for a wrong second magic."
  },
  {
   "property": "C62",
   "status": "partial",
   "theorems": [
    "C62_found_iff",
    "C62_lookup",
    "C62_connect_partial",
    "C62_default_port_refuted",
    "C62_port_always_default",
    "C62_command_line_port_refuted",
    "C62_persist_only_option",
    "C62_persist_refuted",
    "C62_netlink_device",
    "C62_device_refuted",
    "C62_mixed_lines_refuted",
    "C62_tls_option_refuted",
    "C62_tls_option",
    "C62_block_size_refuted",
    "C62_division_only_nbdtab",
    "C62_comment_refuted",
    "C62_host_name_refuted"
   ],
   "note": "Every well-written nbdtab file (comments, blank lines, any blanks between fields, any options): the entry is found exactly when there is one, and for one entry per device host, export, block size, timeout, connections, TLS settings are those of the entry. Refuted: the default port (a line before the entry clears it), the port on the command line, persist, the device (netlink refuses every device found in nbdtab, otherwise a relative path is opened; general theorem), a second line for the same device, -x with nbdtab, a block size of 0 (division by zero), comments at the end of a line or file."
  },
  {
   "property": "C63",
   "status": "partial",
   "theorems": [
    "C63_literal_path",
    "C63_literal_apart",
    "C63_none",
    "C63_no_place",
    "C63_two_places_refuted",
    "C63_cidr_path_partial",
    "C63_cidr_apart",
    "C63_cidr_subnet_refuted",
    "C63_cidr_networks_refuted",
    "C63_iphash_refuted"
   ],
   "note": "Proved for ipliteral (the default) and none, and for cidrhash that clients are kept apart; numeric texts of all IPv4 and IPv6 addresses modelled as inet_ntop prints them, without zones. Refuted: iphash never sets a path; cidrhash masks from the port bytes on, so for every length under 32 a subnet is spread over directories, and networks share one; a second %s in the name is undefined."
  },
  {
   "property": "C64",
   "status": "partial",
   "theorems": [
    "C64_cow_beyond_4GiB_refuted"
   ],
   "note": "False: the diff offset is computed in 32 bits. The witness starts from the state after 2^20 pages were written in order."
  },
  {
   "property": "C65",
   "status": "partial",
   "theorems": [
    "C65_one_retry_ends_the_proxy",
    "C65_slow_network_refuted"
   ],
   "note": "False: tls_wr_interrupted is never cleared, so after one GNUTLS_E_AGAIN the next send is a retry call with nothing pending and the proxy ends. gnutls_record_send(NULL,0) semantics are in the trusted base."
  },
  {
   "property": "C66",
   "status": "partial",
   "theorems": [
    "C66_list_in_bounds_partial",
    "C66_long_name_refuted"
   ],
   "note": "False for names over 1020 bytes; proved up to 1020."
  },
  {
   "property": "C67",
   "status": "partial",
   "theorems": [
    "C67_go_agreement",
    "C67_export_name_agreement",
    "C67_export_name_refused_refuted"
   ],
   "note": "Proved for GO with and without TLS (every server configuration and export, both outcomes, the bytes each side gets are the bytes the other sends) and for EXPORT_NAME in clear when the server accepts. Refuted for EXPORT_NAME when the server refuses: it closes the connection and the client carries on with stale bytes."
  },
  {
   "property": "C68",
   "status": "partial",
   "theorems": [
    "C68_size_kept",
    "C68_same_partial",
    "C68_readonly_refuted",
    "C68_readonly_lost",
    "C68_forced_size"
   ],
   "note": "The size is kept for all settings; flags are those of the new announcement, so without -B, -R, -P the same announcement gives the same device. Refuted for -R (the device becomes writable) and, in general form, for -B (the client ends). What the server announces is a parameter here; the negotiation itself is C59-C61."
  },
  {
   "property": "C69",
   "status": "partial",
   "theorems": [
    "C69_flush_after_switch_refuted",
    "C69_fua_before_switch_refuted",
    "C69_fua_after_switch_partial"
   ],
   "note": "Refuted by schedules for FLUSH after the switch and for a FUA write before it. Proved for FUA writes after the switch."
  },
  {
   "property": "C70",
   "status": "partial",
   "theorems": [
    "C70_announced",
    "C70_no_undefined_behaviour",
    "C70_idle_byte_stays",
    "C70_answer_fits",
    "C70_read_after_write_partial",
    "C70_only_request",
    "C70_diffs_apart",
    "C70_undefined_behaviour_is_seen",
    "C70_temporary_refuted"
   ],
   "note": "Plain exports (single or several files, any number of connections and threads, all schedules): no UB, idle bytes stay, before/answer/after fit together, a READ sent after an acknowledged WRITE on another connection returns it. Refuted for temporary exports: every connection has its own file although CAN_MULTI_CONN is announced. Tree exports with several connections: C84. Refuted for waitfile exports with several connections: C98."
  },
  {
   "property": "C71",
   "status": "partial",
   "theorems": [
    "C71_flush_covers_every_connection",
    "C71_write_here_flush_there_partial",
    "C71_tree_flush_covers_partial",
    "C71_tree_write_survives_partial",
    "C71_tree_crash_outcomes"
   ],
   "note": "Plain exports, all schedules: after an answered FLUSH on any connection every byte is, after a crash at any later moment, what the disk held when the FLUSH was sent or something written since; acknowledged writes of any other connection survive. Tree exports (M_TreeSync: sync() with a beginning and an end, any bytes of any moment since may come back): the same, when each page is used by one connection alone or has its block file already and is not discarded (without that C84 is false even without a crash). Refuted for waitfile exports by C69 and C98."
  },
  {
   "property": "C72",
   "status": "partial",
   "theorems": [
    "C72_as_given",
    "C72_address",
    "C72_size",
    "C72_unknown_unit_refuted",
    "C72_empty_word_refuted",
    "C72_size_overflow_refuted"
   ],
   "note": "Options, address, port and size proved for all argument lists that are accepted. Refuted: an unknown unit letter is ignored (10G is 10 bytes), an empty word is read outside its bounds, a large size with a unit overflows a signed shift."
  },
  {
   "property": "C73",
   "status": "partial",
   "theorems": [
    "C73_output_config_partial",
    "C73_limit_lost_refuted",
    "C73_null_address_refuted"
   ],
   "note": "Proved for file, size, flags, access list; limit only when it is 0. Refuted: the limit of -M is not printed; without an address the section says listenaddr = (null)."
  },
  {
   "property": "C74",
   "status": "partial",
   "theorems": [
    "C74_settings_partial",
    "C74_without_file",
    "C74_tls_default_refuted",
    "C74_port_of_command_line_refuted"
   ],
   "note": "Proved which of file and command line wins for every setting. Refuted: the documented default of tlsprio is never used; a port in the file overrides the one on the command line."
  },
  {
   "property": "C75",
   "status": "partial",
   "theorems": [
    "C75_listens_partial",
    "C75_accounted",
    "C75_somewhere",
    "C75_unknown_name_refuted",
    "C75_nowhere_refuted",
    "C75_port_taken_refuted",
    "C75_unix_path_cut_refuted"
   ],
   "note": "Proved without Unix socket when no bind says EADDRINUSE; in general every address is listened on or some bind said EADDRINUSE. Refuted: unknown names are skipped, a list that ends in a separator may start a server that listens nowhere, a taken port is ignored next to a Unix socket, a Unix path over 107 bytes is cut."
  },
  {
   "property": "C76",
   "status": "partial",
   "theorems": [
    "C76_user_and_group_partial",
    "C76_for_good",
    "C76_or_not_at_all",
    "C76_user_alone_refuted",
    "C76_group_alone_refuted"
   ],
   "note": "Proved when user and group are both set. Refuted: a user alone keeps group root, a group alone keeps user root and the supplementary groups."
  },
  {
   "property": "C77",
   "status": "partial",
   "theorems": [
    "C77_same_file_partial",
    "C77_pid_file_partial",
    "C77_descriptors",
    "C77_stdio_refuted",
    "C77_relative_file_refuted",
    "C77_foreign_file_removed_refuted"
   ],
   "note": "Proved: descriptors open before stay what they were; absolute -C and -p are kept. Refuted: standard descriptors are not detached (dup2 arguments the wrong way round), a relative -C is reread from /, with -n the file of -p is removed though it was never written."
  },
  {
   "property": "C78",
   "status": "partial",
   "theorems": [
    "C78_exports",
    "C78_command_line_alone",
    "C78_none",
    "C78_invalid_file_refuted",
    "C78_inetd_listens_refuted"
   ],
   "note": "Proved for every server that starts. Refuted: a faulty configuration file with an export on the command line appends to a NULL array; inetd mode also opens TCP sockets."
  },
  {
   "property": "C79",
   "status": "partial",
   "theorems": [
    "C79_as_given",
    "C79_sizes",
    "C79_block_size_refuted"
   ],
   "note": "Proved for all accepted command lines that name host, device and export. Refuted: a negative block size is accepted, one over 2^32 is cut to int."
  },
  {
   "property": "C80",
   "status": "partial",
   "theorems": [
    "C80_device_partial",
    "C80_preinit",
    "C80_netlink_partial",
    "C80_size_cut_refuted",
    "C80_different_exports_refuted",
    "C80_no_connection_refuted",
    "C80_again_partial",
    "C80_connections_lost_refuted"
   ],
   "note": "Proved: size announced by the first connection rounded down to whole blocks (ioctl), exact with -B or netlink when all connections announce the same. Refuted: an odd end is cut without netlink; connections announcing different exports are combined; -C with no number sets up an empty device; a reconnect makes a single connection."
  },
  {
   "property": "C81",
   "status": "partial",
   "theorems": [
    "C81_first_address",
    "C81_unix_path",
    "C81_check",
    "C81_name_cut_refuted"
   ],
   "note": "Proved for connecting and for device names without p before the partition. Refuted: other device names are cut at the first p."
  },
  {
   "property": "C82",
   "status": "partial",
   "theorems": [
    "C82_file_in_command",
    "C82_client_text_is_harmless",
    "C82_once",
    "C82_prerun_decides",
    "C82_served_partial",
    "C82_end_comes",
    "C82_diff_file",
    "C82_cut_name_refuted",
    "C82_second_go_refuted",
    "C82_abort_refuted",
    "C82_wrong_postrun_refuted",
    "C82_sigpipe_refuted",
    "C82_magic_refuted",
    "C82_sigterm_refuted",
    "C82_wait_refuted",
    "C82_no_diff_refuted",
    "C82_twice_refuted"
   ],
   "note": "Proved: at most one postrun and one removal on every connection; prerun, diff file, postrun and removal in full for served connections that end by disconnect or loss, with cowdir and SIGPIPE ignored. Refuted: without cowdir the file name is cut to its directory; a GO that fails after its prerun is never undone; SIGPIPE, a wrong magic and SIGTERM leave the diff file and skip the postrun; waitfile diffs are never removed."
  },
  {
   "property": "C83",
   "status": "partial",
   "theorems": [
    "C83_with_room_partial",
    "C83_all_taken_partial",
    "C83_silent_refuted",
    "C83_usual_limit_refuted",
    "C83_last_descriptor_refuted"
   ],
   "note": "Proved while descriptors suffice. Refuted for every limit: silent connections lead to an unchecked socketpair, or to FD_SET beyond its set."
  },
  {
   "property": "C84",
   "status": "partial",
   "theorems": [
    "C84_failing_calls_partial",
    "C84_nothing_dropped",
    "C84_fails_only_through_calls",
    "C84_ended_process_refuted",
    "C84_page_by_page_partial",
    "C84_tree_shared_partial",
    "C84_read_destroys_write_refuted",
    "C84_write_destroys_write_refuted",
    "C84_read_fails_refuted",
    "C84_never_invents"
   ],
   "note": "Proved for every schedule when each page is either used by one connection alone or has its block file already and is not discarded. Refuted otherwise: a READ or a WRITE elsewhere in a page whose file is just being made destroys an acknowledged byte; a READ can fail though no call fails. Proved without any restriction: every byte answered or stored is one that belongs at its place (initial, zero, or written there by someone). System calls that fail or are cut short and processes that end (M_TreeFail): the same holds, pieces that fail change nothing (C84_failing_calls_partial), nothing asked is dropped (C84_nothing_dropped), except when a process ends between making a block file and giving it its size: the page then cannot be read by anyone (C84_ended_process_refuted); the other pages are not harmed by that nor by races for it (C84_page_by_page_partial, hypotheses for the page in question only)."
  },
  {
   "property": "C85",
   "status": "partial",
   "theorems": [
    "C85_server_is_certified_partial",
    "C85_settings_partial",
    "C85_tls_is_used_partial",
    "C85_files_are_loaded",
    "C85_unix_socket_refuted",
    "C85_no_ca_refuted",
    "C85_empty_name_refuted",
    "C85_priority_in_clear_refuted"
   ],
   "note": "Proved over TCP with a name that is not empty; exactly which options lead to TLS; the files named are the ones loaded. Refuted: on a Unix socket without -H the CA file is loaded and not used; -x without -A accepts any server; an empty -H accepts any name; -y alone stays in clear against the manual. GnuTLS answers are arbitrary parameters."
  },
  {
   "property": "C86",
   "status": "proved",
   "theorems": [
    "C86_client_is_certified",
    "C86_certified_clients_get_in",
    "C86_no_certificate_no_entry"
   ],
   "note": "Proved in full for arbitrary GnuTLS answers; what TLS in effect means for the exports is C38."
  },
  {
   "property": "C87",
   "status": "partial",
   "theorems": [
    "C87_certificate_from_keyfile_refuted",
    "C87_no_certfile_no_tls",
    "C87_unchecked_without_ca_refuted",
    "C87_no_keyfile_partial"
   ],
   "note": "False: a missing certfile is handed to GnuTLS as NULL, a missing cacertfile does not switch the check off. Proved: refused exactly without keyfile."
  },
  {
   "property": "C88",
   "status": "proved",
   "theorems": [
    "C88_table",
    "C88_stop",
    "C88_not_stopped",
    "C88_serves_on",
    "C88_no_zombies",
    "C88_hup",
    "C88_busy_waits"
   ],
   "note": "A descriptor that is ready at every turn can keep SIGTERM from being seen (C88_busy_waits); the statement excludes that."
  },
  {
   "property": "C89",
   "status": "partial",
   "theorems": [
    "C89_netlink_partial",
    "C89_netlink_number",
    "C89_ioctl_partial",
    "C89_only_with_d",
    "C89_other_device_refuted",
    "C89_names_refuted",
    "C89_status_ask_partial",
    "C89_status_all_refuted",
    "C89_status_lines_partial",
    "C89_status_missing_refuted",
    "C89_connected"
   ],
   "note": "Proved for command lines of options and names /dev/nbdN with N < 2^31, and the number that goes to the kernel. False beyond: a device word replaces that of -d, other names are taken for devices, -1 asks for all, missing attributes are dereferenced."
  },
  {
   "property": "C90",
   "status": "partial",
   "theorems": [
    "C90_limit",
    "C90_any_log",
    "C90_command_line",
    "C90_refused",
    "C90_any_command_line",
    "C90_unknown_option_refuted",
    "C90_cut_log_refuted",
    "C90_numbers_refuted"
   ],
   "note": "Proved: the limit, termination and the bound on what changes for every log, the meaning of every command line with decimal numbers, refusal of bad values. False: an unknown option ends with status 0 without replaying; a log cut off inside a request is replayed with status 0; numbers are read leniently (2k is 2, -1 is no limit)."
  },
  {
   "property": "C91",
   "status": "partial",
   "theorems": [
    "C91_only_its_export",
    "C91_no_other_file",
    "C91_threads",
    "C91_threads_no_other_file",
    "C91_memory_refuted"
   ],
   "note": "Proved: files and memory for exports of files and trees with any flags, other files for every export; one after the other or by any number of worker threads on any schedule, up to a first undefined step. False for memory with copy-on-write: two requests make the server send uninitialised heap bytes."
  },
  {
   "property": "C92",
   "status": "partial",
   "theorems": [
    "C92_as_written_partial",
    "C92_anything_else_refused",
    "C92_numbers_accepted",
    "C92_threads",
    "C92_negative_size_refuted"
   ],
   "note": "Proved: values as written, refusal of everything else, acceptance of numbers. False for filesize: -1 is accepted as 2^64-1 and numbers beyond 2^63 are accepted as another number."
  },
  {
   "property": "C93",
   "status": "proved",
   "theorems": [
    "C93_changes_only_its_export"
   ],
   "note": "For every schedule of the reading thread and the worker threads, up to a first undefined step. The descriptors of other files are not part of the model's client, so what is excluded is the use of a wrong one of the handles the process has (files of the array, tree blocks, diff file)."
  },
  {
   "property": "C94",
   "status": "partial",
   "theorems": [
    "C94_changes_only_what_it_may",
    "C94_stranger_changes_nothing",
    "C94_serves_what_was_asked_for",
    "C94_sees_only_its_export",
    "C94_growth_is_of_setup",
    "C94_starts_as_prepared",
    "C94_copyonwrite_base_refuted"
   ],
   "note": "C94_changes_only_what_it_may, C94_serves_what_was_asked_for, C94_sees_only_its_export and C94_stranger_changes_nothing hold of the composition of negotiation, opening and the threaded request loop. Refuted for copy-on-write (C94_copyonwrite_base_refuted): opening an export with a configured size extends an empty base file even if the export is copy-on-write. The file array setupexport builds is a parameter (its content is C36); the waitfile thread is not part of this composition; diff files belong to the process."
  },
  {
   "property": "C95",
   "status": "partial",
   "theorems": [
    "C95_as_if_alone",
    "C95_no_harm_from_others",
    "C95_only_writers_change",
    "C95_copy_on_write_clients_are_apart",
    "C95_splice_refuted"
   ],
   "note": "C95_as_if_alone, C95_no_harm_from_others, C95_only_writers_change and C95_copy_on_write_clients_are_apart hold for every crowd of connections. Refuted for copy-on-write together with splice (C95_splice_refuted): writes go to the shared base and other clients read them. Every process has its own outcomes of system calls; running out of a shared resource (disk space, processes) is thereby covered as failing calls but not as interference."
  },
  {
   "property": "C96",
   "status": "partial",
   "theorems": [
    "C96_only_its_directory",
    "C96_sees_only_its_directory",
    "C96_trees_apart",
    "C96_other_trees_untouched",
    "C96_sizes_refuted",
    "C96_tree_ignored",
    "C96_parent_changed",
    "C96_copy_on_write_refuted"
   ],
   "note": "Proved if commit_client leaves the export name alone: neither copyonwrite nor waitfile, or a cowdir is given and the name does not end in a slash (C96_only_its_directory, C96_sees_only_its_directory, C96_other_trees_untouched). Refuted for a copy-on-write tree without cowdir: dirname cuts the name in place, so the tree's contents are never read (C96_tree_ignored, for every run) and block files are made in the parent directory (C96_parent_changed; a run in C96_copy_on_write_refuted). Trees of different sizes can share block files (C96_sizes_refuted). Links between names are not modelled."
  },
  {
   "property": "C97",
   "status": "partial",
   "theorems": [
    "C97_asks_total",
    "C97_report",
    "C97_overrun",
    "C97_client_rule",
    "C97_fixed_texts",
    "C97_plain_names",
    "C97_refusal_partial",
    "C97_start_follows_setup",
    "C97_every_long_name",
    "C97_long_name_refuted"
   ],
   "note": "C97_report and C97_overrun decide every report; C97_fixed_texts covers every literal text in the sources. Refuted for an export with a long path whose file cannot be opened (C97_long_name_refuted; C97_every_long_name: every path of 119 bytes or more without %m, whatever the system's text): the text of strerror is put beyond the 150 bytes of s1, with a size computed as a huge unsigned number. Refusals are proved up to 116 bytes of path and system text together."
  },
  {
   "property": "C98",
   "status": "partial",
   "theorems": [
    "C98_apart_reads_latest_partial",
    "C98_apart_file_partial",
    "C98_apart_rest_partial",
    "C98_apart_no_ub_partial",
    "C98_unseen_refuted",
    "C98_stale_read_refuted",
    "C98_undone_refuted"
   ],
   "note": "Refuted in three ways: data written and flushed on one connection cannot be read on another (C98_unseen_refuted), reads as old data with no error after the other switched (C98_stale_read_refuted), and a later acknowledged write that was even read back is undone by an older write of another process (C98_undone_refuted). Proved for any number of connections none of which uses a page another one writes, under the restrictions of C55/C56: reads right, writes acknowledged, no undefined behaviour, the shared file right for every page."
  },
  {
   "property": "C99",
   "status": "partial",
   "theorems": [
    "C99_request_line",
    "C99_reply_line",
    "C99_chunk_line",
    "C99_option_line",
    "C99_one_line_each",
    "C99_text_tells",
    "C99_same_text_same_log_partial",
    "C99_arguments"
   ],
   "note": "Proved for requests, simple replies, options and unknown records for every file; the length of a structured reply's payload is shown without its low 16 bits (C54), so logs that differ only there print the same text (C99_same_text_ex)."
  },
  {
   "property": "C100",
   "status": "partial",
   "theorems": [
    "C100_verbosity",
    "C100_command_line",
    "C100_report",
    "C100_last_line_partial",
    "C100_session",
    "C100_text_tells",
    "C100_lines_read",
    "C100_silent_end_refuted",
    "C100_four_v_refuted",
    "C100_cut_log_refuted",
    "C100_shown_is_in_log",
    "C100_reasons",
    "C100_options",
    "C100_complaints",
    "C100_wrong_file_named_refuted"
   ],
   "note": "Holds but for four cases, each with a theorem: a pwrite that stores nothing ends with status 0 and no line at all (C100_silent_end_refuted), -v four times prints a null pointer with %s (C100_four_v_refuted), a cut log gives the report of a complete shorter one (C100_cut_log_refuted), and a log that cannot be opened is called a disk image (C100_wrong_file_named_refuted). C100_options and C100_complaints are for up to two -v; with more the debug lines come in between."
  },
  {
   "property": "C101",
   "status": "proved",
   "theorems": [
    "C101_log",
    "C101_failing_write",
    "C101_random64_full",
    "C101_every_request",
    "C101_length_comment_refuted",
    "C101_served",
    "C101_least_size"
   ],
   "note": "All of the statement is proved. Refuted beside it: the bound on the length in the comment at lines 60-61 (C101_length_comment_refuted)."
  },
  {
   "property": "C102",
   "status": "partial",
   "theorems": [
    "C102_found",
    "C102_no_invented_size",
    "C102_unknown",
    "C102_served_as_large",
    "C102_unknown_is_served_refuted",
    "C102_unknown_any_size",
    "C102_multi_refuted"
   ],
   "note": "Holds but for things whose size is not found (C102_unknown): they are not refused but served as 2^64-1 bytes (C102_unknown_is_served_refuted), pass the check against any configured size (C102_unknown_any_size), and move the files after them one byte back in a multi-file export (C102_multi_refuted)."
  },
  {
   "property": "C103",
   "status": "partial",
   "theorems": [
    "C103_request",
    "C103_one_client_stops_all",
    "C103_wrong_magic_refuted",
    "C103_exclusion_partial",
    "C103_exclusion_refuted",
    "C103_alone",
    "C103_records_kept_refuted",
    "C103_blocked",
    "C103_lock_recovers_refuted",
    "C103_position"
   ],
   "note": "Turns: proved for connections with the same semaphore, and for all while none has ended (C103_exclusion_partial); false after one has ended, as that removes the name and the next connection makes a new semaphore (C103_exclusion_refuted). Content: each connection writes behind what it wrote before (C103_position), and for one on its own that is the file (C103_alone); false for two, both begin at offset 0 (C103_records_kept_refuted). The lock coming free: C103_request tells exactly which requests keep it; they stop all other connections (C103_one_client_stops_all, C103_blocked), one with a wrong magic for good (C103_wrong_magic_refuted, C103_lock_recovers_refuted)."
  },
  {
   "property": "C104",
   "status": "partial",
   "theorems": [
    "C104_read_exact",
    "C104_read_partial",
    "C104_read_full",
    "C104_read_refuted",
    "C104_write_partial",
    "C104_write_small_pieces",
    "C104_write_refuted"
   ],
   "note": "Proved for reads that begin with a page and for reads up to 1044481 bytes (C104_read_partial), and for writes whose pieces are large enough (C104_write_partial); the exact condition for reads is C104_read_exact. False otherwise: C104_read_refuted, C104_read_full, C104_write_refuted, C104_write_small_pieces. Rests on how Linux fills pipes (256 slots of a page, one slot for each piece), which is not in this repository."
  }
 ]
}