{
 "claims": [
  {
   "property": "C01",
   "status": "proved",
   "theorems": [
    "C01_bitset_is_a_set"
   ],
   "note": "Refinement to a finite set over all histories of Set/Unset-of-member/Fill with indices below 2^63-1."
  },
  {
   "property": "C02",
   "status": "partial",
   "theorems": [
    "C02_unset_nonmember_refuted",
    "C02_unset_nonmember_always_sets",
    "C02_unset_member_partial",
    "C02_unset_outside_noop"
   ],
   "note": "Refuted: Unset subtracts the bit, so unsetting a non-member below Size() sets it (and borrows from higher bits). Proved for members and for indices beyond the allocated words."
  },
  {
   "property": "C03",
   "status": "partial",
   "theorems": [
    "C03_out_of_range_partial",
    "C03_get_total_refuted"
   ],
   "note": "Exact characterisation; total below 2^63, refuted at and above 2^63 (int conversion makes the bound check pass, then the index panics)."
  },
  {
   "property": "C04",
   "status": "proved",
   "theorems": [
    "C04_full_fill",
    "C04_count_size"
   ],
   "note": ""
  },
  {
   "property": "C05",
   "status": "proved",
   "theorems": [
    "C05_ranges_exact"
   ],
   "note": ""
  },
  {
   "property": "C06",
   "status": "proved",
   "theorems": [
    "C06_overlap_exact",
    "C06_overlap_panics_iff_odd"
   ],
   "note": ""
  },
  {
   "property": "C07",
   "status": "proved",
   "theorems": [
    "C07_missing_ranges_exact",
    "C07_missing_items_smallest"
   ],
   "note": ""
  },
  {
   "property": "C08",
   "status": "partial",
   "theorems": [
    "C08_missing_ranges_large_refuted",
    "C08_missing_ranges_mod_partial"
   ],
   "note": "Refuted: uint16 truncation; proved that the reported ranges are the exact missing ranges reduced mod 65536."
  },
  {
   "property": "C09",
   "status": "proved",
   "theorems": [
    "C09_union_intersect"
   ],
   "note": ""
  },
  {
   "property": "C10",
   "status": "partial",
   "theorems": [
    "C10_union_size_refuted",
    "C10_result_size_always_zero"
   ],
   "note": "Refuted: Union/Intersect never set the size field (Size() is always 0, Full() always true)."
  },
  {
   "property": "C11",
   "status": "proved",
   "theorems": [
    "C11_serialize_roundtrip",
    "C11_serialize_injective"
   ],
   "note": ""
  },
  {
   "property": "C12",
   "status": "proved",
   "theorems": [
    "C12_deserialize_outcomes"
   ],
   "note": ""
  },
  {
   "property": "C13",
   "status": "proved",
   "theorems": [
    "C13_copy_isolated",
    "C13_copy_runs"
   ],
   "note": "Heap model of backing arrays with arbitrary append growth; any interleaving."
  },
  {
   "property": "C14",
   "status": "proved",
   "theorems": [
    "C14_hash_text_roundtrip",
    "C14_hash_text_acceptance",
    "C14_hash_text_injective",
    "C14_hash_text_shape",
    "C14_from_string_panics"
   ],
   "note": ""
  },
  {
   "property": "C15",
   "status": "proved",
   "theorems": [
    "C15_is_blank_iff",
    "C15_blank_is_blank"
   ],
   "note": ""
  },
  {
   "property": "C16",
   "status": "proved",
   "theorems": [
    "C16_slices"
   ],
   "note": ""
  },
  {
   "property": "C17",
   "status": "proved",
   "theorems": [
    "C17_discovery_request_roundtrip",
    "C17_discovery_response_roundtrip",
    "C17_discovery_through_receive_buffer"
   ],
   "note": ""
  },
  {
   "property": "C18",
   "status": "proved",
   "theorems": [
    "C18_list_request_roundtrip",
    "C18_list_response_roundtrip"
   ],
   "note": ""
  },
  {
   "property": "C19",
   "status": "proved",
   "theorems": [
    "C19_open_roundtrip",
    "C19_ack_roundtrip",
    "C19_data_roundtrip",
    "C19_split_first_packet",
    "C19_data_parse_panics_iff_short",
    "C19_split_panics_iff_short"
   ],
   "note": ""
  },
  {
   "property": "C20",
   "status": "proved",
   "theorems": [
    "C20_discovery_counts_wrap",
    "C20_listing_counts_wrap_and_names_are_cut",
    "C20_wire_sizes"
   ],
   "note": ""
  },
  {
   "property": "C21",
   "status": "proved",
   "theorems": [
    "C21_only_listings_can_panic",
    "C21_listing_panics_iff_entries_do_not_fit",
    "C21_error_iff_unknown_type",
    "C21_parsed_messages_are_typed"
   ],
   "note": ""
  },
  {
   "property": "C22",
   "status": "proved",
   "theorems": [
    "C22_buffers_determine_messages",
    "C22_datagrams_determine_data_packets",
    "C22_data_packets_are_not_control_messages"
   ],
   "note": "Data packets are compared by exact datagram, since they are not self-delimiting."
  },
  {
   "property": "C23",
   "status": "proved",
   "theorems": [
    "C23_chunk_reader_is_exact",
    "C23_reads_concatenate_to_the_chunk"
   ],
   "note": "For chunk sizes below 2^32 and chunk numbers below 2^16 (the ranges of the wire format); file contents fixed while the reader is in use."
  },
  {
   "property": "C24",
   "status": "proved",
   "theorems": [
    "C24_chunks_partition_the_file",
    "C24_readers_partition_the_file"
   ],
   "note": ""
  },
  {
   "property": "C25",
   "status": "proved",
   "theorems": [
    "C25_hash_file_is_sha1_of_contents",
    "C25_hash_file_terminates"
   ],
   "note": ""
  },
  {
   "property": "C26",
   "status": "proved",
   "theorems": [
    "C26_share_records_the_file"
   ],
   "note": "For every outcome of every I/O call; a call that reports success."
  },
  {
   "property": "C27",
   "status": "proved",
   "theorems": [
    "C27_second_share_fails_and_changes_nothing",
    "C27_listings_have_no_duplicates"
   ],
   "note": ""
  },
  {
   "property": "C28",
   "status": "proved",
   "theorems": [
    "C28_catalogue_refines_a_map"
   ],
   "note": "Calls whose I/O succeeds, with arguments as in `allowed` (peer metadata within C40/C41's safe ranges); other programs may change files outside the catalogue directory at any point. Faults: C26, C34, C35; crashes: C32, C33."
  },
  {
   "property": "C29",
   "status": "proved",
   "theorems": [
    "C29_restart_preserves_the_catalogue"
   ],
   "note": ""
  },
  {
   "property": "C30",
   "status": "proved",
   "theorems": [
    "C30_index_round_trips",
    "C30_truncated_index_is_rejected"
   ],
   "note": ""
  },
  {
   "property": "C31",
   "status": "partial",
   "theorems": [
    "C31_only_utf8_paths_survive_a_restart_partial"
   ],
   "note": "Refuted: encoding/json replaces invalid bytes by U+FFFD; exact characterisation proved (the path survives iff it is valid UTF-8)."
  },
  {
   "property": "C32",
   "status": "partial",
   "theorems": [
    "C32_crash_safety_partial",
    "C32_killed_daemon_does_not_start_refuted"
   ],
   "note": "Refuted: index.json is rewritten in place, so a kill inside the write leaves a truncated file and the daemon does not start. Proved that this is the only failure: in every other case all uninvolved files are unaffected, and an interrupted SaveChunk never prevents a start."
  },
  {
   "property": "C33",
   "status": "partial",
   "theorems": [
    "C33_killed_unshare_cannot_be_repaired_refuted",
    "C33_killed_share_cannot_be_repaired_refuted",
    "C33_killed_register_cannot_be_repaired_refuted",
    "C33_unshare_kills_partial",
    "C33_share_kills_partial",
    "C33_register_kills_partial"
   ],
   "note": "Refuted for all three operations: a kill between the two disk updates leaves an index entry without progress file; proved that no sequence of calls, restarts and changes to user files makes listing work again. Proved: every disk a kill can leave is one of: call done, call not done, daemon does not start (C32), stuck for good, or undone by Unshare."
  },
  {
   "property": "C34",
   "status": "proved",
   "theorems": [
    "C34_unshare_removes_exactly_one_entry",
    "C34_unshare_unknown_changes_nothing"
   ],
   "note": ""
  },
  {
   "property": "C35",
   "status": "proved",
   "theorems": [
    "C35_save_chunk_writes_its_range"
   ],
   "note": ""
  },
  {
   "property": "C36",
   "status": "partial",
   "theorems": [
    "C36_chunks_reassemble_the_file_partial",
    "C36_empty_file_is_never_created_refuted"
   ],
   "note": "Proved for non-empty files of at most 65536 chunks; refuted for empty files (complete at once, destination never created)."
  },
  {
   "property": "C37",
   "status": "partial",
   "theorems": [
    "C37_stale_tail_refuted",
    "C37_shorter_old_file_partial"
   ],
   "note": "Refuted: the destination is not truncated, so the tail of a longer old file remains; proved when the old file is not longer than the new one."
  },
  {
   "property": "C38",
   "status": "proved",
   "theorems": [
    "C38_progress_queries_agree"
   ],
   "note": "For files of any size; beyond 65536 chunks the number of the first missing chunk is reported mod 65536 (C08), which the claim's quantifier excludes."
  },
  {
   "property": "C39",
   "status": "proved",
   "theorems": [
    "C39_served_chunks_are_held",
    "C39_missing_chunk_does_not_open_the_file"
   ],
   "note": ""
  },
  {
   "property": "C40",
   "status": "partial",
   "theorems": [
    "C40_destination_is_the_joined_path",
    "C40_ordinary_names_stay_inside_partial",
    "C40_names_with_dotdot_escape_refuted",
    "C40_library_clean",
    "C40_library_join"
   ],
   "note": "Refuted: ../name resolves outside; exact destination proved for all names, containment for ordinary names."
  },
  {
   "property": "C41",
   "status": "partial",
   "theorems": [
    "C41_sound_metadata_is_harmless_partial",
    "C41_bad_metadata_kills_the_daemon_refuted"
   ],
   "note": "Refuted: chunk size 0, or a size that makes the chunk count negative, panics (after the index has been written); proved safe for all other values, also under I/O faults."
  },
  {
   "property": "C42",
   "status": "partial",
   "theorems": [
    "C42_failed_progress_save_is_ignored_refuted",
    "C42_successful_register_wrote_the_index_partial"
   ],
   "note": "Refuted in every reachable state: the error of progressFile.save is ignored. Proved that success implies the index was written."
  },
  {
   "property": "C43",
   "status": "proved",
   "theorems": [
    "C43_clean_removes_exactly_the_unsharable"
   ],
   "note": "No other catalogue call between Clean's own calls; entries are not stored inside the catalogue directory."
  },
  {
   "property": "C44",
   "status": "partial",
   "theorems": [
    "C44_clean_removes_downloads_without_a_file_refuted",
    "C44_after_a_chunk_partial"
   ],
   "note": "Refuted: an incomplete download stays iff its destination file exists. Proved: once a chunk has been saved, clean leaves the download alone while it is incomplete."
  },
  {
   "property": "C45",
   "status": "proved",
   "theorems": [
    "C45_sender_follows_the_stream"
   ],
   "note": "All chunks, windows, acknowledgement schedules and write failures, including the kick in which the daemon dies."
  },
  {
   "property": "C46",
   "status": "proved",
   "theorems": [
    "C46_window_respected",
    "C46_zero_window"
   ],
   "note": "Packets sent never exceed window + acknowledgements arrived; bound reached. A zero window sends only the header."
  },
  {
   "property": "C47",
   "status": "partial",
   "theorems": [
    "C47_end_packet_skipped_refuted",
    "C47_end_packet_skipped_in_practice_refuted",
    "C47_end_packet_sent_partial",
    "C47_workers_settle"
   ],
   "note": "Refuted exactly for chunks that end inside a packet before the chunk size and need more packets than the window; proved for all others. Missing from the full statement: those chunks, for which it is false."
  },
  {
   "property": "C48",
   "status": "partial",
   "theorems": [
    "C48_worker_may_block_refuted",
    "C48_worker_always_blocks_refuted",
    "C48_blocked_for_ever",
    "C48_worker_exit_partial"
   ],
   "note": "Refuted: for every chunk and window some execution blocks the worker for ever, and every execution does when the window exceeds the stream; exit characterised exactly."
  },
  {
   "property": "C49",
   "status": "proved",
   "theorems": [
    "C49_receiver_assembles",
    "C49_complete",
    "C49_wire"
   ],
   "note": "Any reordering, duplication and loss of the data packets after the header."
  },
  {
   "property": "C50",
   "status": "partial",
   "theorems": [
    "C50_only_the_chunk_is_saved",
    "C50_transfer_ends",
    "C50_chunk_delivered_partial",
    "C50_chunk_not_delivered_refuted"
   ],
   "note": "Safety (with time-outs at any point) and a bound on the number of steps proved for all; delivery proved except for the chunks of C47, for which it is refuted."
  },
  {
   "property": "C51",
   "status": "partial",
   "theorems": [
    "C51_mismatch_saved_refuted",
    "C51_noticed_partial"
   ],
   "note": "Refuted: the buffer is saved whether or not the hash matches. Partial: what is saved is exactly what the packets of the chunk said, and a chunk that does not match its hash is noticed (reported), though still saved."
  },
  {
   "property": "C52",
   "status": "partial",
   "theorems": [
    "C52_own_packets_partial",
    "C52_short_datagram_crashes_refuted",
    "C52_bad_packet_crashes_refuted"
   ],
   "note": "Refuted; the crashing datagram and packet sequences are characterised exactly. Proved: packets of our own sender, in any order, lost or repeated, crash the daemon exactly when the header is not the first to arrive."
  },
  {
   "property": "C53",
   "status": "partial",
   "theorems": [
    "C53_first_request_partial",
    "C53_later_requests",
    "C53_every_upload_carries_a_chunk",
    "C53_refused",
    "C53_second_request_refuted"
   ],
   "note": "Holds for the first request from an address and port (C53_first_request_partial). A later request from the same address and port reuses the old upload: the new chunk's hash and size are sent with the old chunk's bytes (C53_later_requests, C53_second_request_refuted). What is missing: the code never removes or replaces an upload."
  },
  {
   "property": "C54",
   "status": "proved",
   "theorems": [
    "C54_request_ids",
    "C54_messages_do_not_interfere"
   ],
   "note": ""
  },
  {
   "property": "C55",
   "status": "proved",
   "theorems": [
    "C55_responses_reach_the_matching_call",
    "C55_routing"
   ],
   "note": ""
  },
  {
   "property": "C56",
   "status": "partial",
   "theorems": [
    "C56_returns_unless_jammed",
    "C56_a_jam_is_permanent",
    "C56_jam_refuted",
    "C56_single_responses_partial"
   ],
   "note": "Fails: two responses to one request can block deliverResponse while it holds the lock, after which no call of DiscoverHosts ever returns (C56_jam_refuted, C56_a_jam_is_permanent). Exact condition in C56_returns_unless_jammed; holds with at most one response per request (C56_single_responses_partial). Scheduling is possibility, not fairness."
  },
  {
   "property": "C57",
   "status": "partial",
   "theorems": [
    "C57_replies_are_truthful_partial",
    "C57_huge_refuted"
   ],
   "note": "Exact for files of any size (`reported`). Truthful when ranges are asked for, and otherwise if no chunk beyond the 65536th is held; for a complete file of more than 65536 chunks the reply is wrong (C57_huge_refuted). Exhibiting such a state needs the SHA-1 of 256 GB, so the refutation quantifies over all of them."
  },
  {
   "property": "C58",
   "status": "partial",
   "theorems": [
    "C58_what_the_peer_sees",
    "C58_few_runs_partial",
    "C58_fragmented_refuted"
   ],
   "note": "Fails when the number of runs of held chunks is a multiple of 128: the count byte becomes 0 (C58_fragmented_refuted). Exact statement of what the peer sees in C58_what_the_peer_sees; holds for fewer than 128 runs (C58_few_runs_partial)."
  },
  {
   "property": "C59",
   "status": "partial",
   "theorems": [
    "C59_listings_are_truthful_partial",
    "C59_unknown_hash_refuted"
   ],
   "note": "Truthful for the blank hash and for indexed hashes; a request for any other hash ends the daemon (log.Fatal, C59_unknown_hash_refuted)."
  },
  {
   "property": "C60",
   "status": "partial",
   "theorems": [
    "C60_listing_received",
    "C60_many_files_refuted",
    "C60_few_files_partial"
   ],
   "note": "The requester reads into 1024 bytes; the exact condition is in C60_listing_received. At most 3 files always work, 25 or more never do."
  },
  {
   "property": "C61",
   "status": "proved",
   "theorems": [
    "C61_which_datagrams_end_the_daemon",
    "C61_no_data_packets"
   ],
   "note": ""
  },
  {
   "property": "C62",
   "status": "proved",
   "theorems": [
    "C62_hosts_selected",
    "C62_selection_is_unique"
   ],
   "note": ""
  },
  {
   "property": "C63",
   "status": "partial",
   "theorems": [
    "C63_start_new",
    "C63_start_known",
    "C63_start_nobody",
    "C63_honest_download_partial",
    "C63_completes_partial",
    "C63_long_last_chunk_refuted"
   ],
   "note": "Holds (C63_honest_download_partial, C63_completes_partial) unless a chunk ends in the middle of a packet after more than 1024 packets: such a chunk is requested again and again without end even over a lossless channel (C63_long_last_chunk_refuted). The file is followed by the tail of an older, longer file at the same place (C37). Files of more than 65536 chunks: C64."
  },
  {
   "property": "C64",
   "status": "partial",
   "theorems": [
    "C64_too_many_chunks_refuted",
    "C64_registered_refuted"
   ],
   "note": "False of the code: chunk numbers are uint16, so chunk 65536 is never requested and the loop never ends, whatever the network does. Files of at most 65536 chunks: C63, C87."
  },
  {
   "property": "C65",
   "status": "partial",
   "theorems": [
    "C65_unshare_refuted",
    "C65_never_ends_refuted"
   ],
   "note": "False of the code: FileComplete and MissingChunks panic and downloadChunk panics on the error of SaveChunk. After the removal the loop never ends by itself: with at most K answers per search it dies within K+2 steps. Removing other files does no harm: C123."
  },
  {
   "property": "C66",
   "status": "proved",
   "theorems": [
    "C66_newIpv4",
    "C66_spare_capacity",
    "C66_own_address"
   ],
   "note": ""
  },
  {
   "property": "C67",
   "status": "partial",
   "theorems": [
    "C67_percentage_shown",
    "C67_numbers",
    "C67_remote_percentage_refuted"
   ],
   "note": "Holds for the daemon's own catalogue (every reachable one without empty files, for which see C68). For another host's listing it fails: the numbers are the announced ones (C67_remote_percentage_refuted)."
  },
  {
   "property": "C68",
   "status": "partial",
   "theorems": [
    "C68_listing_exact",
    "C68_share_exact",
    "C68_share_fails",
    "C68_empty_file_refuted"
   ],
   "note": "Fails for empty files: sharing one crashes the client, and so does every later listing (C68_empty_file_refuted). Exact characterisation of share and list otherwise."
  },
  {
   "property": "C69",
   "status": "partial",
   "theorems": [
    "C69_ipv4_only",
    "C69_dotted_partial",
    "C69_ipv6_refuted"
   ],
   "note": "Fails for IPv6 addresses that do not embed an IPv4 one: the daemon dies (C69_ipv6_refuted); exact condition in C69_ipv4_only."
  },
  {
   "property": "C70",
   "status": "partial",
   "theorems": [
    "C70_updates_go_to_the_recorded_directory_refuted",
    "C70_unmoved_directory_partial"
   ],
   "note": "Refuted: the data directory is taken from the JSON file, so a moved or copied catalogue updates the old place. Proved equal in all states reached without moving."
  },
  {
   "property": "C71",
   "status": "partial",
   "theorems": [
    "C71_distinct_peers_partial",
    "C71_bytes_from_the_same_peer",
    "C71_same_peer_refuted",
    "C71_one_request",
    "C71_one_acknowledgement",
    "C71_map_race_refuted"
   ],
   "note": "Holds when requests come from different addresses or ports and map accesses are atomic; the map of uploads is not locked, so any two requests can write to it at the same time (C71_map_race_refuted), and two from the same address mix chunks (C71_same_peer_refuted)."
  },
  {
   "property": "C72",
   "status": "partial",
   "theorems": [
    "C72_requests_partial",
    "C72_request_is_unique",
    "C72_extra_arguments_refuted",
    "C72_get_alone_refuted",
    "C72_codes",
    "C72_refusal_is_harmless"
   ],
   "note": "Holds for every command line except `get` without arguments, which crashes the client (C72_get_alone_refuted, exact), and arguments beyond those of list ADDRESS HASH and chims HASH, which are ignored instead of refused (C72_extra_arguments_refuted)."
  },
  {
   "property": "C73",
   "status": "partial",
   "theorems": [
    "C73_serving_a_chunk_always_returns_refuted",
    "C73_serving_a_readable_chunk_returns_partial"
   ],
   "note": "Refuted: NewChunkReader only leaves its loop on io.EOF, so any other read error makes it spin forever (holding the catalogue lock). Proved to terminate on readable regular files."
  },
  {
   "property": "C74",
   "status": "partial",
   "theorems": [
    "C74_no_downloads_directory_refuted",
    "C74_with_directory_partial"
   ],
   "note": "Refuted: nothing creates ~/.flu-network/downloads; every SaveChunk fails until it exists. Proved: the first chunk is saved exactly if the directory exists and no directory is in the file's place."
  },
  {
   "property": "C75",
   "status": "partial",
   "theorems": [
    "C75_two_downloads_refuted",
    "C75_after_the_end_partial"
   ],
   "note": "False of the code: MissingChunks returns an empty slice and StartDownload indexes it at 0. Proved: a second get after the end of the first ends at once and does nothing; C109 says that a loop dies only if another loop for the same file has finished first."
  },
  {
   "property": "C76",
   "status": "partial",
   "theorems": [
    "C76_check_exact",
    "C76_missing_exact",
    "C76_chunk_refuted"
   ],
   "note": "False of the code; the three theorems say exactly when a step ends the daemon."
  },
  {
   "property": "C77",
   "status": "proved",
   "theorems": [
    "C77_download_is_isolated"
   ],
   "note": ""
  },
  {
   "property": "C78",
   "status": "partial",
   "theorems": [
    "C78_absolute_path_partial",
    "C78_relative_path_refuted",
    "C78_other_file_refuted"
   ],
   "note": "Holds for absolute paths. Relative paths are resolved in the daemon's working directory, so they fail or share another file."
  },
  {
   "property": "C79",
   "status": "partial",
   "theorems": [
    "C79_listing_is_unambiguous_partial",
    "C79_forged_line_refuted"
   ],
   "note": "Holds unless a path contains a line break; with one, a listing can show the line of a file that is not in the catalogue (C79_forged_line_refuted)."
  },
  {
   "property": "C80",
   "status": "partial",
   "theorems": [
    "C80_daemon",
    "C80_client",
    "C80_exit",
    "C80_command_first_partial",
    "C80_command_after_flags_refuted"
   ],
   "note": "When the daemon is started and when the client is run is exact. The client looks at os.Args including the flags, so a command after flags is refused."
  },
  {
   "property": "C81",
   "status": "partial",
   "theorems": [
    "C81_hosts_shown_partial",
    "C81_odd_list_refuted"
   ],
   "note": "Holds when every announced chunk list has even length (every list sent by this program has); an odd one crashes the client."
  },
  {
   "property": "C82",
   "status": "partial",
   "theorems": [
    "C82_announcement_shown_partial",
    "C82_large_size_refuted",
    "C82_two_hosts_partial"
   ],
   "note": "Sizes of 2^63 and more are shown as negative numbers, and an announced chunk count of 0 crashes the client. Between two hosts: names of at most 255 bytes, no empty file, listing of at most 1024 bytes (C60)."
  },
  {
   "property": "C83",
   "status": "proved",
   "theorems": [
    "C83_clean_report"
   ],
   "note": "No other catalogue call between Clean's own calls; entries are not stored inside the catalogue directory (as C43)."
  },
  {
   "property": "C84",
   "status": "partial",
   "theorems": [
    "C84_loose_safe_partial",
    "C84_swarm_partial",
    "C84_completes_partial"
   ],
   "note": "Chunks that arrive do so completely (lossless, in order); for each missing chunk one of the hosts that answer has it; a ragged chunk of more than 1024 packets is excluded (C47, C50); at most 65536 chunks (C64)."
  },
  {
   "property": "C85",
   "status": "partial",
   "theorems": [
    "C85_once_per_host_partial",
    "C85_every_host_refuted"
   ],
   "note": "False: every host that answers is asked for every chunk, even after it has arrived; the requests are characterised exactly. Proved: no host is asked for a chunk twice, only missing chunks are requested, and with one host each exactly once."
  },
  {
   "property": "C86",
   "status": "partial",
   "theorems": [
    "C86_first_chunk_refuted",
    "C86_forever_refuted",
    "C86_as_far_as_offered_partial",
    "C86_offered_runs_partial"
   ],
   "note": "False: only the first missing chunk is ever requested; if nobody has it the loop asks for it for ever. Partial: everything before the first chunk that nobody has is fetched within a bounded number of steps, from hosts that have only part of the file."
  },
  {
   "property": "C87",
   "status": "partial",
   "theorems": [
    "C87_download_partial",
    "C87_answers"
   ],
   "note": "One other daemon answers; datagrams between the two arrive in order and none is lost; no ragged chunk of more than 1024 packets (C47, C50), at most 65536 chunks (C64), no empty file (C88); the download directory is not directly inside the catalogue directory."
  },
  {
   "property": "C88",
   "status": "partial",
   "theorems": [
    "C88_nonempty_partial",
    "C88_empty_refuted"
   ],
   "note": "False for empty files: the host that has one lists no chunks and is passed over, so the download is refused. Proved for files that are not empty, with plain names and at most 65536 chunks (completion: C87)."
  },
  {
   "property": "C89",
   "status": "proved",
   "theorems": [
    "C89_in_order",
    "C89_dies",
    "C89_all"
   ],
   "note": ""
  },
  {
   "property": "C90",
   "status": "proved",
   "theorems": [
    "C90_returns"
   ],
   "note": ""
  },
  {
   "property": "C91",
   "status": "partial",
   "theorems": [
    "C91_released_partial",
    "C91_leak_refuted"
   ],
   "note": "Holds exactly if at most nine datagrams arrive after the one that completes the chunk; with ten the goroutine leaks, with eleven or more the socket as well (C91_leak_refuted)."
  },
  {
   "property": "C92",
   "status": "proved",
   "theorems": [
    "C92_no_false_claims"
   ],
   "note": ""
  },
  {
   "property": "C93",
   "status": "partial",
   "theorems": [
    "C93_kept_partial",
    "C93_locked_partial",
    "C93_lost_refuted"
   ],
   "note": "Holds from a moment on at which the record is loaded and nobody is loading it, and whenever nobody calls Contains or Rehash, which do not lock; otherwise a saved chunk can be forgotten, in memory and on disk (C93_lost_refuted)."
  },
  {
   "property": "C94",
   "status": "partial",
   "theorems": [
    "C94_dies_partial",
    "C94_settled_partial",
    "C94_query_refuted"
   ],
   "note": "The process dies exactly if Contains or Rehash reads the progress file between its truncation and its writing; this happens after a restart (C94_query_refuted) and cannot happen once the record is loaded."
  },
  {
   "property": "C95",
   "status": "partial",
   "theorems": [
    "C95_answers_partial",
    "C95_after_partial",
    "C95_empty_refuted"
   ],
   "note": "Methods that lock see it not at all or completely; Contains and Rehash can also see it without chunks (C95_empty_refuted), but not when called after ShareFile has returned."
  },
  {
   "property": "C96",
   "status": "proved",
   "theorems": [
    "C96_all_or_nothing"
   ],
   "note": ""
  },
  {
   "property": "C97",
   "status": "partial",
   "theorems": [
    "C97_filed_partial",
    "C97_misfiled_refuted"
   ],
   "note": "Holds for every catalogue that the program itself has written; an index file that was tampered with can file a record under another hash and is accepted (C97_misfiled_refuted)."
  },
  {
   "property": "C98",
   "status": "partial",
   "theorems": [
    "C98_pairs",
    "C98_table",
    "C98_locked_partial",
    "C98_race_refuted"
   ],
   "note": "Refuted for the index, the records and the uploads (C98_race_refuted): Contains and Rehash take no lock and the map of uploads has none. C98_table says exactly which pairs of calls race, C98_pairs that no other race exists in any execution, C98_locked_partial is the part of the claim that holds: without those four calls there is no race."
  },
  {
   "property": "C99",
   "status": "proved",
   "theorems": [
    "C99_progress",
    "C99_all_end",
    "C99_released"
   ],
   "note": ""
  },
  {
   "property": "C100",
   "status": "proved",
   "theorems": [
    "C100_one_receiver",
    "C100_one_left"
   ],
   "note": ""
  },
  {
   "property": "C101",
   "status": "partial",
   "theorems": [
    "C101_second_start_partial",
    "C101_cut_off_refuted"
   ],
   "note": "The first daemon does stay up and receive datagrams. Commands reach it exactly until a later daemon removes the socket, which that daemon can do although it then dies because the port is taken (C101_cut_off_refuted)."
  },
  {
   "property": "C102",
   "status": "partial",
   "theorems": [
    "C102_starts_partial",
    "C102_both_die_refuted"
   ],
   "note": "Exact for one daemon started alone: it comes up if and only if the machine has an IPv4 address other than the loopback. Two daemons started at the same time can both die (C102_both_die_refuted). Other programs that use the port or the file are not modelled."
  },
  {
   "property": "C103",
   "status": "partial",
   "theorems": [
    "C103_what_is_saved",
    "C103_all_arrived_partial",
    "C103_loss_refuted",
    "C103_repeat_refuted"
   ],
   "note": "What is saved is characterised exactly. It is the chunk if every data packet arrives after the last header to arrive (C103_all_arrived_partial); lost packets, or a late repeated header although nothing is lost, make the receiver save zeros instead of data (C103_loss_refuted, C103_repeat_refuted). What is missing: the code never asks again for a packet and saves the buffer whether or not the hash matches."
  },
  {
   "property": "C104",
   "status": "proved",
   "theorems": [
    "C104_no_crash"
   ],
   "note": "Nonempty chunks; writes to the local socket succeed."
  },
  {
   "property": "C105",
   "status": "proved",
   "theorems": [
    "C105_refused",
    "C105_only_this_file"
   ],
   "note": ""
  },
  {
   "property": "C106",
   "status": "partial",
   "theorems": [
    "C106_resumes_partial",
    "C106_killed_while_saving_refuted"
   ],
   "note": "Holds if the kill leaves a progress file of full length (C106_resumes_partial); a kill inside the write of the progress file makes the download impossible to complete by any number of restarts, whatever hosts do, and exists in every download (C106_killed_while_saving_refuted). Guards as in C63; names in valid UTF-8 (C31); no other goroutine changes the catalogue meanwhile."
  },
  {
   "property": "C107",
   "status": "partial",
   "theorems": [
    "C107_never_forgotten_refuted",
    "C107_only_requests_partial",
    "C107_table_fills_refuted"
   ],
   "note": "Refuted: Server.uploads is never shrunk. Every upload ever started stays in the table in every later state; peers that finish correctly fill it, one entry per address and port. Partial: only a request for a chunk makes a new entry, and only for its sender."
  },
  {
   "property": "C108",
   "status": "partial",
   "theorems": [
    "C108_room_for_acknowledgements_partial",
    "C108_acknowledgements_are_taken_partial",
    "C108_handlers_pile_up_refuted"
   ],
   "note": "Proved for peers that acknowledge each packet at most once (the channel has room for all of them, and a waiting worker takes them). Refuted for others: after the worker has ended, further acknowledgements block their handlers until the peer starts another upload."
  },
  {
   "property": "C109",
   "status": "partial",
   "theorems": [
    "C109_not_disturbed_partial",
    "C109_all_finish_partial"
   ],
   "note": "Proved for downloads with different destination paths (C110 shows they can coincide), files of at most 65536 chunks, for each chunk a host that has it, and hosts that deliver a chunk whole or not at all; one step of a loop is one catalogue call together with the transfer of a chunk (transferLock is held meanwhile). Two loops for one hash: a loop can die (C75), and only then."
  },
  {
   "property": "C110",
   "status": "partial",
   "theorems": [
    "C110_same_name_refuted",
    "C110_overwrites_refuted",
    "C110_stay_apart_partial"
   ],
   "note": "Refuted: RegisterDownload does not look for the name; two entries with one path are accepted and the later chunks overwrite the earlier file. Exact: entries stay apart iff every added path is unused."
  },
  {
   "property": "C111",
   "status": "partial",
   "theorems": [
    "C111_one_request_partial",
    "C111_one_at_a_time_partial",
    "C111_bytes_of_the_file",
    "C111_wrong_offset_refuted"
   ],
   "note": "Proved for uploads that are requested once: what has been sent is always the beginning of the packet stream, and the model of Transfer.v, which handles an acknowledgement in one step, is exact at rest. Refuted when a request arrives twice: the two workers share the reader's position, so a packet can carry bytes from elsewhere. With any number of requests every packet still consists of bytes of the file or is a header of a chunk that was requested (C111_bytes_of_the_file)."
  },
  {
   "property": "C112",
   "status": "partial",
   "theorems": [
    "C112_window_partial",
    "C112_window_refuted"
   ],
   "note": "Proved for uploads that are requested once. Refuted when a request arrives twice: windowSize is updated without a lock, so updates are lost; window 4, two acknowledgements, 13 packets."
  },
  {
   "property": "C113",
   "status": "partial",
   "theorems": [
    "C113_no_panic_partial",
    "C113_daemon_dies_refuted",
    "C113_requester_dies_refuted"
   ],
   "note": "Proved for uploads that are requested once: no goroutine of the upload panics. Refuted when the request arrives twice: SectionReader.Read can slice its buffer with a negative length (the daemon dies), and a worker that reads after the second handler has rewound the reader sends data with offset 0, which the requester takes for a header and then dies, although no packet is lost or reordered."
  },
  {
   "property": "C114",
   "status": "partial",
   "theorems": [
    "C114_parts_partial",
    "C114_answers"
   ],
   "note": "Limits of C87 (in-order lossless datagrams, no ragged chunk of more than 1024 packets, at most 65536 chunks, the download directory is not directly inside the catalogue directory); each daemon holds fewer than 128 runs of chunks (C58) and its own copy is not longer than the file; for each chunk one of the daemons that answer has it (otherwise C86)."
  },
  {
   "property": "C115",
   "status": "proved",
   "theorems": [
    "C115_says_the_catalogue",
    "C115_cut_off"
   ],
   "note": ""
  },
  {
   "property": "C116",
   "status": "proved",
   "theorems": [
    "C116_killed_first_start",
    "C116_dead_on_arrival"
   ],
   "note": ""
  },
  {
   "property": "C117",
   "status": "proved",
   "theorems": [
    "C117_print",
    "C117_print_tells_all"
   ],
   "note": ""
  },
  {
   "property": "C118",
   "status": "partial",
   "theorems": [
    "C118_changed_file_refuted",
    "C118_right_hash_partial"
   ],
   "note": "As stated it is false, and the refutation is proved: content is never compared with the hash, so a shared file that is overwritten by equally many bytes is served and accepted under the old hash (`flu clean` of the sharer removes such an entry later, C43). Proved instead: if the file still has the hash it is listed under, every ended download has a file of that hash. Missing from the positive part: the limits of C87 (one sharer, at most 65536 chunks, no ragged chunk of more than 1024 packets) and a free name in the download directory."
  },
  {
   "property": "C119",
   "status": "partial",
   "theorems": [
    "C119_torn_refuted",
    "C119_versions_partial"
   ],
   "note": "As stated it is false, and the refutation is proved: the size comes from os.Stat and the hash from a later read, and a write in between is not noticed. Proved instead: each of the two belongs to some content that the file had. Each read of the file is one step of the model, so contents mixed within one read are not described."
  },
  {
   "property": "C120",
   "status": "partial",
   "theorems": [
    "C120_daemon_gone_refuted",
    "C120_others_unaffected_partial"
   ],
   "note": "As stated it is false, and the refutation is proved: check calls log.Fatal, so chims, list of a host and get end the daemon when the socket they need cannot be opened; the client does report an error and nothing on disk changes. Proved with it: exactly the commands that need no unreachable address behave as on a connected machine."
  },
  {
   "property": "C121",
   "status": "partial",
   "theorems": [
    "C121_loop_ends_refuted",
    "C121_connected_partial"
   ],
   "note": "As stated it is false, and the refutation is proved: with an unfinished file and no route for broadcasts the loop ends the daemon in the third step of its round, with the disk unchanged. What is true instead: while all dials succeed the loop is the one of C63, C87 and C114; after a restart the catalogue is as before (C29) and the download can be resumed (C106)."
  },
  {
   "property": "C122",
   "status": "partial",
   "theorems": [
    "C122_share_get_partial",
    "C122_printed_hash"
   ],
   "note": "As in C87: one other daemon answers, datagrams between the two arrive in order and none is lost, no ragged chunk of more than 1024 packets (C47, C50), at most 65536 chunks (C64), no empty file (C88). The target path is free and the getting daemon runs no other command while the download runs. Empty files in the list are excluded (list crashes on them, C68)."
  },
  {
   "property": "C123",
   "status": "partial",
   "theorems": [
    "C123_busy_download_partial",
    "C123_message_meanwhile",
    "C123_upload_meanwhile",
    "C123_list_meanwhile",
    "C123_share_meanwhile",
    "C123_chims_meanwhile",
    "C123_refused_meanwhile",
    "C123_other_programs_meanwhile"
   ],
   "note": "As in C122, except that the getting daemon may be used meanwhile: one other daemon has the file, no datagram of the download is lost, no ragged chunk of more than 1024 packets (C47, C50), at most 65536 chunks (C64), no empty file (C88). Each step of the download loop is taken as one event: a command that runs inside a step is not covered (C92 and C99 treat that for the catalogue's locks). `clean` and a second `get` of the same file during the download are excluded (C44, C75)."
  },
  {
   "property": "C124",
   "status": "partial",
   "theorems": [
    "C124_share_stays_listed_partial",
    "C124_commands_keep_entries"
   ],
   "note": "Proved for stops of the daemon between two calls (C32 and C33 refute it for a kill in the middle of one), names that are valid UTF-8 at a restart (C31), sound metadata from peers (C40, C41), files whose size fits an int64, and catalogues without empty files (the client panics on those, C68). The download of the same file is not among the events (it is complete); two daemons at once are treated in C100-C102."
  },
  {
   "property": "C125",
   "status": "proved",
   "theorems": [
    "C125_first_start"
   ],
   "note": ""
  },
  {
   "property": "C126",
   "status": "partial",
   "theorems": [
    "C126_killed_clean_partial",
    "C126_fatal_kills_refuted"
   ],
   "note": "False where a write of the index is cut off (the daemon does not start, C32) or the kill falls between the removal of a progress file and the write of the index (stuck, C33): both exist whenever there is something to remove (C126_fatal_kills_refuted). Proved: nothing else can go wrong; all other kills leave a reachable state with every entry that was to stay, a stuck entry is one that was to be removed, and no file of the user changes. Calls that fail before the kill: C127. Names in valid UTF-8 (C31)."
  },
  {
   "property": "C127",
   "status": "partial",
   "theorems": [
    "C127_unopened_refuted",
    "C127_any_failures_partial"
   ],
   "note": "False: every error of opening a file is taken for its absence, so for every set of entries there is a run in which they are removed although their files are intact (C127_unopened_refuted). Proved for all failures and kills: no file of the user changes and no entry appears or changes; afterwards the daemon starts in a reachable state, or does not start (C32), or is stuck (C33). Each read of a file is one step of the model."
  },
  {
   "property": "C128",
   "status": "proved",
   "theorems": [
    "C128_which_commands_end_the_daemon"
   ],
   "note": "Hypotheses: no system call on files fails (C34, C127 treat failures), the shared file is shorter than 2^63 bytes, no catalogue entry lies directly in the catalogue directory. Later steps of a download that get starts run in the background and are C121's and C63's subject."
  },
  {
   "property": "C129",
   "status": "proved",
   "theorems": [
    "C129_which_commands_crash_the_client"
   ],
   "note": "Hypotheses as in C128, and the addresses in the answers to a discovery have four bytes (the parser reads four, C21). A command during which the daemon ends is answered with an error. Without a daemon every command crashes the client (C72)."
  },
  {
   "property": "C130",
   "status": "proved",
   "theorems": [
    "C130_which_files_a_command_may_change"
   ],
   "note": "For clean the paths in the index are valid UTF-8 (the index is JSON) and the order of visiting lists the catalogue once. The chunks that a download started by get writes later are not part of serving the command (C63, C121)."
  }
 ]
}