{
 "claims": [
  {
   "property": "C01",
   "status": "proved",
   "theorems": [
    "C01_decimal_roundtrip",
    "C01_decimal_any_segmentation",
    "C01_decimal32_same_bytes",
    "C01_decimal_shortest"
   ],
   "note": ""
  },
  {
   "property": "C02",
   "status": "proved",
   "theorems": [
    "C02_fixed_width_any_segmentation",
    "C02_big_endian",
    "C02_boolean"
   ],
   "note": "Booleans included: any non-zero byte reads as true."
  },
  {
   "property": "C03",
   "status": "partial",
   "theorems": [
    "C03_blob_roundtrip",
    "C03_blob_panics",
    "C03_blob_roundtrip_exact",
    "C03_string_roundtrip",
    "C03_int_bytes_roundtrip",
    "C03_blob_roundtrip_refuted"
   ],
   "note": "False as listed: arrays of 32768..65535 bytes make ReadBlob panic (two-byte length read as signed). Exact domain of the round trip proved (iff)."
  },
  {
   "property": "C04",
   "status": "proved",
   "theorems": [
    "C04_blob_collector"
   ],
   "note": ""
  },
  {
   "property": "C05",
   "status": "proved",
   "theorems": [
    "C05_string_rule",
    "C05_string_bytes"
   ],
   "note": ""
  },
  {
   "property": "C06",
   "status": "partial",
   "theorems": [
    "C06_value_roundtrip",
    "C06_value_collector",
    "C06_value_roundtrip_refuted"
   ],
   "note": "Proved for all trees the reader can restore (no IPv4 value, no text/key/blob of 32768..65535 bytes, no text over 100000 bytes) and any map order; the unrestricted statement is refuted; collector decodes every tree."
  },
  {
   "property": "C07",
   "status": "partial",
   "theorems": [
    "C07_ip4_never_roundtrips",
    "C07_ip4_refuted",
    "C07_ip4_collector"
   ],
   "note": "False for every address: ReadValue never returns an Ip4Value (refuted); the bytes are decodable by a collector."
  },
  {
   "property": "C08",
   "status": "partial",
   "theorems": [
    "C08_terminates",
    "C08_panic_only_negative_length",
    "C08_truncated_number_reported",
    "C08_unknown_type_reported",
    "C08_no_panic_refuted",
    "C08_truncation_unreported",
    "C08_list_bomb"
   ],
   "note": "Termination proved; panics characterised (only negative lengths) but exist (refuted); errors reported for truncated numbers, not for truncated texts (refuted)."
  },
  {
   "property": "C09",
   "status": "proved",
   "theorems": [
    "C09_size_is_bytes",
    "C09_append_only"
   ],
   "note": ""
  },
  {
   "property": "C10",
   "status": "proved",
   "theorems": [
    "C102_one_call",
    "C102_id_stays",
    "C102_packs",
    "C102_same_transaction",
    "C102_sent_stays",
    "C100_samples",
    "C100_xlogs",
    "C100_answers",
    "C100_profiles",
    "C10_packs_reread",
    "C101_stack",
    "C101_negative_count",
    "C101_readable",
    "C101_reaches_collector",
    "C100_stuck_profiles"
   ],
   "note": "domain: texts the agent's reader can restore (see C03)"
  },
  {
   "property": "C11",
   "status": "partial",
   "theorems": [
    "C11_pack_decodable",
    "C11_profile_elapsed_lost",
    "C11_all_fields_refuted"
   ],
   "note": "All fields that the format carries are recovered; XlogProfilePack2-style Elapsed of XlogProfilePack is not written (refuted for that field)."
  },
  {
   "property": "C12",
   "status": "partial",
   "theorems": [
    "C12_read_pack_inverts_partial",
    "C12_read_pack_at_the_end",
    "C12_read_pack_panics",
    "C12_read_pack_text_alert_empty",
    "C12_read_pack_inverts_refuted",
    "C12_object_pack_refuted"
   ],
   "note": "Holds exactly for map, perf-counter and object2 packs; text/alert packs come back empty, xlog/profile/k8s panic, object pack is misread."
  },
  {
   "property": "C13",
   "status": "partial",
   "theorems": [
    "C13_steps_decodable_partial",
    "C13_steps_concat",
    "C13_dump_refuted",
    "C13_dump_body"
   ],
   "note": "All step types except DumpStep, which carries the METHOD type code (refuted); concatenation proved for all."
  },
  {
   "property": "C14",
   "status": "partial",
   "theorems": [
    "C14_params_recoverable",
    "C14_params_refuted"
   ],
   "note": "Recoverable when no parameter contains byte 3; otherwise ambiguous (refuted)."
  },
  {
   "property": "C15",
   "status": "partial",
   "theorems": [
    "C15_mapvalue_put_get",
    "C15_mappack_put_get",
    "C15_perfpack_put_get",
    "C15_put_ignores",
    "C15_put_frame",
    "C15_put_one_entry",
    "C15_k8spack_put_get",
    "C15_list_append",
    "C15_map_getters",
    "C15_list_getters",
    "C15_set_status_ignored",
    "C15_set_status_refuted"
   ],
   "note": "All accessors proved, on any table or list (C15_map_getters, C15_list_getters); SetStatus is proved to be a no-op, so that part is refuted."
  },
  {
   "property": "C16",
   "status": "proved",
   "theorems": [
    "C16_hash_is_crc32",
    "C16_index_in_table"
   ],
   "note": ""
  },
  {
   "property": "C17",
   "status": "partial",
   "theorems": [
    "C17_distinct_refuted",
    "C17_nonzero_refuted",
    "C17_burst_distinct_partial",
    "C17_short_nonzero_partial"
   ],
   "note": "False as listed (collision and zero-hash witnesses); proved: no collision between texts differing within 4 consecutive bytes, no zero hash for 1..3 byte texts."
  },
  {
   "property": "C18",
   "status": "proved",
   "theorems": [
    "C18_string32_decodes",
    "C18_string32_injective"
   ],
   "note": "decoder follows Java Hexa32 (64-bit negation), so the smallest int64 is included"
  },
  {
   "property": "C19",
   "status": "proved",
   "theorems": [
    "C19_dotted_quad",
    "C19_anything_else",
    "C19_four_bytes"
   ],
   "note": ""
  },
  {
   "property": "C20",
   "status": "partial",
   "theorems": [
    "C20_duration",
    "C20_millis_exact",
    "C20_millis_refuted"
   ],
   "note": "GetDuration proved for all non-negative inputs; MillisBetween exact below 2^31 ms, refuted beyond (int32 wrap)."
  },
  {
   "property": "C21",
   "status": "partial",
   "theorems": [
    "C21_single_piece_exact",
    "C21_two_piece_complete_partial",
    "C21_prefix_suffix_exact",
    "C21_empty_target",
    "C21_glob_refuted",
    "C21_order_refuted"
   ],
   "note": "Exact for single-piece patterns and s*e (given room for both pieces); other two-piece patterns never miss a glob match; over-matching and three-piece patterns refuted."
  },
  {
   "property": "C22",
   "status": "partial",
   "theorems": [
    "C22_list_never_matches",
    "C22_list_refuted",
    "C22_split_pieces"
   ],
   "note": "Refuted: CommaSeparatedChainedStrMatcher never matches anything (StrMatch built without NewStrMatch)."
  },
  {
   "property": "C23",
   "status": "proved",
   "theorems": [
    "C23_capacity",
    "C23_one_entry_per_key",
    "C23_zero_unbounded"
   ],
   "note": ""
  },
  {
   "property": "C24",
   "status": "proved",
   "theorems": [
    "C24_lookups",
    "C24_add_key",
    "C24_size_empty_values"
   ],
   "note": "GetValues is one atomic step in the model; it releases the lock between items in the code"
  },
  {
   "property": "C25",
   "status": "proved",
   "theorems": [
    "C25_evicts_the_oldest",
    "C25_readd_keeps_age",
    "C25_reported_once"
   ],
   "note": "callbacks listed whether or not OnEvicted is set; it is called iff set"
  },
  {
   "property": "C26",
   "status": "proved",
   "theorems": [
    "C26_cachemap",
    "C26_cacheset",
    "C26_spec_bounded",
    "C26_nonpositive_capacity_panics"
   ],
   "note": "gods containers modelled as insertion-ordered lists"
  },
  {
   "property": "C27",
   "status": "partial",
   "theorems": [
    "C27_fifo_refuted",
    "C27_early_eviction_refuted",
    "C27_fifo_partial",
    "C27_bounded_returns",
    "C27_nonpositive_capacity_hangs"
   ],
   "note": "FIFO refinement proved for histories without Remove; refuted with Remove (order entry left behind); capacity bound and return proved for all histories with positive capacity; capacity <= 0 never returns."
  },
  {
   "property": "C28",
   "status": "partial",
   "theorems": [
    "C28_no_deadlock_refuted",
    "C28_no_deadlock_partial",
    "C28_mutual_exclusion"
   ],
   "note": "Refuted for lra.Empty (nested read lock with a pending writer); progress and termination proved for every other operation mix; mutual exclusion proved."
  },
  {
   "property": "C29",
   "status": "partial",
   "theorems": [
    "C29_fragments_reassemble_partial",
    "C29_many_fragments_refuted",
    "C29_zero_limit_panics"
   ],
   "note": "Reassembly in any order, with duplicates and foreign datagrams, proved for up to 32767 fragments; refuted beyond (int16 total wraps); a zero limit panics."
  },
  {
   "property": "C30",
   "status": "partial",
   "theorems": [
    "C30_exactly_once_partial",
    "C30_empty_buffers_refuted",
    "C30_oversized_overtakes"
   ],
   "note": "Exactly-once with counts proved for lists of at most 32767 non-empty buffers; a list of empty buffers is not sent (refuted); oversized buffers overtake smaller ones (proved)."
  },
  {
   "property": "C31",
   "status": "proved",
   "theorems": [
    "C31_no_room_accepts_none",
    "C31_delivered_once_in_order",
    "C31_drains",
    "C31_dropped_only_when_full",
    "C31_sender_loses_nothing",
    "C31_queue_bounded"
   ],
   "note": "Domain: non-empty buffers of at most 32767 fragments, queue size up to 32767, connected socket, queue and client using the same limit (a changing limit: C87); proved also that nothing is reordered, even oversized packs; with send_queue_size 0 the channel never takes a pack (C31_no_room_accepts_none)"
  },
  {
   "property": "C32",
   "status": "proved",
   "theorems": [
    "C32_single_bound",
    "C32_list_bound"
   ],
   "note": "header is at most 25 bytes"
  },
  {
   "property": "C33",
   "status": "proved",
   "theorems": [
    "C33_service_window_exact",
    "C33_value_window",
    "C33_value_window_integers",
    "C33_zero_period_is_nan"
   ],
   "note": "For every start time, call sequence with a non-decreasing clock (readings >= 0) and period; sums below 2^63 / 2^31; Add and GetAllCounter taken as atomic (GetAllCounter does not take the ServiceMetering lock, so a concurrent Add may be seen half done); period 0 gives NaN (proved). Value-meter sums exact for integers up to 2^53 via Flocq (stdlib real-number axioms)."
  },
  {
   "property": "C34",
   "status": "proved",
   "theorems": [
    "C34_rates",
    "C34_real_rates"
   ],
   "note": "float32 arithmetic is the stdlib SpecFloat; uses Flocq, hence the stdlib axioms of the reals"
  },
  {
   "property": "C35",
   "status": "partial",
   "theorems": [
    "C35_clock_step_refuted",
    "C35_recovers_partial"
   ],
   "note": "Refuted (101 s old sample counted in the 30 s window after the clock is set back); proved: any window starting after the last backward step is exact"
  },
  {
   "property": "C36",
   "status": "partial",
   "theorems": [
    "C36_realtime_names",
    "C36_five_minute_names",
    "C36_collector_swapped_refuted",
    "C36_gc_rates",
    "C36_gc_first",
    "C36_float_bits"
   ],
   "note": "Proved for the periodic real-time and five-minute packs; refuted for the start-up pack of collector.go (swapped)"
  },
  {
   "property": "C37",
   "status": "proved",
   "theorems": [
    "C37_no_step_lost",
    "C37_double_end_refuted"
   ],
   "note": "Every sequence of Push/Pop/Add where each method is ended at most once, every keep and batch size >= 1, which may change between calls; ending a method twice duplicates its step (refuted). Dump steps are excluded (C13)."
  },
  {
   "property": "C38",
   "status": "partial",
   "theorems": [
    "C38_indices",
    "C38_nesting_partial",
    "C38_self_parent_refuted"
   ],
   "note": "Proved for every well-nested sequence of fewer than 2^31 steps; refuted: the first step (and any step outside a method) has parent 0, so step 0 is its own parent"
  },
  {
   "property": "C39",
   "status": "partial",
   "theorems": [
    "C39_batches_partial",
    "C39_packs_bounded_partial",
    "C39_nonpositive_refuted"
   ],
   "note": "Proved for batch sizes >= 1; sizes 0 (panic) and negative (lost steps) are accepted by the configuration (refuted)"
  },
  {
   "property": "C40",
   "status": "partial",
   "theorems": [
    "C40_xlog_counts_partial",
    "C40_counters_exact_partial",
    "C40_xlog_counts_refuted"
   ],
   "note": "Refuted: the xlog is built before the final flush, so its counters miss the steps flushed at the end (P_Trace2); proved for every history (C40_xlog_counts_partial, P_Counts.v): the xlog's counters are the steps and bytes a collector decodes from the profile packs sent before the end, and with the steps of the packs sent by the end they add up to the finished steps"
  },
  {
   "property": "C41",
   "status": "partial",
   "theorems": [
    "C41_each_service_once_partial",
    "C41_first_end",
    "C41_later_ends_inert",
    "C41_zero_batch_refuted",
    "C41_concurrent_refuted",
    "C41_concurrent_at_least_once_partial",
    "C41_concurrent_late_inert"
   ],
   "note": "Proved for every sequential history with batch size <> 0 (exactly one sample, at most one xlog per service); concurrent ends: at least one and at most one per goroutine in every interleaving; exactly-once under concurrency refuted (Closed is tested and set without a lock), and a zero batch size loses the sample (refuted)"
  },
  {
   "property": "C42",
   "status": "proved",
   "theorems": [
    "C42_active_list_exact"
   ],
   "note": "every history in which transaction ids are distinct and at most 10000 services run at once"
  },
  {
   "property": "C43",
   "status": "partial",
   "theorems": [
    "C43_child_links",
    "C43_root_links",
    "C43_spawn_tree",
    "C43_xlogs_carry_links",
    "C43_zero_key_refuted"
   ],
   "note": "Proved for every history whose generated keys are not 0, over whole spawn trees, both in the state and in the xlogs sent; refuted for the one key value 0 (1 in 2^63)"
  },
  {
   "property": "C44",
   "status": "partial",
   "theorems": [
    "C44_error_always_sent",
    "C44_marking_sets_error",
    "C44_error_persists",
    "C44_marked_service_is_sent",
    "C44_empty_message_refuted"
   ],
   "note": "Proved for every configuration and draw, batch sizes >= 1: a service in error is always sent with its whole buffered profile, marking puts it in error and nothing but a forced empty error takes it back; refuted for an error whose message hashes to 0 (the empty message)"
  },
  {
   "property": "C45",
   "status": "proved",
   "theorems": [
    "C45_rate",
    "C45_discarded_kind",
    "C45_plain_rate",
    "C45_all",
    "C45_none"
   ],
   "note": "over every draw, elapsed time, URL and configuration of the sampler; proportions are exact counts over the 100 equally likely draws"
  },
  {
   "property": "C46",
   "status": "proved",
   "theorems": [
    "C46_sending_rule"
   ],
   "note": "every end call, every state of the service, every sampler and configuration with batch size >= 1"
  },
  {
   "property": "C47",
   "status": "partial",
   "theorems": [
    "C47_follows_configuration",
    "C47_patterns_have_no_effect",
    "C47_discard_patterns_refuted",
    "C47_exclude_patterns_refuted",
    "C47_show_error_ignored",
    "C47_show_error_refuted",
    "C47_if_matched_partial"
   ],
   "note": "Refuted: configured discard/exclude patterns never match anything (C22) and show-error is not consulted; proved: the decision follows the numeric configuration for every transaction, and what it would be if the matcher matched"
  },
  {
   "property": "C48",
   "status": "partial",
   "theorems": [
    "C48_untraced_inert",
    "C48_start_idempotent",
    "C48_start_service_returns",
    "C48_start_http_nil",
    "C48_nil_context_refuted"
   ],
   "note": "Inertness proved for every call but the starts, every state; idempotence for every state; StartService never nil for every history and configuration with keep and batch sizes >= 1; refuted for keep sizes <= 0 and for StartHttpService with a nil request"
  },
  {
   "property": "C49",
   "status": "partial",
   "theorems": [
    "C49_stuck_services",
    "C49_only_2000_counted",
    "C49_many_services_refuted"
   ],
   "note": "Proved for every history with distinct ids and at most 2000 running services, every clock, thresholds and iteration order; refuted for more than 2000 (the rest is neither counted nor removed)"
  },
  {
   "property": "C50",
   "status": "partial",
   "theorems": [
    "C50_goroutine_runs",
    "C50_goroutine_traced",
    "C50_not_started_refuted"
   ],
   "note": "Proved for every history, context and configuration with keep and batch sizes >= 1; refuted for keep sizes <= 0 and batch size 0: the function is never started"
  },
  {
   "property": "C51",
   "status": "partial",
   "theorems": [
    "C51_reset_command",
    "C51_exact",
    "C51_empty",
    "C51_total",
    "C51_sent_since_reset",
    "C51_queued_partial",
    "C51_queued_refuted",
    "C51_reset_resends"
   ],
   "note": "Proved for every sequence of sends and resets: the text is given to the queue exactly when its hash is not among the newest 10000 (100 for object names) given since the last reset; refuted: when the UDP queue is full the text is lost and still remembered as sent. CRC-32 collisions: the pack found may carry another text with the same hash (C17)."
  },
  {
   "property": "C52",
   "status": "proved",
   "theorems": [
    "C52_remembered",
    "C52_returned",
    "C52_quiescent",
    "C52_exactly_once_refuted"
   ],
   "note": "Any number of goroutines, caches cleared at any time; exactly-once is refuted by a two-caller schedule"
  },
  {
   "property": "C53",
   "status": "proved",
   "theorems": [
    "C53_framed",
    "C53_payload_decodes",
    "C53_unknown_command",
    "C53_frame_response"
   ],
   "note": "For every command, parameter and state; responses below 2^31 bytes (Java int lengths)."
  },
  {
   "property": "C54",
   "status": "partial",
   "theorems": [
    "C54_unsplit_partial",
    "C54_split_refuted",
    "C54_refuted"
   ],
   "note": "Proved when no segment boundary falls inside a payload (a length may be cut anywhere); refuted for a payload cut in two: ReadIntBytes reads once and the rest is taken for the next frame."
  },
  {
   "property": "C55",
   "status": "partial",
   "theorems": [
    "C55_bounded_partial",
    "C55_no_doubling_refuted",
    "C55_minimum_refuted"
   ],
   "note": "Delay after a failure is always 4 s (3 s + 1 s), so at most 60 s, but never doubles (refuted), and after a clean end or a panic it is 1 s (refuted minimum)."
  },
  {
   "property": "C56",
   "status": "proved",
   "theorems": [
    "C56_rows_are_accounts",
    "C56_active_list"
   ],
   "note": "Distinct transaction ids and never more than the table's 10000 services at once. C56_rows_are_accounts: the rows in terms of the ledger of calls."
  },
  {
   "property": "C57",
   "status": "proved",
   "theorems": [
    "C57_binary_download_complete",
    "C57_binary_download_failing_device",
    "C57_text_download_complete",
    "C57_missing_file",
    "C57_text_file_followed",
    "C57_binary_file_followed"
   ],
   "note": "Binary (300-byte ReadAt chunks, any size including multiples of 300 and 0) and text downloads (any OS read split) parse as HasNEXT blobs closed by NoNEXT whose concatenation is the file; a failing device yields a prefix; a missing file yields an empty response."
  },
  {
   "property": "C58",
   "status": "partial",
   "theorems": [
    "C58_delete_command_partial",
    "C58_names_without_parent_step_partial",
    "C58_delete_partial",
    "C58_delete_reports",
    "C58_only_profiles",
    "C58_refuted_any_file_readable",
    "C58_refuted_pprof_files",
    "C58_reads_one_file_partial"
   ],
   "note": "Proved for every name without a '..' step (and the truthfulness of the delete result for every name). The unrestricted claim is refuted in general: for every absolute agent directory any file of the machine can be read through OBJECT_DUMP_FILE_DETAIL and any *pprof file downloaded or deleted."
  },
  {
   "property": "C59",
   "status": "partial",
   "theorems": [
    "C59_precedence_partial",
    "C59_empty_file_value_hides_environment",
    "C59_refuted",
    "C59_object_name",
    "C59_unreadable_file_keeps_settings",
    "C59_started_without_file_partial"
   ],
   "note": "Proved for every setting when the file does not give it an empty value; refuted otherwise: an empty value in the file hides the environment's value and the default is used (C59_refuted, general form C59_empty_file_value_hides_environment)."
  },
  {
   "property": "C60",
   "status": "partial",
   "theorems": [
    "C60_newer_file_is_loaded_partial",
    "C60_refuted_not_newer",
    "C60_refuted",
    "C60_sampler_follows",
    "C60_sampler_settings"
   ],
   "note": "Proved when the modification time is later than all seen before; refuted otherwise (an older or same-tick file is ignored). The sampler always corresponds to the settings in force (C60_sampler_follows, full), and each of its parameters is the value of the setting of that name (C60_sampler_settings)."
  },
  {
   "property": "C61",
   "status": "partial",
   "theorems": [
    "C61_answer",
    "C61_refuted"
   ],
   "note": "The text 'result' is \"true\" exactly on success, but its boolean reading is never true (refuted), because the value is a string."
  },
  {
   "property": "C62",
   "status": "partial",
   "theorems": [
    "C62_environment_value",
    "C62_verbatim_partial",
    "C62_refuted",
    "C62_refuted_panic"
   ],
   "note": "A value containing '=' is cut at it and an environment entry without '=' panics (refuted); verbatim otherwise. ${...} expansion of the properties library is not modelled."
  },
  {
   "property": "C63",
   "status": "proved",
   "theorems": [
    "C63_ledger",
    "C63_text_ids",
    "C63_every_ledger",
    "C63_xlog_describes_account",
    "C63_exact_ledger"
   ],
   "note": "ledger of S_Ledger.v; which of the services found stuck by GetActiveCount are removed is left open there, but not in C63_exact_ledger (S_Sweep.v), where every such count sees all running services (at most 2000 of them, C49); the decision to send is C46, the profile counters C40"
  },
  {
   "property": "C64",
   "status": "proved",
   "theorems": [
    "C64_no_internal_panic",
    "C64_panics_are_contained"
   ],
   "note": "every well-used history (non-nil arguments, keep and batch sizes >= 1) of every API call, in every order; and in any state at all a panic inside the API does not reach the caller"
  },
  {
   "property": "C65",
   "status": "partial",
   "theorems": [
    "C65_dump_directories",
    "C65_thread_dump_command",
    "C65_profile_commands",
    "C65_profiles_complete_partial",
    "C65_thread_dump_prefix_partial",
    "C65_thread_dump_single_write_partial",
    "C65_refuted"
   ],
   "note": "Block and mutex profiles proved complete. Thread dumps refuted: the bufio.Writer is never flushed, so up to 4096 trailing bytes are lost; with the runtime's single Write a dump of at most 4096 bytes gives an empty file, a longer one is complete (both proved)."
  },
  {
   "property": "C66",
   "status": "partial",
   "theorems": [
    "C66_list_then_fetch",
    "C66_list_then_download",
    "C66_listing_rows",
    "C66_binary_listing_rows",
    "C66_fetch_by_listed_name_partial",
    "C66_download_by_listed_name_partial",
    "C66_refuted_nested",
    "C66_refuted_trigger_name",
    "C66_lists_followed",
    "C66_fetched_followed"
   ],
   "note": "Columns and rows proved exact; fetching by listed name proved for files directly in the directory. Refuted for files in subdirectories (listed by base name) and for the full path name returned by TRIGGER_THREAD_DUMP. Listing followed by fetching is also proved through the commands themselves (C66_list_then_fetch, C66_list_then_download)."
  },
  {
   "property": "C67",
   "status": "partial",
   "theorems": [
    "C67_descriptions_match",
    "C67_listing",
    "C67_listing_keys_distinct"
   ],
   "note": "One entry per setting with value, default, description and type. Exception shown in the statement: a 32-bit millisecond setting shows the number before it is cut to 32 bits (C67_example)."
  },
  {
   "property": "C68",
   "status": "partial",
   "theorems": [
    "C68_session_ends_on_change",
    "C68_address_refuted",
    "C68_handshake"
   ],
   "note": "Session ends between commands once hash, address or port differ from those at the start of the session; refuted when the address changes between dialling and the start of the session: it then goes on at the old address."
  },
  {
   "property": "C69",
   "status": "proved",
   "theorems": [
    "C69_config_text",
    "C69_only_set_changes"
   ],
   "note": "GET answers with the whole text; the collector reads it whole up to the wire limits of C11."
  },
  {
   "property": "C70",
   "status": "partial",
   "theorems": [
    "C70_describes_account",
    "C70_child_goroutine_refuted",
    "C70_thread_detail"
   ],
   "note": "Distinct transaction ids and never more than 10000 services at once. C70_describes_account says the same in terms of the ledger of calls (name, running time, goroutine, last method). Refuted: a service started by GoWithTrace is shown under the goroutine that called GoWithTrace, not the one that runs it (C70_child_goroutine_refuted)."
  },
  {
   "property": "C72",
   "status": "proved",
   "theorems": [
    "C72_profiles",
    "C72_stuck_profiles"
   ],
   "note": "hypotheses: arguments of their Go types, each started step ended at most once, service ended by an end call, or by the stuck check with at most 2000 services running"
  },
  {
   "property": "C73",
   "status": "proved",
   "theorems": [
    "C73_propagation_headers",
    "C73_incoming_headers_ignored"
   ],
   "note": "incoming headers are not taken up by the agent (C73_incoming_headers_ignored)"
  },
  {
   "property": "C74",
   "status": "proved",
   "theorems": [
    "C74_async_step"
   ],
   "note": "keys other than 0 (see C43_zero_key_refuted)"
  },
  {
   "property": "C75",
   "status": "partial",
   "theorems": [
    "C75_no_sample_lost",
    "C75_read_bounds",
    "C75_error_rate_refuted",
    "C75_stalled_refuted"
   ],
   "note": "exact once nobody is inside Add and bounded reads proved; error rate above 100 during concurrent reads and 301 s stalls refuted; sequentially consistent memory assumed"
  },
  {
   "property": "C71",
   "status": "partial",
   "theorems": [
    "C71_mutex_restored_partial",
    "C71_mutex_refuted",
    "C71_mutex_left",
    "C71_block_off",
    "C71_block_restored_refuted",
    "C71_in_force_partial",
    "C71_in_force_refuted",
    "C71_cpu",
    "C71_files_partial",
    "C71_same_second_refuted"
   ],
   "note": "mutex fraction restored for jobs nested in time, block rate off after all jobs, rate in force while no other job of the kind begins or ends, CPU exclusion in full, files exact when a command does not come twice in one second; the unrestricted claims are refuted"
  },
  {
   "property": "C76",
   "status": "proved",
   "theorems": [
    "C76_xlogs_proper",
    "C76_collector_learns",
    "C76_nothing_lost",
    "C76_completes",
    "C76_profile_arrives"
   ],
   "note": "one history of the tracing API (sequential calls) composed with M_Net and an executable collector; fragment keys taken not to repeat (C79); profile packs are C72"
  },
  {
   "property": "C77",
   "status": "partial",
   "theorems": [
    "C77_no_invention",
    "C77_nothing_missing",
    "C77_direct_arrives",
    "C77_no_loss_with_socket",
    "C77_only_through_sockets",
    "C77_direct_never_refused",
    "C77_completes",
    "C77_order_refuted",
    "C77_exchange_refuted"
   ],
   "note": "Everything proved except the order of direct packs (refuted: each has its own goroutine) and packs under way while the socket is exchanged (refuted: can be lost). Fragment keys taken not to repeat; datagram limit constant (a changing limit: C87)"
  },
  {
   "property": "C78",
   "status": "partial",
   "theorems": [
    "C78_contents",
    "C78_settings",
    "C78_consistent_partial",
    "C78_name_text",
    "C78_rename",
    "C78_heard",
    "C78_start_up_partial",
    "C78_start_up_refuted",
    "C78_nameless_refuted",
    "C78_consistent_refuted"
   ],
   "note": "Contents, resolvability, renaming and delivery proved for every life of the process. Refuted with witnesses: name and type of one announcement can be of different settings (refresh between the two reads), the start panics with trace_obj_send set and no socket, the announcement is nameless when the configuration file cannot be examined"
  },
  {
   "property": "C79",
   "status": "partial",
   "theorems": [
    "C79_each_draw_once",
    "C79_different_partial",
    "C79_range",
    "C79_no_deadlock",
    "C79_fragment_keys",
    "C79_processes_refuted"
   ],
   "note": "The random source (Go's math/rand) is an arbitrary deterministic generator; that ids differ is proved as long as the source does not repeat. Refuted: agents started in the same second draw the same ids, since the source is seeded with the seconds of the clock"
  },
  {
   "property": "C80",
   "status": "proved",
   "theorems": [
    "C80_conversation",
    "C80_hang_up",
    "C80_heard"
   ],
   "note": "payloads not cut by the stream (C54) and an identity that stays (C68) are hypotheses, as in the English statement; requests are map packs the agent's reader can read (C10)"
  },
  {
   "property": "C81",
   "status": "partial",
   "theorems": [
    "C81_reading_ends",
    "C81_panic_partial",
    "C81_panic_refuted",
    "C81_only_commands",
    "C81_config_untouched",
    "C81_bad_request",
    "C81_cut_text_refuted"
   ],
   "note": "proved: termination, effects only by commands that were sent, bad requests have no effect; refuted: a malformed pack panics (recovered in startTcp: the session ends), and a SET_CONFIGURE_WAS cut inside its text by a TCP segment boundary is obeyed with the missing part replaced by zero bytes"
  },
  {
   "property": "C82",
   "status": "partial",
   "theorems": [
    "C82_xlogs",
    "C82_profiles",
    "C82_profile_header",
    "C82_reset_refuted",
    "C82_collector_resolves"
   ],
   "note": "proved: xlogs without hypotheses, profiles if application-made steps carry no text numbers, profile headers; 'told' means given to the sender (a full queue drops it: C51_queued_partial); refuted: after OBJECT_RESET_CACHE the error/user agent/referer numbers of running services are used without being told again"
  },
  {
   "property": "C83",
   "status": "partial",
   "theorems": [
    "C83_no_invention",
    "C83_once_per_batch",
    "C83_serialized",
    "C83_serialized_close",
    "C83_serialized_indices",
    "C83_serialized_links",
    "C83_lost_refuted",
    "C83_twice_refuted",
    "C83_panic_refuted"
   ],
   "note": "proved: bounded batches of recorded steps, each at most once per batch, under every interleaving; exactly-once and no panic when calls do not overlap, including the final Close, with the indices and parents of a single goroutine making the calls in turn; refuted for overlapping calls (the collector has no lock): a step overwritten, a batch sent twice, an index out of range. Sequentially consistent memory is assumed"
  },
  {
   "property": "C84",
   "status": "partial",
   "theorems": [
    "C84_nothing_else",
    "C84_all",
    "C84_once",
    "C84_goes_on",
    "C84_snapshot_refuted"
   ],
   "note": "proved: complete for entries present throughout, once each, nothing foreign, never stuck, under every interleaving; refuted: the list need not equal the contents at any moment (the lock is released between items). Go's map iteration is described by the language specification"
  },
  {
   "property": "C85",
   "status": "proved",
   "theorems": [
    "C85_no_deadlock",
    "C85_all_return",
    "C85_exclusion"
   ],
   "note": "all locks of the agent with Go's RWMutex semantics (a waiting writer blocks new readers); sync.Once as a lock while its function runs; conf's own Once is finished by package initialisation; locks inside the standard library and gods are not modelled"
  },
  {
   "property": "C86",
   "status": "partial",
   "theorems": [
    "C86_undisturbed",
    "C86_reload_completes",
    "C86_always_decides",
    "C86_mixture",
    "C86_off",
    "C86_all_kept",
    "C86_one_change",
    "C86_old_or_new_refuted",
    "C86_kept_by_both_refuted"
   ],
   "note": "proved: the decision is that of a mixture of settings in force, of the old or the new ones when one sampling setting changes, and keeps everything if all of them have sampling off or all percentages at 100. Refuted with a witness: several changed settings can give a decision neither configuration makes (switching sampling on with 100% can withhold a record)"
  },
  {
   "property": "C87",
   "status": "partial",
   "theorems": [
    "C87_no_invention",
    "C87_nothing_missing",
    "C87_direct_arrives",
    "C87_never_stops",
    "C87_completes",
    "C87_same_limit",
    "C87_limit_obeyed",
    "C87_order_refuted",
    "C87_zero_stops",
    "C87_zero_refuted",
    "C87_whole_agent_no_invention",
    "C87_whole_agent_nothing_missing"
   ],
   "note": "proved: with the limit changing at any time within [lo, 2^31-1], lo>=1, nothing is invented, nothing is missing when all is at rest, direct packs arrive, no sender step fails, and a continuation that delivers everything exists. Refuted with witnesses: queue order (an oversized pack overtakes while setting and limit differ) and the limit 0 (division by zero in a goroutine without recover). The first two also for every history of the whole agent with all its goroutines (C87_whole_agent_no_invention, C87_whole_agent_nothing_missing), for the packs its log and moves name. Each client's limit is that set before it is published; fragment keys taken not to repeat"
  },
  {
   "property": "C88",
   "status": "partial",
   "theorems": [
    "C88_never_stops",
    "C88_realtime",
    "C88_five_minutes",
    "C88_before_1970_refuted",
    "C88_decodable"
   ],
   "note": "proved for clocks that are not before 1970 (never stops, one pack per turn, decodable) and, for the contents, that do not go back, with at most 2000 services running at once and distinct transaction ids (limits of C49). Refuted with a witness: a clock before 1970 kills the process (index panic; the recovered getter returns nil, which SendPackDirect dereferences outside any recover). One clock reading per call or turn; calls and turns are taken one at a time"
  },
  {
   "property": "C89",
   "status": "partial",
   "theorems": [
    "C89_transparent_partial",
    "C89_after_init_partial",
    "C89_goroutine_partial",
    "C89_reported_partial",
    "C89_all_guarded",
    "C89_unregistered_refuted",
    "C89_final_guard_refuted"
   ],
   "note": "proved for every program once common.RegisterSendPanicF was called (by the agent's main package): Go's defer/panic/recover semantics is modelled (M_Defer), tracing calls are those of M_Trace. Refuted: in a program that imports strace without the main package an agent panic reaches the application as a nil function call and replaces a panic of its own; and the last guard (reportScouterPanicFinal is called, not deferred) stops nothing. Tracing calls' results are not used by the application except as arguments of later tracing calls"
  },
  {
   "property": "C90",
   "status": "partial",
   "theorems": [
    "C90_follows",
    "C90_no_churn",
    "C90_sockets",
    "C90_only_configured",
    "C90_not_diverted",
    "C90_half_seen_refuted",
    "C90_no_retry_refuted",
    "C90_whole_agent_refines",
    "C90_whole_agent_only_configured",
    "C90_whole_agent_follows"
   ],
   "note": "Proved for every interleaving of the single reads and assignments: C90_follows, C90_no_churn, C90_whole_agent_follows (the same for the whole agent, whatever its other goroutines do), C90_sockets, C90_not_diverted, C90_only_configured for address, port and limit separately (C90_whole_agent_only_configured in the whole agent), and C90_whole_agent_refines: every history of the whole agent is, for the address and the datagrams, one of this model. Refuted: an address and a port that were never configured together can be used while a refresh is half seen (C90_half_seen_refuted); an address that could not be resolved when it was taken over is never tried again (C90_no_retry_refuted)."
  },
  {
   "property": "C91",
   "status": "partial",
   "theorems": [
    "C91_only_ways",
    "C91_start_only_ways",
    "C91_survives",
    "C91_default_settings_survive",
    "C91_environment_refuted",
    "C91_trace_obj_send_refuted",
    "C91_zero_size_refuted",
    "C91_before_1970_refuted",
    "C91_negative_queue_refuted",
    "C91_refuted"
   ],
   "note": "The claim is refuted in five ways (C91_environment_refuted, C91_trace_obj_send_refuted, C91_zero_size_refuted, C91_before_1970_refuted, C91_negative_queue_refuted); C91_only_ways and C91_start_only_ways prove that there are no others in the model, for every history; C91_default_settings_survive proves survival from the inputs alone, C91_survives from the settings reached. Assumed of the Go runtime only: a range over a map visits every entry once. Not modelled: fatal errors that are not panics (out of memory, a queue size too large to allocate; concurrent map access is C96), a refresh seen half way (C95), the command connection's goroutine (recovered as a whole, tcpmanager.go:22) and profiling jobs. The log file that cannot be opened at the start (log.Fatalln, which is an exit and not a panic) is C93."
  },
  {
   "property": "C92",
   "status": "proved",
   "theorems": [
    "C92_bounded",
    "C92_one_socket",
    "C92_steps"
   ],
   "note": "Counts of entries, buffers, sockets and buckets of the whole agent of M_Whole.v (C92_bounded, C92_one_socket), with no assumption on the calls; the profile steps at the level of one transaction's collector (C92_steps). Not counted: bytes of the packs themselves, goroutines of direct sends that the network keeps waiting, memory that is garbage, the command connection (one at a time by construction of its loop)."
  },
  {
   "property": "C93",
   "status": "partial",
   "theorems": [
    "C93_where",
    "C93_app_path",
    "C93_refresh_reads",
    "C93_start",
    "C93_start_refuted",
    "C93_started",
    "C93_only_its_files",
    "C93_log_grows",
    "C93_saved",
    "C93_shown",
    "C93_stays_partial",
    "C93_moves_refuted"
   ],
   "note": "Two parts of the claim are refuted: the start ends the application (log.Fatalln) exactly when the log cannot be opened (C93_start gives the exact condition, C93_start_refuted the read-only disk), and without an absolute path in the environment the configuration moves with the application's working directory (C93_moves_refuted; C93_stays_partial proves the rest). Places, the effect of the start, which files and directories may change, the log's growth and the saved text are proved for all disks and histories (C93_where, C93_refresh_reads, C93_start, C93_only_its_files, C93_log_grows, C93_saved). The disk is a tree without links; permissions are inputs; other programs do not change it during a call; '..' in a path is followed on names."
  },
  {
   "property": "C94",
   "status": "proved",
   "theorems": [
    "C94_number",
    "C94_other_text"
   ],
   "note": "C94_number for every number and rest of the stack, C94_other_text for texts whose first word is not a number that fits. Assumed of the runtime: the text of runtime.Stack starts with \"goroutine \", the number and white space. Not modelled: white space outside ASCII before the end of the first word."
  },
  {
   "property": "C95",
   "status": "partial",
   "theorems": [
    "C95_each_setting_partial",
    "C95_numbers_whole",
    "C95_unchanged",
    "C95_unchanged_text",
    "C95_finished",
    "C95_order",
    "C95_one_setting",
    "C95_hash",
    "C95_address_refuted",
    "C95_address_partial",
    "C95_torn_refuted",
    "C95_limits_refuted"
   ],
   "note": "Proved: every number or switch read during a refresh is the old or the new one, texts too unless their assignment is under way; start and end states; new stays new, in the order of assignment; a refresh of one setting is seen whole; the object hash seen is always that of the old or the new name. Refuted in the code: a connection made during a refresh that changes address and port goes to new address and old port and is kept for ever; a text read while it is assigned can be neither (new bytes, old length); sampling limits of two configurations are mixed. Modelled: order of assignments as in the source, strings as two words; not modelled: reordering by compiler or processor beyond that."
  },
  {
   "property": "C96",
   "status": "proved",
   "theorems": [
    "C96_no_clash",
    "C96_no_deadlock"
   ],
   "note": "For every number of goroutines, every program of each and every schedule. The maps modelled are all maps the agent's goroutines share; the lock calls of each operation are proved to be those of C85 (so that C85's exclusion applies). Not covered: the cache packages the agent does not use (cachemap, cacheset, cachemap2) and maps owned by the application."
  },
  {
   "property": "C97",
   "status": "partial",
   "theorems": [
    "C97_alerts",
    "C97_disabled_still_alerts",
    "C97_once",
    "C97_never_twice",
    "C97_repeats"
   ],
   "note": "proved: exactly one alert per running stuck service per count (at most 2000 services looked at), its contents, and none after the service was removed; refuted parts proved as theorems: stuck_service_alert_enabled=false only lowers the level (C97_disabled_still_alerts), with removal off every count alerts again (C97_repeats), the message's last number is always %!d(MISSING) C97_never_twice: over any number of counts with removal on, no service is alerted about twice."
  },
  {
   "property": "C98",
   "status": "partial",
   "theorems": [
    "C98_values",
    "C98_numbers",
    "C98_packs",
    "C98_after_the_wire",
    "C98_false_refuted"
   ],
   "note": "Proved for all values and all enumeration orders: C98_values (what is printed is exactly a text of the value), C98_numbers, C98_packs, C98_after_the_wire. Refuted for booleans: false is printed as \"fasle\" (C98_false_refuted). The conversion of floating point numbers by the Go library is modelled as exact decimal rounding."
  },
  {
   "property": "C99",
   "status": "partial",
   "theorems": [
    "C99_program_order",
    "C99_as_one_goroutine",
    "C99_cachemap",
    "C99_cacheset",
    "C99_cachemap2_partial",
    "C99_lra",
    "C99_size_refuted"
   ],
   "note": "Refuted for Size of cachemap, cacheset and cachemap2 (it takes no lock and can see the middle of an Add: C99_size_refuted; its answer is always between 0 and the capacity) and for cachemap2 after Remove (C27). Everything else proved: C99_as_one_goroutine for all four caches, with the answers of the specification map in C99_cachemap, C99_cacheset, C99_lra. GetValues of lra and cachemap2, which releases the lock between items, is C84's."
  },
  {
   "property": "C100",
   "status": "proved",
   "theorems": [],
   "note": "Proved for all pairs of well used histories whose removals of stuck services see all running services (S_Sweep.v: distinct ids, at most 10000 running so far, at most 2000 at the count) in which a service has the same tale (S_Isolation.v: the calls on its own context only): same samples (C100_samples), same xlog apart from the step/byte counts of the profile and the sampler's decision (C100_xlogs), same results (C100_answers), same decoded profiles when kept (C100_profiles; C100_stuck_profiles for services ended by a count). The calls are the traced API of M_Trace.v, one call at a time."
  },
  {
   "property": "C101",
   "status": "proved",
   "theorems": [],
   "note": "What runtime.Callers, FuncForPC and FileLine say of the stack is the input (M_Stack.v); the text, that it can be read back (function names without spaces and line ends, paths without line ends), and the alert decoded by the collector (with C89 and C11; texts of at most 100000 bytes, longer ones are replaced: C05) are proved."
  },
  {
   "property": "C102",
   "status": "proved",
   "theorems": [],
   "note": "Proved for every history and every call of M_Trace.v (no hypotheses but a batch size other than 0 for the comparison with the xlog). The object hash is the one in force at the call that sends the pack."
  }
 ]
}