{
 "claims": [
  {
   "property": "C01",
   "status": "proved",
   "theorems": [
    "C01_last_write_wins",
    "C01_runs_iff_ranges_nonempty"
   ],
   "note": ""
  },
  {
   "property": "C02",
   "status": "proved",
   "theorems": [
    "C02_entries_sorted_disjoint",
    "C02_entries_nonempty",
    "C02_size"
   ],
   "note": ""
  },
  {
   "property": "C03",
   "status": "proved",
   "theorems": [
    "C03_find_next_is_first_start_after",
    "C03_documented_find_next_refuted"
   ],
   "note": ""
  },
  {
   "property": "C04",
   "status": "proved",
   "theorems": [
    "C04_read_data_all_or_nothing",
    "C04_read_string_all_or_nothing",
    "C04_read_data_string_all_or_nothing",
    "C04_seek_set",
    "C04_any_read_sequence_stays_inside"
   ],
   "note": ""
  },
  {
   "property": "C05",
   "status": "proved",
   "theorems": [
    "C05_write_data_all_or_nothing",
    "C05_write_string_all_or_nothing",
    "C05_write_string_wrap_refuted"
   ],
   "note": ""
  },
  {
   "property": "C06",
   "status": "proved",
   "theorems": [
    "C06_string_with_size_roundtrip",
    "C06_string_with_size_write"
   ],
   "note": ""
  },
  {
   "property": "C07",
   "status": "proved",
   "theorems": [
    "C07_bswap16",
    "C07_bswap32",
    "C07_bswap64",
    "C07_read_int_endianness"
   ],
   "note": ""
  },
  {
   "property": "C08",
   "status": "proved",
   "theorems": [
    "C08_align_least_multiple",
    "C08_aligned_string_length",
    "C08_align_wraps_refuted",
    "C08_get_num_bits"
   ],
   "note": ""
  },
  {
   "property": "C09",
   "status": "proved",
   "theorems": [
    "C09_refused",
    "C09_hex_decode_of_encode",
    "C09_hex_roundtrip",
    "C09_hex_shape",
    "C09_hex_injective",
    "C09_accepts_non_hex_refuted"
   ],
   "note": ""
  },
  {
   "property": "C10",
   "status": "proved",
   "theorems": [
    "C10_list_meaning",
    "C10_no_number",
    "C10_cpu_list_roundtrip",
    "C10_side_conditions_refuted"
   ],
   "note": ""
  },
  {
   "property": "C11",
   "status": "proved",
   "theorems": [
    "C11_perfize_shape",
    "C11_trim_removes_trailing_groups",
    "C11_trim_idempotent",
    "C11_perfize_trim_perfize",
    "C11_zero_padding_irrelevant",
    "C11_normal_form_faithful"
   ],
   "note": ""
  },
  {
   "property": "C12",
   "status": "proved",
   "theorems": [
    "C12_new_mapper",
    "C12_bounded_histories_fit",
    "C12_calls_succeed",
    "C12_lookup_is_history",
    "C12_lookup_never_stale",
    "C12_untouched_mapping_found",
    "C12_aligned_call_same",
    "C12_bad_ranges_refused",
    "C12_history_admissible",
    "C12_partial_overlap_drops_rest_refuted",
    "C12_nested_mapping_drops_outer_refuted",
    "C12_refused_split_loses_mapping_refuted",
    "C12_range_to_end_of_memory_refuted"
   ],
   "note": ""
  },
  {
   "property": "C13",
   "status": "proved",
   "theorems": [
    "C13_translation_injective",
    "C13_page_offset_kept",
    "C13_distance_kept",
    "C13_collision_when_full_refuted"
   ],
   "note": ""
  },
  {
   "property": "C14",
   "status": "proved",
   "theorems": [
    "C14_first_string_empty",
    "C14_id_denotes_string",
    "C14_ids_are_stable",
    "C14_equal_ids_iff_equal_strings",
    "C14_table_without_duplicates",
    "C14_empty_url_duplicates_refuted"
   ],
   "note": ""
  },
  {
   "property": "C15",
   "status": "proved",
   "theorems": [
    "C15_id_denotes_function",
    "C15_ids_are_stable",
    "C15_equal_ids_iff_equal_functions",
    "C15_ids_dense"
   ],
   "note": ""
  },
  {
   "property": "C16",
   "status": "proved",
   "theorems": [
    "C16_check_valid_iff_consistent",
    "C16_check_valid_iff_consistent_int",
    "C16_first_string_unchecked_refuted",
    "C16_zero_ids_unchecked_refuted",
    "C16_type_index_out_of_table_refuted"
   ],
   "note": ""
  },
  {
   "property": "C17",
   "status": "proved",
   "theorems": [
    "C17_addresses_become_locations",
    "C17_mapping_of_location",
    "C17_existing_locations_kept",
    "C17_finalize_idempotent",
    "C17_finalize_true_means_consistent",
    "C17_address_at_limit_refuted"
   ],
   "note": ""
  },
  {
   "property": "C18",
   "status": "proved",
   "theorems": [
    "C18_mappings_contain_addresses",
    "C18_all_mappings_contain_addresses",
    "C18_never_aborts",
    "C18_pointers_are_stable",
    "C18_wrapping_mmap_refuted",
    "C18_kernel_fixup_refuted",
    "C18_process_named_lost_refuted",
    "C18_nul_in_build_id_refuted",
    "C18_perf_version_refuted"
   ],
   "note": ""
  },
  {
   "property": "C19",
   "status": "proved",
   "theorems": [
    "C19_latest_mapping",
    "C19_resolve_reads_as_stated"
   ],
   "note": ""
  },
  {
   "property": "C20",
   "status": "proved",
   "theorems": [
    "C20_child_sees_snapshot",
    "C20_isolation",
    "C20_thread_fork_changes_nothing",
    "C20_fork_of_unknown_parent_refuted"
   ],
   "note": ""
  },
  {
   "property": "C21",
   "status": "proved",
   "theorems": [
    "C21_lost_samples_one_by_one",
    "C21_other_kind_ignored"
   ],
   "note": ""
  },
  {
   "property": "C22",
   "status": "proved",
   "theorems": [
    "C22_event_of_sample",
    "C22_index_in_table"
   ],
   "note": ""
  },
  {
   "property": "C23",
   "status": "proved",
   "theorems": [
    "C23_counts_conserved",
    "C23_samples_placed_once"
   ],
   "note": ""
  },
  {
   "property": "C24",
   "status": "proved",
   "theorems": [
    "C24_weights_conserved"
   ],
   "note": ""
  },
  {
   "property": "C25",
   "status": "proved",
   "theorems": [
    "C25_locations_inside_mappings"
   ],
   "note": "Assumes that profiles are grouped by process or process 0 never execs; C26_exec_of_process_0_refuted shows the claim is false otherwise. Also assumes no process carries the name and hash of the synthetic lost mapping (C18_process_named_lost_refuted)."
  },
  {
   "property": "C26",
   "status": "proved",
   "theorems": [
    "C26_profiles_sound",
    "C26_exec_of_process_0_refuted",
    "C26_invalid_profile_returned_refuted"
   ],
   "note": "Assumes that profiles are grouped by process or process 0 never execs; C26_exec_of_process_0_refuted shows the claim is false otherwise."
  },
  {
   "property": "C27",
   "status": "proved",
   "theorems": [
    "C27_merged_iff_alike",
    "C27_latency_truncated_refuted"
   ],
   "note": "Assumes that profiles are grouped by process or process 0 never execs; C26_exec_of_process_0_refuted shows the claim is false otherwise. Label fields are compared as the converter stores them: absent equals 0 (C51_absent_is_zero_refuted), total latency modulo 2^32 (C27_latency_truncated_refuted)."
  },
  {
   "property": "C28",
   "status": "proved",
   "theorems": [
    "C28_stack_of_each_sample",
    "C28_kernel_remap_stale_refuted"
   ],
   "note": "Assumes that profiles are grouped by process or process 0 never execs; C26_exec_of_process_0_refuted shows the claim is false otherwise. The addresses of the frames are proved; that each location refers to the mapping of its frame is false after a kernel remap (C28_kernel_remap_stale_refuted)."
  },
  {
   "property": "C29",
   "status": "proved",
   "theorems": [
    "C29_pid_and_span",
    "C29_every_sample_has_a_profile"
   ],
   "note": ""
  },
  {
   "property": "C30",
   "status": "proved",
   "theorems": [
    "C30_translation_preserved",
    "C30_devices_kept",
    "C30_pieces_joined",
    "C30_history_refuted",
    "C30_end_of_memory_refuted"
   ],
   "note": "Assumes mappings end below 2^64 (C30_end_of_memory_refuted shows this is needed). The claim is about the whole event list; event by event it is false (C30_history_refuted)."
  },
  {
   "property": "C31",
   "status": "proved",
   "theorems": [
    "C31_only_huge_pages_renamed",
    "C31_order_of_processes_irrelevant",
    "C31_text_pages_renamed",
    "C31_offset_of_renamed_page_refuted",
    "C31_timestamped_skipped_refuted"
   ],
   "note": "For any order of processes without repetition, as a hash map delivers them. C31_offset_of_renamed_page_refuted and C31_timestamped_skipped_refuted record two places where the code does less than its comments say."
  },
  {
   "property": "C32",
   "status": "proved",
   "theorems": [
    "C32_roundtrip",
    "C32_write_back",
    "C32_write_back_refuted"
   ],
   "note": "Round trip in both directions: a sample written successfully is read back as far as the event carries it, and an event read successfully is reproduced when the sample is written back, unless both ID and IDENTIFIER are recorded with different values or the reserved half of the CPU word is not zero (C32_write_back_refuted)."
  },
  {
   "property": "C33",
   "status": "proved",
   "theorems": [
    "C33_layout",
    "C33_size",
    "C33_written",
    "C33_refused",
    "C33_overrun_refuted",
    "C33_uninitialised_refuted"
   ],
   "note": "The size formula, the block of bytes changed and the reported success. C33_overrun_refuted: a sample larger than the event is stored past its end before the sizes are compared. C33_uninitialised_refuted: no_hw_idx of a new sample is read uninitialised; an unknown event type ends the program. C33_layout: the bytes written are the fields in the order and with the bit numbers of perf_event.h; only the padding behind the raw bytes is left open."
  },
  {
   "property": "C34",
   "status": "proved",
   "theorems": [
    "C34_layout",
    "C34_safe_and_exact",
    "C34_no_invention",
    "C34_used_sample_refuted"
   ],
   "note": "For every event and either byte order, into a new sample. C34_used_sample_refuted: reading into a used sample ends the program. C34_layout: what is read is what stands at those places, for events in the byte order of the machine."
  },
  {
   "property": "C35",
   "status": "proved",
   "theorems": [
    "C35_inside",
    "C35_text_events",
    "C35_plain_events",
    "C35_closed_events",
    "C35_array_events",
    "C35_namespaces",
    "C35_auxtrace_info",
    "C35_auxtrace_error",
    "C35_time_conv",
    "C35_bpf_metadata",
    "C35_bpf_metadata_wrap_refuted",
    "C35_unknown_types"
   ],
   "note": "Total over all raw events. C35_bpf_metadata_wrap_refuted: the entry count of BPF_METADATA events wraps in 64-bit arithmetic."
  },
  {
   "property": "C36",
   "status": "proved",
   "theorems": [
    "C36_sorted",
    "C36_untouched",
    "C36_stable_sort_is_unique",
    "C36_sorted_input_unchanged",
    "C36_untimed_events_move_refuted"
   ],
   "note": "C36_stable_sort_is_unique justifies the model of std::stable_sort. C36_untimed_events_move_refuted: events without a time count as time 0 and move to the front."
  },
  {
   "property": "C37",
   "status": "proved",
   "theorems": [
    "C37_lookup",
    "C37_keeps_the_rest",
    "C37_entries",
    "C37_again",
    "C37_again_refuted",
    "C37_bad_id_refuted"
   ],
   "note": "For maps from NUL-free names to hex text. Repetition changes nothing a file is given (C37_again); the stored bytes of ids that are not whole 4-byte groups do change once (C37_again_refuted). C37_bad_id_refuted: text that is not hex."
  },
  {
   "property": "C38",
   "status": "proved",
   "theorems": [
    "C38_rename",
    "C38_by_build_id",
    "C38_alternates",
    "C38_md5_stale_refuted",
    "C38_no_attributes_refuted"
   ],
   "note": "C38_md5_stale_refuted: MD5 prefixes keep the old name; C38_no_attributes_refuted: without attributes the process is terminated."
  },
  {
   "property": "C39",
   "status": "proved",
   "theorems": [
    "C39_safe",
    "C39_read",
    "C39_bad_header",
    "C39_skipped_trace_refuted",
    "C39_cross_endian_features_refuted",
    "C39_cross_endian_attr_type_refuted",
    "C39_feature_bit_0_refuted",
    "C39_feature_number_refuted"
   ],
   "note": "The whole of ReadFromData is modelled (file and piped, both byte orders, all metadata). PerfSerializer::SerializeEvent is an arbitrary predicate. Five findings are stated as _refuted theorems."
  },
  {
   "property": "C40",
   "status": "proved",
   "theorems": [
    "C40_memory_safe",
    "C40_decode_loop_terminates",
    "C40_failure_is_final",
    "C40_decodes_what_was_encoded",
    "C40_decodes_record_in_context",
    "C40_alignment_packet",
    "C40_trailing_padding_is_a_record",
    "C40_depends_on_buffer_address_refuted"
   ],
   "note": ""
  },
  {
   "property": "C41",
   "status": "proved",
   "theorems": [
    "C41_page_offset",
    "C41_remapped",
    "C41_marks_apart",
    "C41_moved_mapping",
    "C41_mark_confused_refuted",
    "C41_marks_collide_refuted"
   ],
   "note": "Page offset for every run; injectivity, distances and the mark when each mapping can be entered. \"Never confused\" holds when the mapped ranges stay below 2^63 (C41_marks_apart) and is false otherwise (C41_mark_confused_refuted)."
  },
  {
   "property": "C42",
   "status": "proved",
   "theorems": [
    "C42_branch_stack",
    "C42_merge_split",
    "C42_split_merge"
   ],
   "note": "Branch stacks as seen in the parsed rows; merging and splitting in both directions."
  },
  {
   "property": "C43",
   "status": "proved",
   "theorems": [
    "C43_written",
    "C43_layout",
    "C43_size",
    "C43_exact",
    "C43_total",
    "C43_buffer",
    "C43_buffer_size",
    "C43_buffer_total",
    "C43_padding_refuted",
    "C43_unset_strings_refuted",
    "C43_hybrid_refuted",
    "C43_trace_refuted"
   ],
   "note": "The file is exactly the announced bytes: C43_written and C43_layout for every content whose lengths fit their fields. 'Announced' and 'described by the header' coincide if the mask asks for all metadata there is (C43_exact); otherwise the difference is known (C43_size) and not zero in general (C43_padding_refuted). Texts asked for but unset are not counted (C43_unset_strings_refuted, C43_hybrid_refuted). C43_total: what has a form in the file is written."
  },
  {
   "property": "C44",
   "status": "proved",
   "theorems": [
    "C44_roundtrip",
    "C44_identical",
    "C44_size",
    "C44_total",
    "C44_dropped_refuted",
    "C44_bpf_refuted",
    "C44_bpf_count_refuted",
    "C44_other_order_refuted",
    "C44_message_abort_refuted"
   ],
   "note": "For events in the byte order of the machine, attributes with at most one kind of id, zero padding beside the CPU number and BPF metadata without repeated keys; each of these is needed (C44_other_order_refuted, C32_write_back_refuted, C44_bpf_refuted). What the message drops is in C44_dropped_refuted. C44_total: such an event whose sample fields can be read is always made into a message, and comes back; C44_size: the size computed of the message is the size of the event."
  },
  {
   "property": "C45",
   "status": "proved",
   "theorems": [
    "C45_same_build_id",
    "C45_same_build_id_symmetric",
    "C45_deleted_shared_object",
    "C45_versioned_shared_object",
    "C45_plain_shared_object_refuted"
   ],
   "note": ""
  },
  {
   "property": "C46",
   "status": "proved",
   "theorems": [
    "C46_root_path_special",
    "C46_root_path_relative",
    "C46_blanks",
    "C46_trim_whitespace",
    "C46_split_string",
    "C46_split_of_join",
    "C46_root_path_prefix",
    "C46_root_path_two_levels",
    "C46_root_path_one_level",
    "C46_root_path_no_directory"
   ],
   "note": ""
  },
  {
   "property": "C47",
   "status": "proved",
   "theorems": [
    "C47_callstack_frames"
   ],
   "note": ""
  },
  {
   "property": "C48",
   "status": "proved",
   "theorems": [
    "C48_main_executable"
   ],
   "note": ""
  },
  {
   "property": "C49",
   "status": "proved",
   "theorems": [
    "C49_build_id_of_mapping"
   ],
   "note": ""
  },
  {
   "property": "C50",
   "status": "proved",
   "theorems": [
    "C50_stats_count_sources",
    "C50_documented_sum_refuted"
   ],
   "note": "The sum documented in the header is refuted by C50_documented_sum_refuted."
  },
  {
   "property": "C51",
   "status": "proved",
   "theorems": [
    "C51_labels_of_each_sample",
    "C51_absent_is_zero_refuted"
   ],
   "note": "Assumes that profiles are grouped by process or process 0 never execs; C26_exec_of_process_0_refuted shows the claim is false otherwise."
  },
  {
   "property": "C52",
   "status": "proved",
   "theorems": [
    "C52_conversion_succeeds",
    "C52_process_named_lost_refuted",
    "C52_overflow_refuted"
   ],
   "note": "The side conditions are needed: C52_process_named_lost_refuted, C52_overflow_refuted, C26_exec_of_process_0_refuted."
  },
  {
   "property": "C53",
   "status": "proved",
   "theorems": [
    "C53_header_and_mappings",
    "C53_nul_in_event_name_refuted"
   ],
   "note": "Header and mapping table read back through the string table. never_reset excludes an exec of process 0 when profiles are not grouped (see C26). Finding: a NUL in an event name makes its two sample types indistinguishable."
  },
  {
   "property": "C54",
   "status": "proved",
   "theorems": [
    "C54_filenames",
    "C54_build_ids"
   ],
   "note": ""
  },
  {
   "property": "C55",
   "status": "proved",
   "theorems": [
    "C55_events",
    "C55_ksymbol_refuted",
    "C55_cgroup_refuted"
   ],
   "note": "Ksymbol events of the other byte order are excepted: their type is not turned round (C55_ksymbol_refuted). Data of the other byte order with a cgroup event are refused (C55_cgroup_refuted)."
  },
  {
   "property": "C56",
   "status": "proved",
   "theorems": [
    "C56_no_abort",
    "C56_rows",
    "C56_after_unknown",
    "C56_places",
    "C56_latest_mapping",
    "C56_processes_apart",
    "C56_bad_mapping_aborts_refuted",
    "C56_unknown_event_leaves_rest_refuted"
   ],
   "note": "Sorting, huge page deduction and combining of mappings come before and are C36, C30, C31. Filling in build ids of files is not modelled."
  },
  {
   "property": "C57",
   "status": "proved",
   "theorems": [
    "C57_counters",
    "C57_hits",
    "C57_files",
    "C57_keeps_all",
    "C57_discards_unused",
    "C57_discard_unset_counter_refuted"
   ],
   "note": "The result of ProcessEvents (sample threshold) is ignored by ParseRawEvents, as in the code."
  },
  {
   "property": "C58",
   "status": "proved",
   "theorems": [
    "C58_message",
    "C58_back",
    "C58_exact",
    "C58_message_back",
    "C58_stable",
    "C58_samples",
    "C58_frequency_refuted",
    "C58_bits_refuted"
   ],
   "note": "sample_freq of a message is never set and never read (C58_frequency_refuted); bits 30, 31 and 33 have no field (C58_bits_refuted)."
  },
  {
   "property": "C59",
   "status": "proved",
   "theorems": [
    "C59_reread",
    "C59_buffer",
    "C59_events",
    "C59_attr_size_refuted",
    "C59_refused_refuted",
    "C59_build_id_refuted",
    "C59_more_builds_refuted"
   ],
   "note": "C59_reread and C59_buffer for every writable content that meets the named conditions of RereadSpec; C59_events composes with C44 (raw events byte by byte). Each condition is needed: C59_attr_size_refuted, C59_refused_refuted, C59_build_id_refuted, C59_more_builds_refuted."
  },
  {
   "property": "C60",
   "status": "proved",
   "theorems": [
    "C60_safe",
    "C60_complete",
    "C60_commands",
    "C60_safe_refuted",
    "C60_command_refuted",
    "C60_etm_refuted",
    "C60_stat_command_line_refuted"
   ],
   "note": "How perf reads a command line is the spec (OptionSpec.reads). The documentation ('true iff safe') is false: C60_safe_refuted, C60_command_refuted; hence the condition that no value is attached to an option that takes one."
  },
  {
   "property": "C61",
   "status": "proved",
   "theorems": [
    "C61_defined",
    "C61_counts",
    "C61_fields_refuted"
   ],
   "note": "SecondsStringToMillisecondsUint64 (strtod) is an arbitrary function. C61_fields_refuted: what is taken for a count."
  },
  {
   "property": "C62",
   "status": "proved",
   "theorems": [
    "C62_totals",
    "C62_events",
    "C62_mappings",
    "C62_parser_keeps",
    "C62_readable_file_aborts_refuted",
    "C62_unknown_id_refuted"
   ],
   "note": "C62_totals for files without Arm SPE traces (those add samples of their own, C40). C62_events, C62_mappings and C62_parser_keeps say what each stage leaves. Events are made into messages with the attributes known at the end of reading. Not every readable file gives profiles: C62_readable_file_aborts_refuted; one sample of an unknown id makes the file unreadable: C62_unknown_id_refuted."
  },
  {
   "property": "C63",
   "status": "proved",
   "theorems": [
    "C63_profiles",
    "C63_unaligned_overlap_aborts_refuted",
    "C63_jit_option_harmless",
    "C63_jit_option_helps",
    "C63_straddling_map_aborts_refuted",
    "C63_heavy_samples_overflow_refuted"
   ],
   "note": "Composes C62 with the totality results of the stages (C12, C18, C30, C31, C52, C56). That the messages can be made of the records is a premise. The conditions are needed: C63_*_refuted, C62_readable_file_aborts_refuted, C52_*_refuted. Option 4 (unaligned mappings of jitted code) changes no conversion that succeeds without it (C63_jit_option_harmless) and makes others succeed (C63_jit_option_helps)."
  },
  {
   "property": "C64",
   "status": "proved",
   "theorems": [
    "C64_mapping_first_seen",
    "C64_own_mapping",
    "C64_return_address_spills_refuted",
    "C64_reused_pid_refuted"
   ],
   "note": "C64_own_mapping is the consequence for frames whose address was only seen in one mapping since. Not always the own mapping: C64_*_refuted, C28_kernel_remap_stale_refuted."
  },
  {
   "property": "C65",
   "status": "proved",
   "theorems": [
    "C65_every_sample",
    "C65_every_record",
    "C65_mixed_shapes_refuted"
   ],
   "note": "C65_every_sample of a stored proto, C65_every_record of a file. The stack holds always, the labels if all samples (with those of SPE traces and lost samples, which have pid and tid only) have the same of pid, tid, time and cpu: C65_mixed_shapes_refuted. Which mapping each address shows is C64."
  },
  {
   "property": "C66",
   "status": "proved",
   "theorems": [
    "C66_header_and_mappings",
    "C66_given_id_padded_refuted"
   ],
   "note": "Build ids if the caller's names are distinct, without NUL, and the ids hex text (C37_bad_id_refuted). A mapping at 0x400000 without a name can get the name of its process (C20). Lengths of mappings are C62. C66_given_id_padded_refuted: ids of other lengths get zeros."
  },
  {
   "property": "C67",
   "status": "proved",
   "theorems": [
    "C67_lost_samples",
    "C67_lost_records"
   ],
   "note": "At least n, as reports and real samples with the same key share an entry; the exact sum is C23. The number is not bounded: memory for that many deliveries is assumed."
  },
  {
   "property": "C68",
   "status": "proved",
   "theorems": [
    "C68_result",
    "C68_status",
    "C68_output",
    "C68_survives",
    "C68_forwarded",
    "C68_never_starts",
    "C68_never_starts_later",
    "C68_progress",
    "C68_tied",
    "C68_interrupt_lost_refuted",
    "C68_success_unrun_refuted",
    "C68_orphan_refuted",
    "C68_fork_failure_refuted",
    "C68_second_call_refuted",
    "C68_stale_group_refuted"
   ],
   "note": "Processes, pipes and signals are modelled as POSIX says; EINTR is left out as each call is repeated. Six claims one would make are refuted: SIGINT before setpgid of the child is lost, 0 may be returned for a command that never ran, a parent that dies before prctl leaves an orphan, a failed fork leads to undefined behaviour, a second call starts its command with SIGINT ignored, SIGINT can go to a stale process group."
  },
  {
   "property": "C69",
   "status": "proved",
   "theorems": [
    "C69_every_record",
    "C69_every_block",
    "C69_every_trace",
    "C69_later_mappings_refuted"
   ],
   "note": "At least as often as it occurs: records with the same key share an entry; the exact sum is C23. C69_later_mappings_refuted: the record that announces a trace has no time, so mappings with a time do not apply to it and its addresses are shown as 0."
  },
  {
   "property": "C70",
   "status": "proved",
   "theorems": [
    "C70_arguments",
    "C70_only_arguments",
    "C70_perf_data",
    "C70_other_byte_order_refuted",
    "C70_success",
    "C70_no_change",
    "C70_succeeds",
    "C70_stored",
    "C70_sound_recording",
    "C70_no_samples_refuted",
    "C70_full_device_refuted",
    "C70_race_refuted"
   ],
   "note": "protobuf decode says what is used of the protobuf library: it accepts only bytes of the wire format whose event_types are messages, and bytes without known fields are an empty proto. getopt is modelled as glibc's. Four claims one would make are refuted: a file of the other byte order can be taken for a proto, a recording without samples ends the program, a full device goes unnoticed, a file made between check and opening is overwritten."
  },
  {
   "property": "C71",
   "status": "proved",
   "theorems": [
    "C71_file_is_its_bytes",
    "C71_changed_file",
    "C71_file_to_buffer",
    "C71_pipe_refuted",
    "C71_notes",
    "C71_any_notes",
    "C71_elf_note",
    "C71_any_section",
    "C71_section",
    "C71_search",
    "C71_kernel",
    "C71_fill",
    "C71_module_padding_refuted",
    "C71_device_refuted"
   ],
   "note": "libelf is an arbitrary function from bytes to sections; gelf_getnote is modelled from its source. Findings: pipes, padding of module ids, devices with major number 0."
  },
  {
   "property": "C72",
   "status": "proved",
   "theorems": [
    "C72_same",
    "C72_exact",
    "C72_written",
    "C72_empty_cmdline_refuted",
    "C72_attr_bits_refuted",
    "C72_builds_refuted"
   ],
   "note": "The conditions of C59 are derived from the fact that the file was read (RewriteReadProofs, RewriteEventProofs), those of C44 are assumed of the events. Not needed to be the same: the whole command line, which the writer does not use. Findings: C72_empty_cmdline_refuted, C72_attr_bits_refuted, C72_builds_refuted."
  },
  {
   "property": "C73",
   "status": "proved",
   "theorems": [
    "C73_recorded",
    "C73_complete",
    "C73_failed",
    "C73_only_asked",
    "C73_safe",
    "C73_duration_refuted",
    "C73_old_duration_refuted",
    "C73_usage_refuted"
   ],
   "note": "The library for flags is an arbitrary function. Durations of a million seconds or more, and words that are no number in the old form, are refuted."
  },
  {
   "property": "C74",
   "status": "proved",
   "theorems": [
    "C74_formats",
    "C74_converted",
    "C74_success",
    "C74_failed",
    "C74_unknown_format",
    "C74_arguments",
    "C74_unknown_option",
    "C74_full_device_refuted",
    "C74_operand_refuted",
    "C74_option_place_refuted"
   ],
   "note": "Reading, parsing and writing of the contents are arbitrary functions here; C39-C44, C58, C59, C62 and C72 are about them. The loss of the end of the output on a full device is refuted."
  },
  {
   "property": "C75",
   "status": "proved",
   "theorems": [
    "C75_made",
    "C75_not_made",
    "C75_can_be_made",
    "C75_lifetime",
    "C75_gone",
    "C75_nothing_else",
    "C75_refused"
   ],
   "note": "nftw and remove of the C library are modelled from their documentation; all directories can be read and no other process interferes."
  },
  {
   "property": "C76",
   "status": "proved",
   "theorems": [
    "C76_messages",
    "C76_plog_refuted",
    "C76_verbosity_refuted"
   ],
   "note": "The text of messages is left out. PLOG is refuted: it reads a variable without a value."
  },
  {
   "property": "C77",
   "status": "proved",
   "theorems": [
    "C77_stored",
    "C77_not_stored",
    "C77_fetched",
    "C77_file",
    "C77_no_file",
    "C77_written",
    "C77_not_written",
    "C77_made",
    "C77_options",
    "C77_left_out",
    "C77_default_refuted",
    "C77_too_big_refuted"
   ],
   "note": "Reader, parser and the protobuf library's encoding are arbitrary functions; the _refuted theorems give the differing default for sorting, the option missing from the message, and the ignored result of SerializeToString."
  },
  {
   "property": "C78",
   "status": "proved",
   "theorems": [
    "C78_emitted",
    "C78_not_emitted",
    "C78_stored_file",
    "C78_success_file",
    "C78_not_opened",
    "C78_full_device_refuted",
    "C78_url_stored",
    "C78_url_refused",
    "C78_only_urls"
   ],
   "note": "The protobuf library's encoding and compression are an arbitrary function; its FileOutputStream (blocks of 8192 bytes, last block in the destructor) is modelled from its documentation. C78_full_device_refuted gives the success reported on a full device."
  }
 ]
}