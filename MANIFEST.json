{
 "claims": [
  {
   "property": "C01",
   "status": "proved",
   "theorems": [
    "C01_base64_roundtrip"
   ],
   "note": "decode(encode x) = x for every byte list and any chunking of the encoder input."
  },
  {
   "property": "C02",
   "status": "proved",
   "theorems": [
    "C02_base64_is_rfc4648",
    "C02_base64_length",
    "C02_base64_shape"
   ],
   "note": ""
  },
  {
   "property": "C03",
   "status": "proved",
   "theorems": [
    "C03_decode_defined_iff_no_brace",
    "C03_junk_ignored",
    "C03_table_overread_refuted"
   ],
   "note": "Positive under the exact guard, table over-read refuted for bytes >= '{'."
  },
  {
   "property": "C04",
   "status": "proved",
   "theorems": [
    "C04_memory_reads",
    "C04_peek",
    "C04_signed",
    "C04_align",
    "C04_overread_refuted",
    "C04_has_bits"
   ],
   "note": "Values right; memory safety of the 64-bit load is refuted."
  },
  {
   "property": "C05",
   "status": "proved",
   "theorems": [
    "C05_put_get",
    "C05_bytes_written"
   ],
   "note": ""
  },
  {
   "property": "C06",
   "status": "proved",
   "theorems": [
    "C06_little_endian"
   ],
   "note": ""
  },
  {
   "property": "C07",
   "status": "proved",
   "theorems": [
    "C07_paged_reads",
    "C07_exact_page_reads",
    "C07_last_page_refuted",
    "C07_premature_eof_refuted"
   ],
   "note": "Positive theorems under exact guards; two refutations show the code violates the unguarded claim."
  },
  {
   "property": "C08",
   "status": "proved",
   "theorems": [
    "C08_reads_in_order",
    "C08_prefix_delivered",
    "C08_in_order_errors",
    "C08_error_attribution_refuted",
    "C08_lost_error_refuted",
    "C08_mixed_write_refuted"
   ],
   "note": "Order, exactly-once and own result for every permutation of successful reads; refuted for failing out-of-order reads and for reads mixed with writes."
  },
  {
   "property": "C09",
   "status": "proved",
   "theorems": [
    "C09_no_early_return",
    "C09_wait_after_signal",
    "C09_sleeper_released",
    "C09_lost_wakeup_iff",
    "C09_lost_wakeup_refuted",
    "C09_second_waiter_refuted"
   ],
   "note": "Safety for any number of threads; exact characterisation of the lost wake-up for one waiter and one signaller; refutations."
  },
  {
   "property": "C10",
   "status": "proved",
   "theorems": [
    "C10_exactly_once",
    "C10_chain",
    "C10_late_forward_refuted",
    "C10_error_twice_refuted"
   ],
   "note": ""
  },
  {
   "property": "C11",
   "status": "proved",
   "theorems": [
    "C11_buffer_history",
    "C11_append_concat",
    "C11_prepare",
    "C11_self_append_refuted"
   ],
   "note": "Self append refuted (use after free)."
  },
  {
   "property": "C12",
   "status": "proved",
   "theorems": [
    "C12_handles",
    "C12_self_assignment",
    "C12_self_assign_refuted",
    "C12_concurrent_release_refuted",
    "C12_double_free_refuted"
   ],
   "note": "Single-threaded histories; self-assignment exact; concurrent release refuted."
  },
  {
   "property": "C13",
   "status": "proved",
   "theorems": [
    "C13_split_join",
    "C13_replace",
    "C13_empty_separator_refuted"
   ],
   "note": "Empty separator refuted (never terminates)."
  },
  {
   "property": "C14",
   "status": "proved",
   "theorems": [
    "C14_hex_roundtrip"
   ],
   "note": ""
  },
  {
   "property": "C15",
   "status": "proved",
   "theorems": [
    "C15_recognised",
    "C15_process",
    "C15_flag",
    "C15_memory_safe",
    "C15_equal_colon_refuted"
   ],
   "note": "Single-letter dispatch (Cmdline.process) is not modelled; '=' value containing ':' refuted."
  },
  {
   "property": "C16",
   "status": "proved",
   "theorems": [
    "C16_text_value",
    "C16_text_injective",
    "C16_negative",
    "C16_int64_min_refuted",
    "C16_components"
   ],
   "note": "The smallest int64 is refuted."
  },
  {
   "property": "C17",
   "status": "proved",
   "theorems": [
    "C17_crc_spec",
    "C17_start_and_chunks",
    "C17_residue",
    "C17_burst_detected",
    "C17_concurrent_init_refuted"
   ],
   "note": "Concurrent first use of the table refuted."
  },
  {
   "property": "C18",
   "status": "proved",
   "theorems": [
    "C18_fifo",
    "C18_drops_minimal",
    "C18_accepted_iff_room",
    "C18_growing_lossless",
    "C18_growing_progress",
    "C18_hopeless_push_keeps_items_refuted"
   ],
   "note": "Operations are atomic (the queue's lock). grow_queue's second allocation attempt is taken as failed."
  },
  {
   "property": "C19",
   "status": "proved",
   "theorems": [
    "C19_inside_and_disjoint",
    "C19_huge_block_refuted"
   ],
   "note": "Blocks of 2 GB and more refuted."
  },
  {
   "property": "C20",
   "status": "proved",
   "theorems": [
    "C20_pes_stamps",
    "C20_no_wrap",
    "C20_clock_exact",
    "C20_pcr_near",
    "C20_pcr_exact_refuted"
   ],
   "note": "Exact values; last-unit exactness with extension refuted."
  },
  {
   "property": "C21",
   "status": "proved",
   "theorems": [
    "C21_packets",
    "C21_read_back",
    "C21_overread_refuted"
   ],
   "note": "Sizes 181/175 (with random access) refuted: over-read."
  },
  {
   "property": "C22",
   "status": "proved",
   "theorems": [
    "C22_pat_written",
    "C22_pmt_written",
    "C22_section_length",
    "C22_pat_read",
    "C22_pmt_read",
    "C22_pat_round_trip",
    "C22_pmt_round_trip",
    "C22_split_tail_refuted",
    "C22_43_programs_refuted",
    "C22_bad_crc_refuted",
    "C22_type_lookup",
    "C22_h264_refuted"
   ],
   "note": "Split tail, unchecked CRC, H.264 type refuted."
  },
  {
   "property": "C23",
   "status": "proved",
   "theorems": [
    "C23_length",
    "C23_gap_refuted"
   ],
   "note": "Gap 65536-total refuted."
  },
  {
   "property": "C24",
   "status": "proved",
   "theorems": [
    "C24_reassembly",
    "C24_write_read",
    "C24_mixed_refuted",
    "C24_duplicate_refuted"
   ],
   "note": "One PID; mixed lengths and empty packets refuted."
  },
  {
   "property": "C25",
   "status": "proved",
   "theorems": [
    "C25_decode",
    "C25_final_3_refuted",
    "C25_fits",
    "C25_in_place"
   ],
   "note": "Final 3 refuted."
  },
  {
   "property": "C26",
   "status": "proved",
   "theorems": [
    "C26_not_before_end",
    "C26_same_shift",
    "C26_least"
   ],
   "note": "No shift smaller than the computed one."
  },
  {
   "property": "C27",
   "status": "proved",
   "theorems": [
    "C27_timeline"
   ],
   "note": "Gaps and overlaps included."
  },
  {
   "property": "C28",
   "status": "proved",
   "theorems": [
    "C28_seconds",
    "C28_fraction_refuted"
   ],
   "note": "Whole seconds proved; the fraction is refuted, with the exact condition."
  },
  {
   "property": "C29",
   "status": "proved",
   "theorems": [
    "C29_playlist",
    "C29_target",
    "C29_target_refuted",
    "C29_extinf_refuted",
    "C29_two_videos_refuted",
    "C29_unclosed_refuted"
   ],
   "note": "Four refuted sub-claims."
  },
  {
   "property": "C30",
   "status": "proved",
   "theorems": [
    "C30_roundtrip",
    "C30_iv",
    "C30_size",
    "C30_large_refuted"
   ],
   "note": "Any block cipher with an inverse; refuted from 4 GiB on."
  },
  {
   "property": "C31",
   "status": "proved",
   "theorems": [
    "C31_segments",
    "C31_manifests",
    "C31_count_refuted",
    "C31_empty_refuted",
    "C31_rebase",
    "C31_rebase_all",
    "C31_rebase_cross_refuted"
   ],
   "note": "Three refuted sub-claims."
  },
  {
   "property": "C32",
   "status": "proved",
   "theorems": [
    "C32_closest",
    "C32_single_refuted",
    "C32_end",
    "C32_end_before_cross_refuted",
    "C32_path"
   ],
   "note": "Two refuted sub-claims."
  },
  {
   "property": "C33",
   "status": "proved",
   "theorems": [
    "C33_video",
    "C33_tolerance_refuted",
    "C33_audio",
    "C33_audio_short_refuted",
    "C33_two_audio_refuted",
    "C33_audio_hang_refuted",
    "C33_composition_end_refuted",
    "C33_stream_end",
    "C33_stream_end_refuted"
   ],
   "note": "Six refuted sub-claims."
  },
  {
   "property": "C34",
   "status": "proved",
   "theorems": [
    "C34_round_trip",
    "C34_same_size_refuted",
    "C34_single_sample_refuted",
    "C34_empty"
   ],
   "note": "Equal sizes and single sample refuted."
  },
  {
   "property": "C35",
   "status": "proved",
   "theorems": [
    "C35_double_conversion",
    "C35_decoding",
    "C35_no_drift",
    "C35_drift_refuted",
    "C35_exact_refuted",
    "C35_composition",
    "C35_composition_left_out",
    "C35_single_refuted",
    "C35_empty"
   ],
   "note": "Drift, exact ticks, early presentation and single sample refuted. Doubles modelled with Flocq: the axioms of the real numbers are used (listed in DESIGN.md)."
  },
  {
   "property": "C36",
   "status": "proved",
   "theorems": [
    "C36_key_frames",
    "C36_search",
    "C36_none_refuted"
   ],
   "note": "No key frames refuted."
  },
  {
   "property": "C37",
   "status": "proved",
   "theorems": [
    "C37_valid",
    "C37_same_end",
    "C37_in_order",
    "C37_strict_refuted",
    "C37_together_refuted"
   ],
   "note": "Strictness and equal times refuted."
  },
  {
   "property": "C38",
   "status": "proved",
   "theorems": [
    "C38_kept",
    "C38_place",
    "C38_ends",
    "C38_progress",
    "C38_single",
    "C38_lost_refuted"
   ],
   "note": "Loss of the samples waiting at the end refuted."
  },
  {
   "property": "C39",
   "status": "proved",
   "theorems": [
    "C39_written",
    "C39_boxes",
    "C39_read",
    "C39_uuid_end_refuted",
    "C39_large_read_refuted",
    "C39_large_written_refuted"
   ],
   "note": "End of uuid boxes and boxes of 64-bit sizes refuted."
  },
  {
   "property": "C40",
   "status": "proved",
   "theorems": [
    "C40_counter",
    "C40_block_counter",
    "C40_decrypt",
    "C40_standard",
    "C40_clear",
    "C40_no_reuse"
   ],
   "note": ""
  },
  {
   "property": "C41",
   "status": "proved",
   "theorems": [
    "C41_roundtrip",
    "C41_exact",
    "C41_index",
    "C41_offsets",
    "C41_index_time_refuted",
    "C41_clear_after_encrypted_refuted",
    "C41_no_sample_refuted"
   ],
   "note": "Time scale rounding is a parameter of the theorem (any function)."
  },
  {
   "property": "C42",
   "status": "proved",
   "theorems": [
    "C42_sync",
    "C42_complete",
    "C42_no_overlap",
    "C42_not_before",
    "C42_single_sample_refuted",
    "C42_missing_stream_refuted",
    "C42_decoded_late_refuted",
    "C42_short_refuted",
    "C42_late_refuted"
   ],
   "note": "Five refuted sub-claims."
  },
  {
   "property": "C43",
   "status": "proved",
   "theorems": [
    "C43_lookup",
    "C43_empty_refuted"
   ],
   "note": "Empty table refuted."
  },
  {
   "property": "C44",
   "status": "proved",
   "theorems": [
    "C44_block_read",
    "C44_block_read_refuted"
   ],
   "note": "Exact outcome for every case, with the refuted case."
  },
  {
   "property": "C45",
   "status": "proved",
   "theorems": [
    "C45_value_semantics",
    "C45_reference_semantics",
    "C45_copy_aliases_refuted",
    "C45_self_append_refuted"
   ],
   "note": ""
  },
  {
   "property": "C46",
   "status": "proved",
   "theorems": [
    "C46_substring",
    "C46_substring_refuted"
   ],
   "note": "Exact outcome; over-long request from a non-zero offset refuted."
  },
  {
   "property": "C47",
   "status": "proved",
   "theorems": [
    "C47_read_packet",
    "C47_pcr_round_trip",
    "C47_private_data_refuted"
   ],
   "note": "Adaptation fields without private data/extension; private data refuted."
  },
  {
   "property": "C48",
   "status": "proved",
   "theorems": [
    "C48_in_bounds",
    "C48_damaged_refuted"
   ],
   "note": "Guarded; damaged packet refuted."
  },
  {
   "property": "C49",
   "status": "proved",
   "theorems": [
    "C49_fill",
    "C49_repeats_refuted"
   ],
   "note": "Repeated delivery refuted."
  },
  {
   "property": "C50",
   "status": "proved",
   "theorems": [
    "C50_codec_refuted"
   ],
   "note": "Refuted for the constraint byte, exact condition."
  },
  {
   "property": "C51",
   "status": "proved",
   "theorems": [
    "C51_by_decoding_time",
    "C51_reported_time_refuted",
    "C51_by_composition_time",
    "C51_by_presentation_refuted"
   ],
   "note": "After the end, reported times and presentation search refuted."
  },
  {
   "property": "C52",
   "status": "proved",
   "theorems": [
    "C52_exact",
    "C52_sync",
    "C52_sync_refuted",
    "C52_causal",
    "C52_edit_list",
    "C52_long_offset_refuted",
    "C52_last_sample_refuted",
    "C52_empty_refuted"
   ],
   "note": ""
  },
  {
   "property": "C53",
   "status": "proved",
   "theorems": [
    "C53_complete",
    "C53_file_order",
    "C53_inside",
    "C53_damaged_refuted"
   ],
   "note": ""
  },
  {
   "property": "C54",
   "status": "proved",
   "theorems": [
    "C54_audio",
    "C54_audio_partition",
    "C54_video",
    "C54_open_gop_refuted",
    "C54_next_gop_refuted",
    "C54_base_time",
    "C54_shift_refuted"
   ],
   "note": ""
  },
  {
   "property": "C55",
   "status": "proved",
   "theorems": [
    "C55_video",
    "C55_same",
    "C55_start_codes",
    "C55_payload_refuted",
    "C55_first_refuted",
    "C55_length_refuted",
    "C55_end_to_end"
   ],
   "note": ""
  },
  {
   "property": "C56",
   "status": "proved",
   "theorems": [
    "C56_audio",
    "C56_read",
    "C56_object_refuted",
    "C56_long_refuted",
    "C56_short_refuted",
    "C56_time"
   ],
   "note": ""
  },
  {
   "property": "C57",
   "status": "proved",
   "theorems": [
    "C57_all",
    "C57_keys",
    "C57_to_the_end",
    "C57_isolated",
    "C57_written",
    "C57_last_open_refuted",
    "C57_after_open_refuted",
    "C57_all_open_refuted",
    "C57_small_refuted"
   ],
   "note": ""
  },
  {
   "property": "C58",
   "status": "proved",
   "theorems": [
    "C58_video",
    "C58_audio",
    "C58_large",
    "C58_last_large_refuted",
    "C58_large_keys_refuted",
    "C58_gap_refuted",
    "C58_hls_video",
    "C58_hls_audio",
    "C58_hls_unset",
    "C58_hls_wrap_refuted"
   ],
   "note": "key flags are claimed only where all pictures of the stream are below 65535 bytes; the wrong cases are proved as _refuted theorems"
  },
  {
   "property": "C59",
   "status": "proved",
   "theorems": [
    "C59_segment",
    "C59_segments"
   ],
   "note": ""
  },
  {
   "property": "C60",
   "status": "proved",
   "theorems": [
    "C60_references",
    "C60_announced",
    "C60_audio_only_refuted"
   ],
   "note": ""
  },
  {
   "property": "C61",
   "status": "proved",
   "theorems": [
    "C61_read_back",
    "C61_video_setting",
    "C61_audio_setting",
    "C61_same_size_refuted",
    "C61_rate_refuted",
    "C61_earlier_refuted"
   ],
   "note": ""
  },
  {
   "property": "C62",
   "status": "proved",
   "theorems": [
    "C62_ue",
    "C62_se",
    "C62_sps",
    "C62_pps",
    "C62_long_code_refuted",
    "C62_signed_refuted",
    "C62_profile_refuted",
    "C62_matrix_refuted",
    "C62_final_3_refuted",
    "C62_assigned_refuted"
   ],
   "note": ""
  },
  {
   "property": "C63",
   "status": "proved",
   "theorems": [
    "C63_record",
    "C63_layout",
    "C63_size",
    "C63_read",
    "C63_size_refuted",
    "C63_compat_refuted",
    "C63_several_refuted",
    "C63_long_refuted",
    "C63_private_data"
   ],
   "note": ""
  },
  {
   "property": "C64",
   "status": "proved",
   "theorems": [
    "C64_layout",
    "C64_read",
    "C64_read_back",
    "C64_private",
    "C64_channels_refuted",
    "C64_frequency_refuted",
    "C64_object_refuted",
    "C64_no_sl_refuted",
    "C64_no_info_refuted",
    "C64_private_refuted"
   ],
   "note": ""
  },
  {
   "property": "C65",
   "status": "proved",
   "theorems": [
    "C65_memory",
    "C65_file",
    "C65_file_bytes",
    "C65_unaligned_refuted",
    "C65_skip_refuted",
    "C65_outstanding_refuted"
   ],
   "note": ""
  },
  {
   "property": "C66",
   "status": "proved",
   "theorems": [
    "C66_memory",
    "C66_file",
    "C66_file_any_order",
    "C66_race_refuted",
    "C66_unaligned_refuted"
   ],
   "note": ""
  },
  {
   "property": "C67",
   "status": "proved",
   "theorems": [
    "C67_demux"
   ],
   "note": ""
  },
  {
   "property": "C68",
   "status": "proved",
   "theorems": [
    "C68_ends",
    "C68_forever",
    "C68_size_zero_refuted",
    "C68_cut_refuted"
   ],
   "note": ""
  },
  {
   "property": "C69",
   "status": "proved",
   "theorems": [
    "C69_kid_text",
    "C69_playready_header",
    "C69_playready_object",
    "C69_playready_object_refuted",
    "C69_playready_descriptor",
    "C69_clearkey",
    "C69_widevine",
    "C69_all_systems",
    "C69_pssh_back",
    "C69_pssh_kids_refuted",
    "C69_json_key",
    "C69_json_key_refuted"
   ],
   "note": ""
  },
  {
   "property": "C70",
   "status": "proved",
   "theorems": [
    "C70_spaced",
    "C70_never_behind",
    "C70_first",
    "C70_other_streams",
    "C70_decoding",
    "C70_regular",
    "C70_jitter",
    "C70_gap_refuted",
    "C70_gap_double_refuted",
    "C70_back_refuted"
   ],
   "note": ""
  },
  {
   "property": "C71",
   "status": "proved",
   "theorems": [
    "C71_counting",
    "C71_packed",
    "C71_words",
    "C71_of_time",
    "C71_of_time_refuted",
    "C71_sum",
    "C71_rate_refuted",
    "C71_next",
    "C71_later",
    "C71_difference",
    "C71_borrow_refuted",
    "C71_difference_long32",
    "C71_long32_refuted"
   ],
   "note": ""
  },
  {
   "property": "C72",
   "status": "proved",
   "theorems": [
    "C72_received",
    "C72_sync",
    "C72_false_sync_refuted"
   ],
   "note": ""
  },
  {
   "property": "C73",
   "status": "proved",
   "theorems": [
    "C73_record",
    "C73_unbroken",
    "C73_answer",
    "C73_midnight_refuted",
    "C73_break_refuted",
    "C73_rate_refuted"
   ],
   "note": ""
  },
  {
   "property": "C74",
   "status": "proved",
   "theorems": [
    "C74_composed",
    "C74_plain",
    "C74_mean",
    "C74_constant",
    "C74_wrap_refuted",
    "C74_bit_rate",
    "C74_bit_rate_refuted",
    "C74_decoding_end_refuted",
    "C74_decoding_end_plus_refuted"
   ],
   "note": ""
  },
  {
   "property": "C75",
   "status": "proved",
   "theorems": [
    "C75_resolves",
    "C75_declared",
    "C75_listed",
    "C75_ids",
    "C75_size",
    "C75_gap_refuted",
    "C75_audio_ids_refuted",
    "C75_size_refuted",
    "C75_rate_refuted"
   ],
   "note": ""
  },
  {
   "property": "C76",
   "status": "proved",
   "theorems": [
    "C76_resolves",
    "C76_declared",
    "C76_main",
    "C76_iv_refuted",
    "C76_audio_refuted",
    "C76_two_videos_refuted"
   ],
   "note": ""
  },
  {
   "property": "C77",
   "status": "proved",
   "theorems": [
    "C77_calendar",
    "C77_utc_text",
    "C77_torn_refuted",
    "C77_local_text",
    "C77_local_refuted",
    "C77_elapsed",
    "C77_add",
    "C77_elapsed_refuted",
    "C77_dates_refuted",
    "C77_creation_refuted",
    "C77_of_text",
    "C77_of_text_refuted"
   ],
   "note": ""
  },
  {
   "property": "C78",
   "status": "proved",
   "theorems": [
    "C78_resolves",
    "C78_levels",
    "C78_private",
    "C78_private_inj",
    "C78_sources",
    "C78_duration",
    "C78_chunks_refuted",
    "C78_index_refuted",
    "C78_cross_refuted",
    "C78_quote_refuted",
    "C78_short_refuted"
   ],
   "note": ""
  },
  {
   "property": "C79",
   "status": "proved",
   "theorems": [
    "C79_source",
    "C79_rates",
    "C79_publishable",
    "C79_unknown",
    "C79_audio_refuted",
    "C79_missing_refuted",
    "C79_same_rate_refuted",
    "C79_empty_refuted",
    "C79_last_refuted"
   ],
   "note": "Five of the theorems are refutations: cases where the code breaks the claim."
  },
  {
   "property": "C80",
   "status": "proved",
   "theorems": [
    "C80_groups",
    "C80_one_file",
    "C80_base",
    "C80_before_cross_refuted",
    "C80_cross_refuted",
    "C80_twice_refuted"
   ],
   "note": "Three of the theorems are refutations: cases where the code breaks the claim."
  },
  {
   "property": "C81",
   "status": "proved",
   "theorems": [
    "C81_copied",
    "C81_bounded",
    "C81_ends",
    "C81_steps",
    "C81_early_refuted",
    "C81_timeout_refuted",
    "C81_to_refuted",
    "C81_from_refuted"
   ],
   "note": "Four of the theorems are refutations: cases where the code breaks the claim. Storage errors are not modelled."
  },
  {
   "property": "C82",
   "status": "proved",
   "theorems": [
    "C82_samples",
    "C82_times",
    "C82_bodies",
    "C82_description",
    "C82_seconds_refuted",
    "C82_two_streams_refuted",
    "C82_fourth_refuted",
    "C82_key_frames_refuted"
   ],
   "note": "Four of the theorems are refutations: cases where the code breaks the claim. What the writer makes of the samples is C38, C61."
  },
  {
   "property": "C83",
   "status": "proved",
   "theorems": [
    "C83_layout",
    "C83_read",
    "C83_private_video",
    "C83_private_audio",
    "C83_duration_refuted"
   ],
   "note": "C83_duration_refuted is a refutation: a case where the code breaks the claim."
  },
  {
   "property": "C84",
   "status": "proved",
   "theorems": [
    "C84_sample",
    "C84_header",
    "C84_timing",
    "C84_coded",
    "C84_offset_refuted",
    "C84_hrd_refuted",
    "C84_type_refuted",
    "C84_default_refuted",
    "C84_field_refuted",
    "C84_colour_refuted",
    "C84_length_refuted",
    "C84_second_refuted"
   ],
   "note": "The theorems named _refuted are refutations: cases where the code breaks the claim."
  },
  {
   "property": "C85",
   "status": "proved",
   "theorems": [
    "C85_listing",
    "C85_complete",
    "C85_twice_refuted",
    "C85_stops_refuted",
    "C85_no_table_refuted"
   ],
   "note": "The theorems named _refuted are refutations: cases where the code breaks the claim."
  },
  {
   "property": "C86",
   "status": "proved",
   "theorems": [
    "C86_silent",
    "C86_reports",
    "C86_streams",
    "C86_files",
    "C86_start_refuted",
    "C86_end_refuted",
    "C86_join_refuted",
    "C86_twice_refuted",
    "C86_empty_refuted",
    "C86_streams_refuted"
   ],
   "note": "The theorems named _refuted are refutations: cases where the code breaks the claim."
  },
  {
   "property": "C87",
   "status": "proved",
   "theorems": [
    "C87_all",
    "C87_whole",
    "C87_one",
    "C87_order",
    "C87_lost_refuted",
    "C87_distance",
    "C87_simul_times",
    "C87_simul_default",
    "C87_simul_extra_refuted",
    "C87_totals",
    "C87_same",
    "C87_low_refuted",
    "C87_twice_refuted"
   ],
   "note": "The theorems named _refuted are refutations: cases where the code breaks the claim."
  },
  {
   "property": "C88",
   "status": "proved",
   "theorems": [
    "C88_written",
    "C88_created",
    "C88_disjoint",
    "C88_twice_refuted",
    "C88_short_refuted",
    "C88_size",
    "C88_size_refuted",
    "C88_read",
    "C88_read_inside",
    "C88_grown_refuted",
    "C88_again_refuted"
   ],
   "note": "The theorems named _refuted are refutations: cases where the code breaks the claim."
  },
  {
   "property": "C89",
   "status": "proved",
   "theorems": [
    "C89_values",
    "C89_clips",
    "C89_ts_clips",
    "C89_refused",
    "C89_ts_output",
    "C89_switch",
    "C89_no_number",
    "C89_declared",
    "C89_letters",
    "C89_no_output_refuted",
    "C89_video_scale_refuted",
    "C89_bare_refuted",
    "C89_ctts_refuted",
    "C89_bad_time_refuted",
    "C89_garbage_refuted",
    "C89_help_refuted",
    "C89_zero_refuted"
   ],
   "note": "The theorems named _refuted are refutations: cases where the code breaks the claim."
  },
  {
   "property": "C90",
   "status": "proved",
   "theorems": [
    "C90_rows",
    "C90_looked_up",
    "C90_record",
    "C90_none",
    "C90_in_force_refuted",
    "C90_after_refuted",
    "C90_offset_refuted",
    "C90_no_end_refuted"
   ],
   "note": "The theorems named _refuted are refutations: cases where the code breaks the claim."
  },
  {
   "property": "C91",
   "status": "proved",
   "theorems": [
    "C91_reads",
    "C91_end_refuted",
    "C91_moved",
    "C91_moved_far_refuted",
    "C91_writes",
    "C91_size_refuted",
    "C91_patched",
    "C91_encrypted",
    "C91_empty",
    "C91_large_refuted"
   ],
   "note": "The theorems named _refuted are refutations: cases where the code breaks the claim."
  },
  {
   "property": "C92",
   "status": "proved",
   "theorems": [
    "C92_read",
    "C92_letters",
    "C92_base_refuted",
    "C92_two_runs_refuted",
    "C92_trex_refuted"
   ],
   "note": "The theorems named _refuted are refutations: cases where the code breaks the claim. Encrypted fragments are C41's."
  },
  {
   "property": "C93",
   "status": "proved",
   "theorems": [
    "C93_read",
    "C93_sample",
    "C93_long_vectors_refuted"
   ],
   "note": "The theorem named _refuted is a refutation: a case where the code breaks the claim. The block cipher is any function from blocks to blocks of 16 bytes; the library's counter mode is modelled for whole blocks, so protected parts in the middle are multiples of 16 bytes."
  },
  {
   "property": "C94",
   "status": "proved",
   "theorems": [
    "C94_clear",
    "C94_encrypted",
    "C94_file_clear",
    "C94_file_encrypted"
   ],
   "note": "The content of the sidx is in C41_index, the offset in the saio in C41_offsets."
  }
 ]
}