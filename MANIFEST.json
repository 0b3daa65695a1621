{
 "claims": [
  {
   "property": "C01",
   "status": "proved",
   "theorems": [
    "c01_hamming_distance_exact",
    "c01_hamming_distance_bytes",
    "c01_hamming_distance_ints",
    "c01_hamming_distance_errors",
    "c01_hamming_distance_metric"
   ],
   "note": ""
  },
  {
   "property": "C02",
   "status": "proved",
   "theorems": [
    "c02_frame_header_accepts",
    "c02_frame_header_rejects",
    "c02_frame_header_accessors"
   ],
   "note": ""
  },
  {
   "property": "C03",
   "status": "proved",
   "theorems": [
    "c03_is_valid_header_exact",
    "c03_constructed_round_trip",
    "c03_from_buffer_round_trip",
    "c03_from_buffer_exact",
    "c03_header_length",
    "c03_header_hamming_distance"
   ],
   "note": ""
  },
  {
   "property": "C04",
   "status": "proved",
   "theorems": [
    "c04_nearest_header"
   ],
   "note": ""
  },
  {
   "property": "C05",
   "status": "proved",
   "theorems": [
    "c05_nearest_header_max_len",
    "c05_nearest_header_max_len_stop",
    "c05_nearest_header_max_len_refuted"
   ],
   "note": ""
  },
  {
   "property": "C06",
   "status": "proved",
   "theorems": [
    "c06_dialect_lengths",
    "c06_dialect_ids_distinct",
    "c06_payload_length_exact",
    "c06_msgs_fields_wire_order",
    "c06_dialect_lengths_refuted"
   ],
   "note": ""
  },
  {
   "property": "C07",
   "status": "proved",
   "theorems": [
    "c07_crc_is_reference",
    "c07_crc_incremental",
    "c07_crc_affine",
    "c07_crc_range"
   ],
   "note": ""
  },
  {
   "property": "C08",
   "status": "proved",
   "theorems": [
    "c08_decode_v1",
    "c08_decode_v2",
    "c08_decode_errors"
   ],
   "note": ""
  },
  {
   "property": "C09",
   "status": "proved",
   "theorems": [
    "c09_pack_decode",
    "c09_pack_needs_bytes"
   ],
   "note": ""
  },
  {
   "property": "C10",
   "status": "proved",
   "theorems": [
    "c10_single_bit",
    "c10_single_bit_refuted",
    "c10_packed_single_bit",
    "c10_odd",
    "c10_two",
    "c10_burst",
    "c10_length_byte"
   ],
   "note": ""
  },
  {
   "property": "C11",
   "status": "proved",
   "theorems": [
    "c11_segmentation",
    "c11_exceptions",
    "c11_mavlink_total",
    "c11_mavlink",
    "c11_mavlink_inside"
   ],
   "note": ""
  },
  {
   "property": "C12",
   "status": "proved",
   "theorems": [
    "c12_unique",
    "c12_complete"
   ],
   "note": ""
  },
  {
   "property": "C13",
   "status": "proved",
   "theorems": [
    "c13_parts"
   ],
   "note": ""
  },
  {
   "property": "C14",
   "status": "proved",
   "theorems": [
    "c14_stream",
    "c14_send"
   ],
   "note": ""
  },
  {
   "property": "C15",
   "status": "proved",
   "theorems": [
    "c15_resync",
    "c15_junk_without_marker"
   ],
   "note": ""
  },
  {
   "property": "C16",
   "status": "proved",
   "theorems": [
    "c16_arrays_never_found"
   ],
   "note": ""
  },
  {
   "property": "C17",
   "status": "proved",
   "theorems": [
    "c17_bad_buffer_idx",
    "c17_every_unknown_byte"
   ],
   "note": ""
  },
  {
   "property": "C18",
   "status": "proved",
   "theorems": [
    "c18_bad_buffer_parts",
    "c18_empty"
   ],
   "note": ""
  },
  {
   "property": "C19",
   "status": "proved",
   "theorems": [
    "c19_register",
    "c19_register_fails",
    "c19_history",
    "c19_equality"
   ],
   "note": ""
  },
  {
   "property": "C20",
   "status": "proved",
   "theorems": [
    "c20_num2bits_integers",
    "c20_rounding_total",
    "c20_num2bits_float",
    "c20_num2bits_char_refuted",
    "c20_num2bits_no_number"
   ],
   "note": ""
  },
  {
   "property": "C21",
   "status": "proved",
   "theorems": [
    "c21_window",
    "c21_types",
    "c21_zero_window_refuted",
    "c21_negative_window_refuted"
   ],
   "note": ""
  },
  {
   "property": "C22",
   "status": "proved",
   "theorems": [
    "c22_statistics",
    "c22_no_samples",
    "c22_bad_sample",
    "c22_cases",
    "c22_negative_window_refuted"
   ],
   "note": ""
  },
  {
   "property": "C23",
   "status": "proved",
   "theorems": [
    "c23_classify",
    "c23_no_samples"
   ],
   "note": ""
  },
  {
   "property": "C24",
   "status": "proved",
   "theorems": [
    "c24_history",
    "c24_add_buffer",
    "c24_one_structure",
    "c24_shared_names_refuted"
   ],
   "note": ""
  },
  {
   "property": "C25",
   "status": "proved",
   "theorems": [
    "c25_unpack_structure",
    "c25_owner_disjoint",
    "c25_unpack_structure_errors",
    "c25_names_only"
   ],
   "note": ""
  },
  {
   "property": "C26",
   "status": "proved",
   "theorems": [
    "c26_unpack_values",
    "c26_bits_agree",
    "c26_unpack_values_errors"
   ],
   "note": ""
  },
  {
   "property": "C27",
   "status": "proved",
   "theorems": [
    "c27_predict",
    "c27_predict_rejects"
   ],
   "note": ""
  },
  {
   "property": "C28",
   "status": "proved",
   "theorems": [
    "c28_find_damaged_fields"
   ],
   "note": ""
  },
  {
   "property": "C29",
   "status": "proved",
   "theorems": [
    "c29_mean",
    "c29_equal_samples"
   ],
   "note": ""
  },
  {
   "property": "C30",
   "status": "proved",
   "theorems": [
    "c30_save_load",
    "c30_save_works",
    "c30_foreign_description_refuted"
   ],
   "note": ""
  },
  {
   "property": "C31",
   "status": "proved",
   "theorems": [
    "c31_vector",
    "c31_matrix",
    "c31_distribution",
    "c31_errors",
    "c31_prob"
   ],
   "note": ""
  },
  {
   "property": "C32",
   "status": "proved",
   "theorems": [
    "c32_value",
    "c32_matrix",
    "c32_bounds"
   ],
   "note": ""
  },
  {
   "property": "C33",
   "status": "proved",
   "theorems": [
    "c33_errors",
    "c33_value",
    "c33_order",
    "c33_upper_bound",
    "c33_lower_bound",
    "c33_lower_bound_refuted"
   ],
   "note": ""
  },
  {
   "property": "C34",
   "status": "proved",
   "theorems": [
    "c34_value",
    "c34_matrix",
    "c34_metric",
    "c34_triangle",
    "c34_errors"
   ],
   "note": ""
  },
  {
   "property": "C35",
   "status": "proved",
   "theorems": [
    "c35_signed",
    "c35_uint8",
    "c35_uint8_refuted",
    "c35_length"
   ],
   "note": ""
  },
  {
   "property": "C36",
   "status": "proved",
   "theorems": [
    "c36_training",
    "c36_log_likelihood",
    "c36_hamming",
    "c36_no_training",
    "c36_constant_training_refuted"
   ],
   "note": ""
  },
  {
   "property": "C37",
   "status": "proved",
   "theorems": [
    "c37_members",
    "c37_merging",
    "c37_members_refuted"
   ],
   "note": ""
  },
  {
   "property": "C38",
   "status": "proved",
   "theorems": [
    "c38_hard_bits",
    "c38_majority_refuted"
   ],
   "note": ""
  },
  {
   "property": "C39",
   "status": "proved",
   "theorems": [
    "c39_contexts",
    "c39_first",
    "c39_refused",
    "c39_initial_context",
    "c39_sequence",
    "c39_no_context",
    "c39_contexts_refuted"
   ],
   "note": ""
  },
  {
   "property": "C40",
   "status": "proved",
   "theorems": [
    "c40_least_loss",
    "c40_threshold"
   ],
   "note": ""
  },
  {
   "property": "C41",
   "status": "proved",
   "theorems": [
    "c41_probabilities",
    "c41_total_refuted"
   ],
   "note": ""
  },
  {
   "property": "C42",
   "status": "proved",
   "theorems": [
    "c42_borders",
    "c42_outside",
    "c42_negative",
    "c42_hard",
    "c42_soft",
    "c42_denoise_sample_refuted"
   ],
   "note": ""
  },
  {
   "property": "C43",
   "status": "proved",
   "theorems": [
    "c43_window",
    "c43_update"
   ],
   "note": ""
  },
  {
   "property": "C44",
   "status": "proved",
   "theorems": [
    "c44_estimates",
    "c44_prediction",
    "c44_direction",
    "c44_other_length",
    "c44_denoise_soft",
    "c44_denoise_hard",
    "c44_sequence",
    "c44_no_model"
   ],
   "note": ""
  },
  {
   "property": "C45",
   "status": "proved",
   "theorems": [
    "c45_confidence"
   ],
   "note": ""
  },
  {
   "property": "C46",
   "status": "proved",
   "theorems": [
    "c46_fit",
    "c46_no_components",
    "c46_monotone",
    "c46_fit_monotone",
    "c46_predict"
   ],
   "note": ""
  },
  {
   "property": "C47",
   "status": "proved",
   "theorems": [
    "c47_model_bits",
    "c47_recovered",
    "c47_decode",
    "c47_no_answer",
    "c47_history",
    "c47_given",
    "c47_wrong_length_refuted"
   ],
   "note": ""
  },
  {
   "property": "C48",
   "status": "proved",
   "theorems": [
    "c48_learned",
    "c48_given",
    "c48_empty",
    "c48_effect",
    "c48_direction_refuted",
    "c48_short_model_refuted"
   ],
   "note": ""
  },
  {
   "property": "C49",
   "status": "proved",
   "theorems": [
    "c49_construct",
    "c49_isolated",
    "c49_labels",
    "c49_training",
    "c49_history",
    "c49_window",
    "c49_answer",
    "c49_soft",
    "c49_given",
    "c49_progress",
    "c49_short_table_refuted"
   ],
   "note": ""
  },
  {
   "property": "C50",
   "status": "proved",
   "theorems": [
    "c50_learn",
    "c50_plain",
    "c50_recovered_is_mixed"
   ],
   "note": ""
  },
  {
   "property": "C51",
   "status": "proved",
   "theorems": [
    "c51_session",
    "c51_unique",
    "c51_calls",
    "c51_no_rounds",
    "c51_first_raises",
    "c51_second_raises"
   ],
   "note": ""
  },
  {
   "property": "C52",
   "status": "proved",
   "theorems": [
    "c52_unknown",
    "c52_rectify",
    "c52_only_if",
    "c52_predict_error",
    "c52_unknown_field",
    "c52_too_long",
    "c52_signs",
    "c52_factors",
    "c52_impossible",
    "c52_forced",
    "c52_positions_refuted"
   ],
   "note": ""
  },
  {
   "property": "C53",
   "status": "proved",
   "theorems": [
    "c53_new",
    "c53_set_structures",
    "c53_answer",
    "c53_label",
    "c53_history",
    "c53_one_each",
    "c53_kept",
    "c53_given",
    "c53_model",
    "c53_no_rounds",
    "c53_training_refuted",
    "c53_empty_refuted",
    "c53_count_refuted"
   ],
   "note": ""
  },
  {
   "property": "C54",
   "status": "proved",
   "theorems": [
    "c54_confusion",
    "c54_positives_refuted"
   ],
   "note": ""
  },
  {
   "property": "C55",
   "status": "proved",
   "theorems": [
    "c55_new",
    "c55_set_structures",
    "c55_answer",
    "c55_label",
    "c55_length",
    "c55_history",
    "c55_entropies",
    "c55_debug",
    "c55_length_refuted",
    "c55_debug_refuted"
   ],
   "note": ""
  },
  {
   "property": "C56",
   "status": "proved",
   "theorems": [
    "c56_succeeds",
    "c56_fails",
    "c56_table",
    "c56_keys",
    "c56_perfect",
    "c56_bijection_refuted"
   ],
   "note": ""
  },
  {
   "property": "C57",
   "status": "proved",
   "theorems": [
    "c57_words",
    "c57_succeeds",
    "c57_exact_fit_refuted",
    "c57_recover"
   ],
   "note": ""
  },
  {
   "property": "C58",
   "status": "proved",
   "theorems": [
    "c58_exact",
    "c58_zero_row",
    "c58_chain_refuted"
   ],
   "note": ""
  },
  {
   "property": "C59",
   "status": "proved",
   "theorems": [
    "c59_send"
   ],
   "note": ""
  },
  {
   "property": "C60",
   "status": "proved",
   "theorems": [
    "c60_get_msg_fields",
    "c60_classes"
   ],
   "note": ""
  },
  {
   "property": "C61",
   "status": "proved",
   "theorems": [
    "c61_stats",
    "c61_f1",
    "c61_absent_class_refuted"
   ],
   "note": ""
  },
  {
   "property": "C62",
   "status": "proved",
   "theorems": [
    "c62_learned",
    "c62_given",
    "c62_given_refuted"
   ],
   "note": ""
  },
  {
   "property": "C63",
   "status": "proved",
   "theorems": [
    "c63_construct",
    "c63_decode",
    "c63_no_answer",
    "c63_history",
    "c63_update",
    "c63_update_length",
    "c63_bayes_update",
    "c63_bayes_history",
    "c63_bayes_always",
    "c63_bayes_reduction_refuted"
   ],
   "note": ""
  },
  {
   "property": "C64",
   "status": "proved",
   "theorems": [
    "c64_predict",
    "c64_others_refuted",
    "c64_normalise_refuted",
    "c64_weight_range",
    "c64_scheme_two_refuted"
   ],
   "note": ""
  },
  {
   "property": "C65",
   "status": "proved",
   "theorems": [
    "c65_call",
    "c65_given",
    "c65_no_window_refuted",
    "c65_other_cluster_refuted"
   ],
   "note": ""
  },
  {
   "property": "C66",
   "status": "proved",
   "theorems": [
    "c66_construct",
    "c66_call",
    "c66_isolated",
    "c66_probability",
    "c66_noiseless",
    "c66_short_table_refuted",
    "c66_array_refuted"
   ],
   "note": ""
  },
  {
   "property": "C67",
   "status": "proved",
   "theorems": [
    "c67_answer",
    "c67_unknown",
    "c67_first_call_refuted",
    "c67_fields",
    "c67_no_damage",
    "c67_negatives_refuted",
    "c67_forcing"
   ],
   "note": ""
  },
  {
   "property": "C68",
   "status": "proved",
   "theorems": [
    "c68_answer",
    "c68_rectify",
    "c68_only_if",
    "c68_entropies",
    "c68_length",
    "c68_aligned",
    "c68_aligned_refuted"
   ],
   "note": ""
  },
  {
   "property": "C69",
   "status": "proved",
   "theorems": [
    "c69_cut",
    "c69_blocks",
    "c69_bytes",
    "c69_chunking",
    "c69_decode"
   ],
   "note": ""
  },
  {
   "property": "C70",
   "status": "proved",
   "theorems": [
    "c70_blocks",
    "c70_bytes",
    "c70_strict_blocks",
    "c70_dropped_refuted",
    "c70_none_refuted",
    "c70_length_refuted"
   ],
   "note": ""
  },
  {
   "property": "C71",
   "status": "proved",
   "theorems": [
    "c71_strict",
    "c71_exceptions"
   ],
   "note": ""
  },
  {
   "property": "C72",
   "status": "proved",
   "theorems": [
    "c72_missing",
    "c72_positive",
    "c72_prompt",
    "c72_v2_refuted"
   ],
   "note": ""
  },
  {
   "property": "C73",
   "status": "proved",
   "theorems": [
    "c73_accept",
    "c73_result",
    "c73_payload",
    "c73_errors",
    "c73_stream",
    "c73_state",
    "c73_new"
   ],
   "note": ""
  },
  {
   "property": "C74",
   "status": "proved",
   "theorems": [
    "c74_kept",
    "c74_first",
    "c74_replay",
    "c74_replay_refuted",
    "c74_forged",
    "c74_blocked"
   ],
   "note": ""
  },
  {
   "property": "C75",
   "status": "proved",
   "theorems": [
    "c75_unsigned",
    "c75_signed",
    "c75_rejected",
    "c75_stream",
    "c75_swallowed_refuted"
   ],
   "note": ""
  },
  {
   "property": "C76",
   "status": "proved",
   "theorems": [
    "c76_encode",
    "c76_send",
    "c76_delivered",
    "c76_short",
    "c76_count",
    "c76_heartbeat",
    "c76_methods",
    "c76_unknown"
   ],
   "note": ""
  },
  {
   "property": "C77",
   "status": "proved",
   "theorems": [
    "c77_eq",
    "c77_none",
    "c77_new",
    "c77_attribute",
    "c77_sent",
    "c77_plain",
    "c77_long_refuted",
    "c77_nul_refuted",
    "c77_nan_refuted",
    "c77_dict",
    "c77_forward",
    "c77_same_bytes",
    "c77_text_forward"
   ],
   "note": ""
  },
  {
   "property": "C78",
   "status": "proved",
   "theorems": [
    "c78_row",
    "c78_buffer",
    "c78_segments",
    "c78_run",
    "c78_words",
    "c78_multiply",
    "c78_late_refuted"
   ],
   "note": ""
  },
  {
   "property": "C79",
   "status": "proved",
   "theorems": [
    "c79_received",
    "c79_bsc",
    "c79_awgn",
    "c79_rates",
    "c79_empty",
    "c79_channels_refuted"
   ],
   "note": ""
  },
  {
   "property": "C80",
   "status": "proved",
   "theorems": [
    "c80_run",
    "c80_claims_refuted",
    "c80_count_refuted"
   ],
   "note": ""
  },
  {
   "property": "C81",
   "status": "proved",
   "theorems": [
    "c81_fields",
    "c81_tables",
    "c81_unknown",
    "c81_learn",
    "c81_word",
    "c81_run",
    "c81_label"
   ],
   "note": ""
  },
  {
   "property": "C82",
   "status": "proved",
   "theorems": [
    "c82_emle",
    "c82_formula"
   ],
   "note": ""
  },
  {
   "property": "C83",
   "status": "proved",
   "theorems": [
    "c83_channel",
    "c83_ignorant",
    "c83_corrected",
    "c83_clipped",
    "c83_better_refuted",
    "c83_row",
    "c83_no_trials"
   ],
   "note": ""
  },
  {
   "property": "C84",
   "status": "proved",
   "theorems": [
    "c84_find",
    "c84_split",
    "c84_log",
    "c84_logs",
    "c84_bad_entry",
    "c84_day",
    "c84_payload_refuted",
    "c84_number"
   ],
   "note": ""
  },
  {
   "property": "C85",
   "status": "proved",
   "theorems": [
    "c85_same",
    "c85_decode",
    "c85_exchange",
    "c85_stream"
   ],
   "note": ""
  },
  {
   "property": "C86",
   "status": "proved",
   "theorems": [
    "c86_words",
    "c86_ragged",
    "c86_noise",
    "c86_clean_tests",
    "c86_labels",
    "c86_analyze",
    "c86_mean",
    "c86_mean_refuted"
   ],
   "note": ""
  },
  {
   "property": "C87",
   "status": "proved",
   "theorems": [
    "c87_model",
    "c87_spells",
    "c87_arrays",
    "c87_unknown_first",
    "c87_garbage_refuted",
    "c87_dist",
    "c87_dist_sum",
    "c87_dist_errors",
    "c87_dist_wraps_refuted",
    "c87_words",
    "c87_words_errors"
   ],
   "note": ""
  },
  {
   "property": "C88",
   "status": "proved",
   "theorems": [
    "c88_alone",
    "c88_bsc",
    "c88_gauss",
    "c88_counts",
    "c88_llr",
    "c88_recovery",
    "c88_pretrained",
    "c88_logs",
    "c88_successes",
    "c88_nested",
    "c88_multiplied"
   ],
   "note": ""
  },
  {
   "property": "C89",
   "status": "proved",
   "theorems": [
    "c89_chunks",
    "c89_memory",
    "c89_outcome",
    "c89_independent",
    "c89_noise",
    "c89_same_errors",
    "c89_choice",
    "c89_iterations",
    "c89_schedule"
   ],
   "note": ""
  },
  {
   "property": "C90",
   "status": "proved",
   "theorems": [
    "c90_mavlink_run",
    "c90_unified_run",
    "c90_answers",
    "c90_real_run",
    "c90_mavlink_blind",
    "c90_unified_blind",
    "c90_unified_untold",
    "c90_first_unknown",
    "c90_model_unused"
   ],
   "note": ""
  },
  {
   "property": "C91",
   "status": "proved",
   "theorems": [
    "c91_frames_then",
    "c91_filling",
    "c91_known",
    "c91_run_structures",
    "c91_other",
    "c91_too_short",
    "c91_received",
    "c91_one_word",
    "c91_no_phantom",
    "c91_phantom_refuted",
    "c91_third_word_refuted"
   ],
   "note": ""
  },
  {
   "property": "C92",
   "status": "proved",
   "theorems": [
    "c92_capacity",
    "c92_shape",
    "c92_modified",
    "c92_limit",
    "c92_curves",
    "c92_curves_fall",
    "c92_flips",
    "c92_measured",
    "c92_measured_refuted"
   ],
   "note": ""
  },
  {
   "property": "C93",
   "status": "proved",
   "theorems": [
    "c93_all",
    "c93_one_checksum",
    "c93_damage",
    "c93_accepted",
    "c93_position",
    "c93_first",
    "c93_phantoms"
   ],
   "note": ""
  },
  {
   "property": "C94",
   "status": "proved",
   "theorems": [
    "c94_compare",
    "c94_rate",
    "c94_rate_refuted",
    "c94_floats",
    "c94_section",
    "c94_sections",
    "c94_blind",
    "c94_constant",
    "c94_soft",
    "c94_soft_any",
    "c94_balance"
   ],
   "note": ""
  },
  {
   "property": "C95",
   "status": "proved",
   "theorems": [
    "c95_replay",
    "c95_faithful",
    "c95_refused",
    "c95_lost",
    "c95_dropped",
    "c95_count",
    "c95_space",
    "c95_command_line",
    "c95_dash"
   ],
   "note": ""
  },
  {
   "property": "C96",
   "status": "proved",
   "theorems": [
    "c96_order",
    "c96_listing",
    "c96_crash",
    "c96_minflip",
    "c96_same_name",
    "c96_minflip_refuted"
   ],
   "note": ""
  },
  {
   "property": "C97",
   "status": "proved",
   "theorems": [
    "c97_ber",
    "c97_ber_empty",
    "c97_prob",
    "c97_entropy",
    "c97_library",
    "c97_hellinger",
    "c97_hellinger_refuted",
    "c97_flips",
    "c97_fraction",
    "c97_fraction_refuted",
    "c97_sweep",
    "c97_fit",
    "c97_constant",
    "c97_mean",
    "c97_constant_refuted"
   ],
   "note": ""
  },
  {
   "property": "C98",
   "status": "proved",
   "theorems": [
    "c98_estimates",
    "c98_confidence",
    "c98_trust",
    "c98_prediction",
    "c98_agreement",
    "c98_sequence",
    "c98_learning",
    "c98_opinion"
   ],
   "note": ""
  },
  {
   "property": "C99",
   "status": "proved",
   "theorems": [
    "c99_never",
    "c99_pool",
    "c99_type_error",
    "c99_no_levels",
    "c99_words",
    "c99_report",
    "c99_data",
    "c99_empty"
   ],
   "note": ""
  },
  {
   "property": "C100",
   "status": "proved",
   "theorems": [
    "c100_words",
    "c100_parts",
    "c100_any_length",
    "c100_labels",
    "c100_result",
    "c100_total",
    "c100_order",
    "c100_trial",
    "c100_digits"
   ],
   "note": ""
  },
  {
   "property": "C101",
   "status": "proved",
   "theorems": [
    "c101_threshold",
    "c101_message",
    "c101_setup",
    "c101_append",
    "c101_repeated",
    "c101_last_level",
    "c101_failed"
   ],
   "note": ""
  },
  {
   "property": "C102",
   "status": "proved",
   "theorems": [
    "c102_fit",
    "c102_log_likelihood",
    "c102_clear_winner",
    "c102_hamming",
    "c102_merging",
    "c102_recognised"
   ],
   "note": ""
  },
  {
   "property": "C103",
   "status": "proved",
   "theorems": [
    "c103_by_fields",
    "c103_same",
    "c103_no_message",
    "c103_twice_refuted",
    "c103_moved_refuted",
    "c103_script"
   ],
   "note": ""
  },
  {
   "property": "C104",
   "status": "proved",
   "theorems": [
    "c104_distribution",
    "c104_no_distribution",
    "c104_tails",
    "c104_sign",
    "c104_sign_mirrored",
    "c104_bits",
    "c104_bitwise",
    "c104_text",
    "c104_names",
    "c104_attributes"
   ],
   "note": ""
  },
  {
   "property": "C105",
   "status": "proved",
   "theorems": [
    "c105_series",
    "c105_range",
    "c105_dive",
    "c105_noise"
   ],
   "note": ""
  },
  {
   "property": "C106",
   "status": "proved",
   "theorems": [
    "c106_monotone",
    "c106_hard",
    "c106_majority",
    "c106_batch",
    "c106_soft"
   ],
   "note": ""
  },
  {
   "property": "C107",
   "status": "proved",
   "theorems": [
    "c107_fit",
    "c107_step",
    "c107_predict",
    "c107_posterior",
    "c107_lost"
   ],
   "note": ""
  },
  {
   "property": "C108",
   "status": "proved",
   "theorems": [
    "c108_classify",
    "c108_bits",
    "c108_between",
    "c108_largest_refuted",
    "c108_constant",
    "c108_constant_refuted",
    "c108_bits_refuted",
    "c108_equal_samples"
   ],
   "note": ""
  },
  {
   "property": "C109",
   "status": "proved",
   "theorems": [
    "c109_round_trip",
    "c109_cut_short",
    "c109_total",
    "c109_ascii",
    "c109_escape",
    "c109_number_refuted",
    "c109_file",
    "c109_save_load",
    "c109_failed_save",
    "c109_atomic_refuted"
   ],
   "note": ""
  },
  {
   "property": "C110",
   "status": "proved",
   "theorems": [
    "c110_split",
    "c110_again"
   ],
   "note": ""
  },
  {
   "property": "C111",
   "status": "proved",
   "theorems": [
    "c111_names",
    "c111_results",
    "c111_lines",
    "c111_alone",
    "c111_caught",
    "c111_result_name",
    "c111_overlap",
    "c111_overlap_all",
    "c111_same_second",
    "c111_one_completes_refuted"
   ],
   "note": ""
  },
  {
   "property": "C112",
   "status": "proved",
   "theorems": [
    "c112_meaning",
    "c112_same",
    "c112_at_once",
    "c112_calendar",
    "c112_text",
    "c112_late",
    "c112_runs",
    "c112_apart_refuted"
   ],
   "note": ""
  },
  {
   "property": "C113",
   "status": "proved",
   "theorems": [
    "c113_steps",
    "c113_names",
    "c113_kept",
    "c113_lost_refuted"
   ],
   "note": ""
  },
  {
   "property": "C114",
   "status": "proved",
   "theorems": [
    "c114_bound",
    "c114_calm",
    "c114_options",
    "c114_others",
    "c114_ends"
   ],
   "note": ""
  },
  {
   "property": "C115",
   "status": "proved",
   "theorems": [
    "c115_set",
    "c115_others",
    "c115_weighted",
    "c115_reached",
    "c115_denoise"
   ],
   "note": ""
  },
  {
   "property": "C116",
   "status": "proved",
   "theorems": [
    "c116_modules",
    "c116_session",
    "c116_complete",
    "c116_there",
    "c116_exports",
    "c116_scripts",
    "c116_broken",
    "c116_once"
   ],
   "note": ""
  },
  {
   "property": "C117",
   "status": "proved",
   "theorems": [
    "c117_frame",
    "c117_never",
    "c117_understood",
    "c117_proven",
    "c117_forced"
   ],
   "note": ""
  },
  {
   "property": "C118",
   "status": "proved",
   "theorems": [
    "c118_received",
    "c118_complete",
    "c118_callback",
    "c118_returned",
    "c118_in_order",
    "c118_sent",
    "c118_confirmed",
    "c118_delivery",
    "c118_lost_refuted",
    "c118_partial_write_refuted"
   ],
   "note": ""
  },
  {
   "property": "C119",
   "status": "proved",
   "theorems": [
    "c119_table",
    "c119_minimal",
    "c119_known",
    "c119_pack",
    "c119_decode"
   ],
   "note": ""
  },
  {
   "property": "C120",
   "status": "proved",
   "theorems": [
    "c120_assertions",
    "c120_bits",
    "c120_rand_msg",
    "c120_frame_header",
    "c120_is_valid_header",
    "c120_distance",
    "c120_buffers",
    "c120_information",
    "c120_any_arithmetic",
    "c120_probability",
    "c120_probability_refuted"
   ],
   "note": ""
  },
  {
   "property": "C121",
   "status": "proved",
   "theorems": [
    "c121_every_schedule",
    "c121_fair",
    "c121_received",
    "c121_in_turns",
    "c121_alone",
    "c121_not_below",
    "c121_race_refuted",
    "c121_backwards_refuted"
   ],
   "note": ""
  },
  {
   "property": "C122",
   "status": "proved",
   "theorems": [
    "c122_import",
    "c122_minimal",
    "c122_names",
    "c122_end"
   ],
   "note": ""
  }
 ]
}
