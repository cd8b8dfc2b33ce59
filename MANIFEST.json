{
 "claims": [
  {
   "property": "C01",
   "status": "proved",
   "theorems": [
    "C01_decode_of_encode_gdc",
    "C01_decode_of_encode_tdc",
    "C01_packing_is_a_bijection",
    "C01_no_bit_lost"
   ],
   "note": ""
  },
  {
   "property": "C02",
   "status": "proved",
   "theorems": [
    "C02_hits_lie_in_their_quadrant",
    "C02_coordinates_are_injective",
    "C02_quadrants_are_covered",
    "C02_other_chips_alias_chip3",
    "C02_injective_all_chips_refuted"
   ],
   "note": ""
  },
  {
   "property": "C03",
   "status": "proved",
   "theorems": [
    "C03_arrival_time",
    "C03_extension_is_unique",
    "C03_rollover",
    "C03_early_run_wraps",
    "C03_always_extension_refuted"
   ],
   "note": ""
  },
  {
   "property": "C04",
   "status": "proved",
   "theorems": [
    "C04_tof_in_one_frame"
   ],
   "note": ""
  },
  {
   "property": "C05",
   "status": "proved",
   "theorems": [
    "C05_phase_when_not_early",
    "C05_phase_when_early",
    "C05_always_phase_refuted"
   ],
   "note": ""
  },
  {
   "property": "C06",
   "status": "proved",
   "theorems": [
    "C06_tdc_mode_tof",
    "C06_uninitialised_iff",
    "C06_no_tof_after_2_31_ticks"
   ],
   "note": ""
  },
  {
   "property": "C07",
   "status": "proved",
   "theorems": [
    "C07_tdc_is_first_time_after_gdc"
   ],
   "note": ""
  },
  {
   "property": "C08",
   "status": "proved",
   "theorems": [
    "C08_pulse_is_right_iff_trackable",
    "C08_slow_pulses_are_reconstructed",
    "C08_trackable_pulses_are_reconstructed",
    "C08_out_of_order_pulse_is_late",
    "C08_refuted_l",
    "C08_stays_48_bit_refuted"
   ],
   "note": ""
  },
  {
   "property": "C09",
   "status": "proved",
   "theorems": [
    "C09_gdc_from_last_effective_pair",
    "C09_frame"
   ],
   "note": ""
  },
  {
   "property": "C10",
   "status": "proved",
   "theorems": [
    "C10_batches_are_the_headers",
    "C10_batches_in_file_order"
   ],
   "note": ""
  },
  {
   "property": "C11",
   "status": "proved",
   "theorems": [
    "C11_batch_metadata_ranges"
   ],
   "note": ""
  },
  {
   "property": "C12",
   "status": "proved",
   "theorems": [
    "C12_framing_round_trip",
    "C12_refuted_l",
    "C12_no_side_condition_refuted"
   ],
   "note": ""
  },
  {
   "property": "C13",
   "status": "proved",
   "theorems": [
    "C13_bounded_search_is_a_prefix",
    "C13_limit_is_positive"
   ],
   "note": ""
  },
  {
   "property": "C14",
   "status": "proved",
   "theorems": [
    "C14_resumed_search_reproduces_whole_file",
    "C14_terminates_on_aligned_files",
    "C14_trailing_bytes_never_terminate",
    "C14_limit_one_never_terminates"
   ],
   "note": ""
  },
  {
   "property": "C15",
   "status": "proved",
   "theorems": [
    "C15_no_read_outside_aligned_buffers",
    "C15_unaligned_buffers"
   ],
   "note": ""
  },
  {
   "property": "C16",
   "status": "proved",
   "theorems": [
    "C16_two_phases_equal_one_pass",
    "C16_two_phases_any_batches"
   ],
   "note": ""
  },
  {
   "property": "C17",
   "status": "proved",
   "theorems": [
    "C17_schedule_independent",
    "C17_no_schedule_fails",
    "C17_schedules_complete",
    "C17_undefined"
   ],
   "note": ""
  },
  {
   "property": "C18",
   "status": "proved",
   "theorems": [
    "C18_hits_are_gated_and_bounded",
    "C18_payload_exists",
    "C18_yields_determines_hits"
   ],
   "note": ""
  },
  {
   "property": "C19",
   "status": "proved",
   "theorems": [
    "C19_second_extraction_appends",
    "C19_refuted_l",
    "C19_idempotent_refuted"
   ],
   "note": ""
  },
  {
   "property": "C20",
   "status": "proved",
   "theorems": [
    "C20_extraction_is_local"
   ],
   "note": ""
  },
  {
   "property": "C21",
   "status": "proved",
   "theorems": [
    "C21_labels_partition_the_hits"
   ],
   "note": ""
  },
  {
   "property": "C22",
   "status": "proved",
   "theorems": [
    "C22_membership_is_sound",
    "C22_membership_is_sound_for_any_radius",
    "C22_cluster_duration",
    "C22_cluster_extent"
   ],
   "note": ""
  },
  {
   "property": "C23",
   "status": "proved",
   "theorems": [
    "C23_clustering_follows_the_specification",
    "C23_at_most_n_open",
    "C23_closed_stays_closed"
   ],
   "note": ""
  },
  {
   "property": "C24",
   "status": "proved",
   "theorems": [
    "C24_events_of_clusters",
    "C24_rejections",
    "C24_hit_counts",
    "C24_all_counted",
    "C24_centroid_events_exist",
    "C24_no_hit_is_lost",
    "C24_zero_tot_refuted"
   ],
   "note": ""
  },
  {
   "property": "C25",
   "status": "proved",
   "theorems": [
    "C25_fit_ignores_history",
    "C25_events_ignore_history",
    "C25_reset"
   ],
   "note": ""
  },
  {
   "property": "C26",
   "status": "proved",
   "theorems": [
    "C26_weighted_centroid",
    "C26_plain_centroid",
    "C26_no_hits",
    "C26_centroid_on_sensor"
   ],
   "note": ""
  },
  {
   "property": "C27",
   "status": "proved",
   "theorems": [
    "C27_bin_of_time",
    "C27_total",
    "C27_interior_edge",
    "C27_first_edge_lost",
    "C27_time_zero_lost"
   ],
   "note": ""
  },
  {
   "property": "C28",
   "status": "proved",
   "theorems": [
    "C28_pixel_counts",
    "C28_at_most_one_pixel",
    "C28_total",
    "C28_hit_pixel",
    "C28_image_side",
    "C28_hits_succeed",
    "C28_events_succeed",
    "C28_uninitialised_time"
   ],
   "note": ""
  },
  {
   "property": "C29",
   "status": "proved",
   "theorems": [
    "C29_create_is_init_and_update",
    "C29_any_order"
   ],
   "note": ""
  },
  {
   "property": "C30",
   "status": "proved",
   "theorems": [
    "C30_saving_no_batches",
    "C30_spectrum_rows",
    "C30_too_few_counts",
    "C30_degenerate_edges",
    "C30_resolution",
    "C30_no_batches"
   ],
   "note": ""
  },
  {
   "property": "C31",
   "status": "proved",
   "theorems": [
    "C31_history",
    "C31_one_save",
    "C31_any_order",
    "C31_names_are_distinct",
    "C31_unwritable_file_kept",
    "C31_wide_samples_overflow",
    "C31_narrow_samples",
    "C31_no_directory"
   ],
   "note": ""
  },
  {
   "property": "C32",
   "status": "proved",
   "theorems": [
    "C32_columns",
    "C32_total",
    "C32_equal_lengths",
    "C32_empty",
    "C32_failed_append",
    "C32_failed_neutron_append",
    "C32_equal_lengths_with_faults_refuted"
   ],
   "note": ""
  },
  {
   "property": "C33",
   "status": "proved",
   "theorems": [
    "C33_name",
    "C33_append",
    "C33_append_total",
    "C33_hits",
    "C33_neutrons",
    "C33_numbers",
    "C33_history"
   ],
   "note": ""
  },
  {
   "property": "C34",
   "status": "proved",
   "theorems": [
    "C34_reads",
    "C34_whole_file",
    "C34_number_of_reads",
    "C34_no_data",
    "C34_zero_chunk_size"
   ],
   "note": ""
  },
  {
   "property": "C35",
   "status": "proved",
   "theorems": [
    "C35_cut_at_datasets",
    "C35_any_two_sizes",
    "C35_any_bytes",
    "C35_cut_inside_dataset",
    "C35_nothing_caught"
   ],
   "note": ""
  },
  {
   "property": "C36",
   "status": "proved",
   "theorems": [
    "C36_records",
    "C36_stale_timestamp",
    "C36_chips_mixed_refuted"
   ],
   "note": ""
  },
  {
   "property": "C37",
   "status": "proved",
   "theorems": [
    "C37_final_state",
    "C37_agree",
    "C37_larger_chunks",
    "C37_lost",
    "C37_smaller_chunks_refuted"
   ],
   "note": ""
  },
  {
   "property": "C38",
   "status": "proved",
   "theorems": [
    "C38_at_most_once",
    "C38_every_file",
    "C38_images",
    "C38_retry_counts_twice",
    "C38_independent_of_scans_refuted",
    "C38_no_header_undefined",
    "C38_unreadable_exits",
    "C38_unwritable_forgotten_refuted"
   ],
   "note": ""
  },
  {
   "property": "C39",
   "status": "proved",
   "theorems": [
    "C39_stops",
    "C39_only"
   ],
   "note": ""
  },
  {
   "property": "C40",
   "status": "proved",
   "theorems": [
    "C40_last_line_wins",
    "C40_missing_value_undefined",
    "C40_other_lines_ignored",
    "C40_order_irrelevant",
    "C40_file",
    "C40_no_file"
   ],
   "note": ""
  },
  {
   "property": "C41",
   "status": "proved",
   "theorems": [
    "C41_custom",
    "C41_uniform",
    "C41_missing",
    "C41_last_edge_refuted",
    "C41_degenerate"
   ],
   "note": ""
  },
  {
   "property": "C42",
   "status": "proved",
   "theorems": [
    "C42_batches_are_pieces_of_the_hits",
    "C42_every_such_division_occurs",
    "C42_all_hits_processed_refuted",
    "C42_nothing_need_be_lost",
    "C42_end_always_reachable",
    "C42_end_after_reader",
    "C42_unopened_file_ends_refuted"
   ],
   "note": ""
  },
  {
   "property": "C43",
   "status": "proved",
   "theorems": [
    "C43_time_of_flight_within_frame",
    "C43_file_times_within_frame",
    "C43_time_packets_are_ignored",
    "C43_rollovers_are_followed",
    "C43_time_since_trigger_refuted"
   ],
   "note": ""
  },
  {
   "property": "C44",
   "status": "proved",
   "theorems": [
    "C44_merging"
   ],
   "note": ""
  },
  {
   "property": "C45",
   "status": "proved",
   "theorems": [
    "C45_event_times",
    "C45_ns_conversions_are_exact",
    "C45_fine_time_is_exact"
   ],
   "note": ""
  },
  {
   "property": "C46",
   "status": "proved",
   "theorems": [
    "C46_save",
    "C46_hits",
    "C46_neutrons",
    "C46_name",
    "C46_collision"
   ],
   "note": ""
  },
  {
   "property": "C47",
   "status": "proved",
   "theorems": [
    "C47_result",
    "C47_hits_unique",
    "C47_succeeds",
    "C47_early_run_undefined",
    "C47_hit_before_tdc_undefined"
   ],
   "note": ""
  },
  {
   "property": "C48",
   "status": "proved",
   "theorems": [
    "C48_options",
    "C48_rejected"
   ],
   "note": ""
  },
  {
   "property": "C49",
   "status": "proved",
   "theorems": [
    "C49_options",
    "C49_refused",
    "C49_chunk_size"
   ],
   "note": ""
  },
  {
   "property": "C50",
   "status": "proved",
   "theorems": [
    "C50_options",
    "C50_refused"
   ],
   "note": ""
  },
  {
   "property": "C51",
   "status": "proved",
   "theorems": [
    "C51_json",
    "C51_undefined",
    "C51_defined_refuted",
    "C51_empty_edges"
   ],
   "note": ""
  },
  {
   "property": "C52",
   "status": "proved",
   "theorems": [
    "C52_format",
    "C52_defaults_differ_refuted"
   ],
   "note": ""
  },
  {
   "property": "C53",
   "status": "proved",
   "theorems": [
    "C53_hit_fields_and_time",
    "C53_agrees_with_fast_decoder",
    "C53_hit_before_reference_refuted"
   ],
   "note": ""
  },
  {
   "property": "C54",
   "status": "proved",
   "theorems": [
    "C54_time_of_flight",
    "C54_packet_to_hit_defined_after_trigger"
   ],
   "note": ""
  },
  {
   "property": "C55",
   "status": "proved",
   "theorems": [
    "C55_file_reader_defined_iff_framed",
    "C55_parser_defined_iff_framed",
    "C55_streams_are_framed",
    "C55_odd_length_reads_beyond_end",
    "C55_truncated_dataset_reads_beyond_end"
   ],
   "note": ""
  },
  {
   "property": "C56",
   "status": "proved",
   "theorems": [
    "C56_fast_parse_returns_blank_hits",
    "C56_one_blank_hit_per_packet",
    "C56_too_many_packets_overflow",
    "C56_batches_restart_the_time_reference",
    "C56_batchwise_equals_whole_refuted"
   ],
   "note": ""
  },
  {
   "property": "C57",
   "status": "proved",
   "theorems": [
    "C57_one_hit_per_pixel_packet",
    "C57_hits_are_determined",
    "C57_as_many_hits_as_pixel_packets"
   ],
   "note": ""
  },
  {
   "property": "C58",
   "status": "proved",
   "theorems": [
    "C58_reader_terminates",
    "C58_defined_exactly_for_odd_ends",
    "C58_whole_packet_files_defined_refuted",
    "C58_last_hit_repeated",
    "C58_cut_off_dataset_filled_up"
   ],
   "note": ""
  },
  {
   "property": "C59",
   "status": "proved",
   "theorems": [
    "C59_some_run_exists",
    "C59_results",
    "C59_every_division_has_its_result",
    "C59_batch_events_determined",
    "C59_events_always_saved_refuted",
    "C59_few_hits_never_saved",
    "C59_whole_packet_runs_undefined",
    "C59_other_hits"
   ],
   "note": ""
  },
  {
   "property": "C60",
   "status": "proved",
   "theorems": [
    "C60_time_classes",
    "C60_any_chunks",
    "C60_fit_is_defined"
   ],
   "note": ""
  },
  {
   "property": "C61",
   "status": "proved",
   "theorems": [
    "C61_labels_and_events"
   ],
   "note": ""
  },
  {
   "property": "C62",
   "status": "proved",
   "theorems": [
    "C62_history",
    "C62_no_history",
    "C62_fresh_labels_refuted",
    "C62_events_are_kept"
   ],
   "note": ""
  },
  {
   "property": "C63",
   "status": "proved",
   "theorems": [
    "C63_only_toa",
    "C63_periods_are_confused"
   ],
   "note": ""
  },
  {
   "property": "C64",
   "status": "proved",
   "theorems": [
    "C64_hit_decoded",
    "C64_distinct",
    "C64_no_gap"
   ],
   "note": ""
  },
  {
   "property": "C65",
   "status": "proved",
   "theorems": [
    "C65_every_file",
    "C65_datasets",
    "C65_complete",
    "C65_nothing_read",
    "C65_all_hits_refuted"
   ],
   "note": ""
  },
  {
   "property": "C66",
   "status": "proved",
   "theorems": [
    "C66_entry",
    "C66_in_bounds",
    "C66_window_of_the_image_refuted"
   ],
   "note": ""
  },
  {
   "property": "C67",
   "status": "proved",
   "theorems": [
    "C67_clusters",
    "C67_partition",
    "C67_grown",
    "C67_spread"
   ],
   "note": ""
  },
  {
   "property": "C68",
   "status": "proved",
   "theorems": [
    "C68_pixel",
    "C68_open_clusters_not_shown",
    "C68_all_clusters_shown_refuted",
    "C68_defined_refuted"
   ],
   "note": ""
  },
  {
   "property": "C69",
   "status": "proved",
   "theorems": [
    "C69_in_order",
    "C69_results",
    "C69_can_end",
    "C69_all_hits_used_refuted"
   ],
   "note": ""
  },
  {
   "property": "C70",
   "status": "proved",
   "theorems": [
    "C70_read",
    "C70_events_unique",
    "C70_early",
    "C70_complete",
    "C70_no_hits",
    "C70_cut",
    "C70_unopened",
    "C70_session",
    "C70_inside",
    "C70_tally_unique",
    "C70_last_only_refuted",
    "C70_all_visible_refuted"
   ],
   "note": ""
  },
  {
   "property": "C71",
   "status": "proved",
   "theorems": [
    "C71_stuck",
    "C71_when",
    "C71_uninitialised"
   ],
   "note": ""
  },
  {
   "property": "C72",
   "status": "proved",
   "theorems": [
    "C72_hits",
    "C72_mismatch",
    "C72_events",
    "C72_no_events",
    "C72_no_tof",
    "C72_hits_fail",
    "C72_events_fail"
   ],
   "note": ""
  },
  {
   "property": "C73",
   "status": "proved",
   "theorems": [
    "C73_values",
    "C73_text",
    "C73_no_file",
    "C73_agree",
    "C73_same_as_cli_refuted"
   ],
   "note": ""
  },
  {
   "property": "C74",
   "status": "proved",
   "theorems": [
    "C74_image",
    "C74_events",
    "C74_no_events",
    "C74_unopened"
   ],
   "note": ""
  },
  {
   "property": "C75",
   "status": "proved",
   "theorems": [
    "C75_program",
    "C75_succeeds",
    "C75_no_input",
    "C75_no_directory",
    "C75_directory_fails"
   ],
   "note": ""
  },
  {
   "property": "C76",
   "status": "proved",
   "theorems": [
    "C76_fit",
    "C76_median_exists",
    "C76_median_unique",
    "C76_at_most_half_used",
    "C76_few_hits",
    "C76_equal_heights",
    "C76_time_always_finite_refuted",
    "C76_unset_time"
   ],
   "note": ""
  },
  {
   "property": "C77",
   "status": "proved",
   "theorems": [
    "C77_lines",
    "C77_global_time_first",
    "C77_other_words",
    "C77_ragged_file",
    "C77_cut_file",
    "C77_missing_file",
    "C77_same_hits"
   ],
   "note": ""
  },
  {
   "property": "C78",
   "status": "proved",
   "theorems": [
    "C78_pack_pixel",
    "C78_fine_time_changes_tot_refuted",
    "C78_packed_file",
    "C78_generator_file",
    "C78_printed_time"
   ],
   "note": ""
  },
  {
   "property": "C79",
   "status": "proved",
   "theorems": [
    "C79_saved",
    "C79_busy",
    "C79_can_finish",
    "C79_undefined",
    "C79_next",
    "C79_not_opened",
    "C79_spectrum_known_refuted",
    "C79_image_by_file_refuted"
   ],
   "note": ""
  },
  {
   "property": "C80",
   "status": "proved",
   "theorems": [
    "C80_run",
    "C80_refused",
    "C80_ends",
    "C80_no_hdf5",
    "C80_threads",
    "C80_trailing_bytes",
    "C80_late_is_bad",
    "C80_without_tgdc_refuted",
    "C80_bad_is_late_refuted",
    "C80_events_counted_refuted",
    "C80_time_written",
    "C80_bin_decodable_refuted",
    "C80_bin_undefined_refuted"
   ],
   "note": ""
  },
  {
   "property": "C81",
   "status": "proved",
   "theorems": [
    "C81_program",
    "C81_succeeds",
    "C81_default",
    "C81_refused",
    "C81_no_config",
    "C81_no_input",
    "C81_terminates",
    "C81_same_output",
    "C81_endings",
    "C81_ends",
    "C81_zero_chunk",
    "C81_exit_zero_is_complete_refuted",
    "C81_spectra"
   ],
   "note": ""
  },
  {
   "property": "C82",
   "status": "proved",
   "theorems": [
    "C82_extracts",
    "C82_readable",
    "C82_exit",
    "C82_refused",
    "C82_bad_size",
    "C82_no_data",
    "C82_failure_keeps_output_refuted",
    "C82_input_kept_refuted",
    "C82_exit_zero_is_complete_refuted",
    "C82_catches"
   ],
   "note": ""
  },
  {
   "property": "C83",
   "status": "proved",
   "theorems": [
    "C83_runs",
    "C83_images",
    "C83_exit_zero",
    "C83_stops",
    "C83_codes",
    "C83_catches",
    "C83_refused",
    "C83_lost_directory",
    "C83_no_edges"
   ],
   "note": ""
  },
  {
   "property": "C84",
   "status": "proved",
   "theorems": [
    "C84_exit_one",
    "C84_exit_zero",
    "C84_results",
    "C84_every_division",
    "C84_some_end",
    "C84_events_always_saved_refuted",
    "C84_always_ends_refuted",
    "C84_whole_packets_defined_refuted"
   ],
   "note": ""
  },
  {
   "property": "C85",
   "status": "proved",
   "theorems": [
    "C85_hits",
    "C85_threads",
    "C85_fewer",
    "C85_same_hits_refuted",
    "C85_events",
    "C85_verified",
    "C85_old_file",
    "C85_read_back_refuted",
    "C85_multi",
    "C85_refused"
   ],
   "note": ""
  },
  {
   "property": "C86",
   "status": "proved",
   "theorems": [
    "C86_hits",
    "C86_events",
    "C86_nothing"
   ],
   "note": ""
  },
  {
   "property": "C87",
   "status": "proved",
   "theorems": [
    "C87_recovers",
    "C87_isolated",
    "C87_events",
    "C87_one_each",
    "C87_nine_refuted"
   ],
   "note": ""
  },
  {
   "property": "C88",
   "status": "proved",
   "theorems": [
    "C88_events",
    "C88_abs",
    "C88_chunks",
    "C88_threads",
    "C88_main",
    "C88_cut_refuted",
    "C88_idle",
    "C88_every_cluster_refuted",
    "C88_defined_refuted"
   ],
   "note": ""
  },
  {
   "property": "C89",
   "status": "proved",
   "theorems": [
    "C89_number",
    "C89_ties",
    "C89_not_finite",
    "C89_layout",
    "C89_spectrum",
    "C89_times",
    "C89_times_refuted",
    "C89_csv",
    "C89_csv_refuted",
    "C89_program"
   ],
   "note": ""
  },
  {
   "property": "C90",
   "status": "proved",
   "theorems": [
    "C90_gdc",
    "C90_tdc",
    "C90_lib",
    "C90_display",
    "C90_round_trip",
    "C90_long_run",
    "C90_gdc_late_refuted",
    "C90_gdc_early_refuted",
    "C90_frame_refuted",
    "C90_tdc_late_refuted",
    "C90_lib_before_refuted",
    "C90_lib_late_refuted",
    "C90_display_period_refuted",
    "C90_unique",
    "C90_hits_file"
   ],
   "note": ""
  },
  {
   "property": "C91",
   "status": "proved",
   "theorems": [
    "C91_neutrons",
    "C91_program",
    "C91_forward"
   ],
   "note": ""
  },
  {
   "property": "C92",
   "status": "proved",
   "theorems": [
    "C92_neutrons",
    "C92_hits"
   ],
   "note": ""
  },
  {
   "property": "C93",
   "status": "proved",
   "theorems": [
    "C93_hits",
    "C93_events",
    "C93_session",
    "C93_late_start_refuted",
    "C93_gap_refuted"
   ],
   "note": ""
  },
  {
   "property": "C94",
   "status": "proved",
   "theorems": [
    "C94_print",
    "C94_part",
    "C94_release",
    "C94_default",
    "C94_dry",
    "C94_consistent",
    "C94_lines",
    "C94_untouched",
    "C94_check",
    "C94_log",
    "C94_check_after",
    "C94_flag",
    "C94_action",
    "C94_part_refused",
    "C94_files",
    "C94_words",
    "C94_number",
    "C94_octal_refuted",
    "C94_comment_refuted",
    "C94_tab_refuted",
    "C94_dashes_refuted",
    "C94_number_refuted"
   ],
   "note": ""
  },
  {
   "property": "C95",
   "status": "proved",
   "theorems": [
    "C95_neutrons",
    "C95_hits",
    "C95_any_scans"
   ],
   "note": ""
  },
  {
   "property": "C96",
   "status": "proved",
   "theorems": [
    "C96_hits",
    "C96_every_hit_once_refuted",
    "C96_events",
    "C96_every_division"
   ],
   "note": ""
  },
  {
   "property": "C97",
   "status": "proved",
   "theorems": [
    "C97_spectrum",
    "C97_image",
    "C97_session",
    "C97_few_events",
    "C97_defined"
   ],
   "note": ""
  },
  {
   "property": "C98",
   "status": "proved",
   "theorems": [
    "C98_true_events",
    "C98_accuracy",
    "C98_time_refuted"
   ],
   "note": ""
  },
  {
   "property": "C99",
   "status": "proved",
   "theorems": [
    "C99_fresh",
    "C99_events",
    "C99_nothing",
    "C99_again",
    "C99_csv_again"
   ],
   "note": ""
  },
  {
   "property": "C100",
   "status": "proved",
   "theorems": [
    "C100_hits",
    "C100_sums",
    "C100_quotients",
    "C100_stream",
    "C100_stream_refuted",
    "C100_dbscan"
   ],
   "note": ""
  },
  {
   "property": "C101",
   "status": "proved",
   "theorems": [
    "C101_cam",
    "C101_cam_undefined",
    "C101_gdc",
    "C101_gdc_chunks",
    "C101_recording",
    "C101_gdc_history"
   ],
   "note": ""
  },
  {
   "property": "C102",
   "status": "proved",
   "theorems": [
    "C102_mmap",
    "C102_time",
    "C102_raw2events"
   ],
   "note": ""
  },
  {
   "property": "C103",
   "status": "proved",
   "theorems": [
    "C103_labels",
    "C103_events",
    "C103_program",
    "C103_delayed"
   ],
   "note": ""
  },
  {
   "property": "C104",
   "status": "proved",
   "theorems": [
    "C104_runs"
   ],
   "note": ""
  },
  {
   "property": "C105",
   "status": "proved",
   "theorems": [
    "C105_filter",
    "C105_program",
    "C105_neutrons",
    "C105_true"
   ],
   "note": ""
  },
  {
   "property": "C106",
   "status": "proved",
   "theorems": [
    "C106_abs",
    "C106_program"
   ],
   "note": ""
  },
  {
   "property": "C107",
   "status": "proved",
   "theorems": [
    "C107_lands",
    "C107_program"
   ],
   "note": ""
  },
  {
   "property": "C108",
   "status": "proved",
   "theorems": [
    "C108_images"
   ],
   "note": ""
  },
  {
   "property": "C109",
   "status": "proved",
   "theorems": [
    "C109_lands",
    "C109_program"
   ],
   "note": ""
  },
  {
   "property": "C110",
   "status": "proved",
   "theorems": [
    "C110_same"
   ],
   "note": ""
  },
  {
   "property": "C111",
   "status": "proved",
   "theorems": [
    "C111_parts"
   ],
   "note": ""
  },
  {
   "property": "C112",
   "status": "proved",
   "theorems": [
    "C112_contained"
   ],
   "note": ""
  },
  {
   "property": "C113",
   "status": "proved",
   "theorems": [
    "C113_cut",
    "C113_ends",
    "C113_broken",
    "C113_undefined"
   ],
   "note": ""
  },
  {
   "property": "C114",
   "status": "proved",
   "theorems": [
    "C114_hits",
    "C114_events_refuted"
   ],
   "note": ""
  },
  {
   "property": "C115",
   "status": "proved",
   "theorems": [
    "C115_order"
   ],
   "note": ""
  },
  {
   "property": "C116",
   "status": "proved",
   "theorems": [
    "C116_recovers",
    "C116_tdc_refuted"
   ],
   "note": ""
  },
  {
   "property": "C117",
   "status": "proved",
   "theorems": [
    "C117_again"
   ],
   "note": ""
  }
 ]
}