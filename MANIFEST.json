{
 "claims": [
  {
   "property": "C01",
   "status": "proved",
   "theorems": [
    "C01_baseline_round_trip",
    "C01_encoder_accepts",
    "C01_decode_encode"
   ],
   "note": ""
  },
  {
   "property": "C02",
   "status": "proved",
   "theorems": [
    "C02_baseline_numbers_unique"
   ],
   "note": ""
  },
  {
   "property": "C03",
   "status": "proved",
   "theorems": [
    "C03_flip_swaps_and_is_involutive",
    "C03_decoder_limit_refuted"
   ],
   "note": "Involution proved for every encodable array; C03_decoder_limit_refuted records that the decoder also accepts numbers above the largest encodable one, which cannot be flipped."
  },
  {
   "property": "C04",
   "status": "proved",
   "theorems": [
    "C04_decode_elementwise",
    "C04_mixed_regimes_refuted"
   ],
   "note": "Elementwise for one regime; C04_mixed_regimes_refuted shows the failure for mixed arrays."
  },
  {
   "property": "C05",
   "status": "proved",
   "theorems": [
    "C05_miriad_decodes",
    "C05_miriad_not_injective",
    "C05_ij2bl_round_trip",
    "C05_ij2bl_injective"
   ],
   "note": ""
  },
  {
   "property": "C06",
   "status": "proved",
   "theorems": [
    "C06_slices_select_the_list",
    "C06_slices_select_the_mask",
    "C06_flag_reports_slice_count",
    "C06_decreasing_refuted",
    "C06_duplicates_refuted",
    "C06_empty_list"
   ],
   "note": ""
  },
  {
   "property": "C07",
   "status": "proved",
   "theorems": [
    "C07_slicify_selects_the_list",
    "C07_slicify_none_empty_slice",
    "C07_slicify_succeeds_iff_progression",
    "C07_slicify_decreasing_refuted"
   ],
   "note": ""
  },
  {
   "property": "C08",
   "status": "proved",
   "theorems": [
    "C08_slice_length",
    "C08_empty_slice_length_refuted"
   ],
   "note": ""
  },
  {
   "property": "C09",
   "status": "proved",
   "theorems": [
    "C09_read_returns_the_block",
    "C09_write_changes_exactly_the_block",
    "C09_read_after_write",
    "C09_ndarray_index_refuted",
    "C09_partial_file_read_is_the_selection"
   ],
   "note": ""
  },
  {
   "property": "C10",
   "status": "proved",
   "theorems": [
    "C10_union",
    "C10_intersection",
    "C10_difference"
   ],
   "note": ""
  },
  {
   "property": "C11",
   "status": "proved",
   "theorems": [
    "C11_combined_filenames",
    "C11_filename_algebra"
   ],
   "note": ""
  },
  {
   "property": "C12",
   "status": "proved",
   "theorems": [
    "C12_range_overlap_exact",
    "C12_malformed_ranges_rejected"
   ],
   "note": ""
  },
  {
   "property": "C13",
   "status": "proved",
   "theorems": [
    "C13_polarization_names_round_trip",
    "C13_jones_names_round_trip",
    "C13_illegal_numbers_raise",
    "C13_names_distinct",
    "C13_parse_gives_canonical_name"
   ],
   "note": ""
  },
  {
   "property": "C14",
   "status": "proved",
   "theorems": [
    "C14_conjugation_involution",
    "C14_conjugation_total_on_legal",
    "C14_names_and_numbers_agree",
    "C14_conjugation_swaps_feeds",
    "C14_string_conjugation_involution",
    "C14_fixed_points"
   ],
   "note": ""
  },
  {
   "property": "C15",
   "status": "proved",
   "theorems": [
    "C15_reorder_conj_is_involution",
    "C15_error_iff_not_closed"
   ],
   "note": ""
  },
  {
   "property": "C16",
   "status": "proved",
   "theorems": [
    "C16_reorder_pols_sorts_and_keeps_records",
    "C16_reorder_pols_succeeds",
    "C16_reorder_pols_by_index"
   ],
   "note": ""
  },
  {
   "property": "C17",
   "status": "proved",
   "theorems": [
    "C17_rectangular_is_product",
    "C17_products_are_recognised",
    "C17_size_mismatch_is_not_rectangular",
    "C17_wrong_declared_order_refuted"
   ],
   "note": ""
  },
  {
   "property": "C18",
   "status": "proved",
   "theorems": [
    "C18_reported_order_is_true",
    "C18_time_major_is_recognised",
    "C18_baseline_major_is_recognised",
    "C18_valid_axis_rejected_refuted"
   ],
   "note": ""
  },
  {
   "property": "C19",
   "status": "proved",
   "theorems": [
    "C19_reorder_blts_permutes_and_sorts",
    "C19_reorder_blts_succeeds",
    "C19_reorder_blts_idempotent",
    "C19_rectangularity_after_reorder",
    "C19_conjugation_comes_first",
    "C19_reorder_blts_by_index",
    "C19_index_list_may_lose_records_refuted",
    "C19_autos_first_breaks_rectangularity_refuted"
   ],
   "note": ""
  },
  {
   "property": "C20",
   "status": "proved",
   "theorems": [
    "C20_antpair2ind_finds_rows",
    "C20_antpair2ind_either_order",
    "C20_two_rows_reversed_refuted"
   ],
   "note": "Exact for ordered lookups and, outside the one-row-each reversed case (C20_two_rows_reversed_refuted), for unordered ones. Histories are those of Spec/AccessSpec.v step; in-place edits of arrays behind the object are outside."
  },
  {
   "property": "C21",
   "status": "proved",
   "theorems": [
    "C21_get_returns_the_baseline",
    "C21_unconjugable_polarizations",
    "C21_reversed_polarizations_refuted",
    "C21_one_sided_polarization_refuted",
    "C21_rows_left_out_refuted"
   ],
   "note": "Complete case analysis for keys in key_cells (squeezing not modelled); the three failing situations are proved as findings."
  },
  {
   "property": "C22",
   "status": "proved",
   "theorems": [
    "C22_set_data",
    "C22_set_flags",
    "C22_set_nsamples"
   ],
   "note": "For objects with distinct polarizations; see key_cells for the keys. For a pair key with unconjugable polarizations set_data writes only the rows stored as asked (not stated)."
  },
  {
   "property": "C23",
   "status": "proved",
   "theorems": [
    "C23_no_stale_answers",
    "C23_x_orientation_refuted"
   ],
   "note": "For the calls in Spec/AccessSpec.v step; C23_x_orientation_refuted for the unwatched attribute."
  },
  {
   "property": "C24",
   "status": "proved",
   "theorems": [
    "C24_turns_exactly_the_asked_rows",
    "C24_succeeds",
    "C24_rejects_missing_conjugate_polarization",
    "C24_convention_holds_afterwards",
    "C24_index_list_is_an_involution",
    "C24_visibilities_unchanged",
    "C24_mixed_numbering_refuted"
   ],
   "note": "get_data equality is for keys given by polarization number and both objects self-consistent (bl_coded is shown kept by default_coded; rect_truthful by C62). C24_mixed_numbering_refuted records the 256-scheme failure. Auto-correlations turned by an index list are conjugated in place (a != b in the statement)."
  },
  {
   "property": "C25",
   "status": "proved",
   "theorems": [
    "C25_flags_follow_unswapped_polarizations",
    "C25_nsamples_follow_unswapped_polarizations",
    "C25_cross_polarization_flags_refuted"
   ],
   "note": "Proved for polarizations fixed by conjugation; C25_cross_polarization_flags_refuted shows the claim false for cross polarizations."
  },
  {
   "property": "C26",
   "status": "proved",
   "theorems": [
    "C26_catalog_never_dangles",
    "C26_merge_named_twice_refuted"
   ],
   "note": "Histories include phase, unproject_phase and consolidation. C26_merge_named_twice_refuted: merge_phase_centers(['a','a']) deletes an entry that is in use."
  },
  {
   "property": "C27",
   "status": "proved",
   "theorems": [
    "C27_requested_id",
    "C27_unknown_old_id",
    "C27_fresh_id"
   ],
   "note": "'Smallest id' is not guaranteed by set.pop, so the statement says: free, non-negative and bounded by the number of ids in use; proved for every choice function."
  },
  {
   "property": "C28",
   "status": "proved",
   "theorems": [
    "C28_split_only_relabels",
    "C28_split_separates",
    "C28_split_keeping_the_name_refuted",
    "C28_merge_only_relabels"
   ],
   "note": "C28_split_keeping_the_name_refuted: with the default new_name=None a split of part of the rows is a silent no-op."
  },
  {
   "property": "C29",
   "status": "proved",
   "theorems": [
    "C29_consolidation_keeps_every_description",
    "C29_alike_reference_entries_refuted"
   ],
   "note": "Side condition 'distinguishable' is necessary: C29_alike_reference_entries_refuted."
  },
  {
   "property": "C30",
   "status": "proved",
   "theorems": [
    "C30_clearing_is_exact"
   ],
   "note": ""
  },
  {
   "property": "C31",
   "status": "proved",
   "theorems": [
    "C31_contiguity_check_is_exact",
    "C31_contiguity_check_errors",
    "C31_repeated_window_refuted"
   ],
   "note": "exact on non-empty axes with distinct window numbers; repeated numbers refuted"
  },
  {
   "property": "C32",
   "status": "proved",
   "theorems": [
    "C32_reorder_freqs_moves_whole_channels",
    "C32_windows_grouped_as_requested",
    "C32_channels_sorted",
    "C32_other_windows_stay",
    "C32_order_kept_within_windows",
    "C32_index_array_obeyed",
    "C32_reorder_freqs_succeeds",
    "C32_window_list_left_unsorted_refuted"
   ],
   "note": "all argument combinations; the window list itself can be left unsorted (refuted part)"
  },
  {
   "property": "C33",
   "status": "proved",
   "theorems": [
    "C33_one_window_averaged",
    "C33_merged_windows_averaged",
    "C33_windows_averaged",
    "C33_other_windows_flagged_refuted",
    "C33_other_windows_flagged_fails_refuted",
    "C33_total_width_conserved",
    "C33_window_without_channels_refuted"
   ],
   "note": "Floats are exact rationals. Several windows kept apart are covered when only the first has flags; the refuted theorems show what happens otherwise. eq_coeffs are averaged too. Warnings and the frequency spacing check that only warns are not modelled."
  },
  {
   "property": "C34",
   "status": "proved",
   "theorems": [
    "C34_remove_keeps_samples",
    "C34_remove_succeeds",
    "C34_convert_keeps_samples",
    "C34_convert_and_back",
    "C34_equal_windows_refuted",
    "C34_make_keeps_unflagged",
    "C34_make_refuses"
   ],
   "note": "remove_flex_pol is covered for windows without repeated frequencies (numpy's default argsort is not stable). eq_coeffs is carried along unchanged, as in the code; metadata_only objects are not modelled."
  },
  {
   "property": "C35",
   "status": "proved",
   "theorems": [
    "C35_select_keeps_exactly",
    "C35_flex_pol",
    "C35_antennas",
    "C35_select_succeeds",
    "C35_no_row_is_an_error",
    "C35_eq_coeffs_refuted",
    "C35_one_channel_per_window_refuted",
    "C35_mixed_tuples_refuted"
   ],
   "note": "ant_str, metadata-only objects, the history and the warnings are not modelled. Empty frequencies or polarizations lists are accepted by the code and are covered (for flex-pol objects an empty polarizations list is excluded)."
  },
  {
   "property": "C36",
   "status": "proved",
   "theorems": [
    "C36_baselines_either_way",
    "C36_both_directions_refuted"
   ],
   "note": ""
  },
  {
   "property": "C37",
   "status": "proved",
   "theorems": [
    "C37_channels_exact",
    "C37_repeated_frequency_refuted"
   ],
   "note": ""
  },
  {
   "property": "C38",
   "status": "proved",
   "theorems": [
    "C38_times_exact",
    "C38_times_found",
    "C38_no_criterion",
    "C38_ranges_exact",
    "C38_wrapped_range_missed_refuted",
    "C38_wrapped_range_taken_refuted",
    "C38_wrapped_lst_missed_refuted"
   ],
   "note": "np.isclose is modelled exactly over Z values with rational tolerances."
  },
  {
   "property": "C39",
   "status": "proved",
   "theorems": [
    "C39_add_loses_and_moves_nothing",
    "C39_only_invalid_data_overwritten",
    "C39_overlapping_data_refused",
    "C39_add_metadata",
    "C39_add_phase_centers",
    "C39_add_succeeds",
    "C39_new_channel_before_a_shared_one_refuted"
   ],
   "note": "Model of __add__ for objects with data. Row labels are pairs (time, baseline) instead of the formatted string; the order of the strings is a parameter, so the theorems hold for any."
  },
  {
   "property": "C40",
   "status": "proved",
   "theorems": [
    "C40_concat_along_blts",
    "C40_concat_along_freqs",
    "C40_concat_along_pols",
    "C40_misfits_refused",
    "C40_fitting_objects_accepted",
    "C40_same_catalogs",
    "C40_two_catalogs",
    "C40_three_catalogs_refuted",
    "C40_window_polarizations_refuted"
   ],
   "note": "Model of fast_concat for objects with data; any number of objects. Nants_data, history and filename are not modelled."
  },
  {
   "property": "C41",
   "status": "proved",
   "theorems": [
    "C41_sum_vis",
    "C41_diff_of_sum",
    "C41_compatibility",
    "C41_unknown_override",
    "C41_large_antenna_numbers_refuted",
    "C41_unsorted_filenames_refuted"
   ],
   "note": "Visibilities are integers (exact arithmetic); the data arrays are taken to have one shape, as the metadata comparison ensures."
  },
  {
   "property": "C42",
   "status": "proved",
   "theorems": [
    "C42_tiles",
    "C42_total",
    "C42_too_long_refuted"
   ],
   "note": "Exact rationals; the phasing of unprojected and driftscan data, LSTs, apparent coordinates and uvws are not modelled; of check() only the count of baselines."
  },
  {
   "property": "C43",
   "status": "proved",
   "theorems": [
    "C43_kept",
    "C43_nothing_to_do",
    "C43_just_above_refuted"
   ],
   "note": "Exact rationals; the phasing of unprojected and driftscan data, LSTs, apparent coordinates and uvws are not modelled; of check() only the count of baselines."
  },
  {
   "property": "C44",
   "status": "proved",
   "theorems": [
    "C44_min_time",
    "C44_n_times",
    "C44_conserved",
    "C44_nothing_to_do",
    "C44_assertion_holds",
    "C44_min_time_total",
    "C44_n_times_total",
    "C44_single_integration_refuted",
    "C44_many_integrations_refuted",
    "C44_dropped_baseline_refuted"
   ],
   "note": "Exact rationals; the phasing of unprojected and driftscan data, LSTs, apparent coordinates and uvws are not modelled; of check() only the count of baselines."
  },
  {
   "property": "C45",
   "status": "proved",
   "theorems": [
    "C45_time_within",
    "C45_averages"
   ],
   "note": "Exact rationals; the phasing of unprojected and driftscan data, LSTs, apparent coordinates and uvws are not modelled; of check() only the count of baselines."
  },
  {
   "property": "C46",
   "status": "proved",
   "theorems": [
    "C46_groups_are_isolated_cliques",
    "C46_strict_partitions",
    "C46_strict_refuses_ambiguity",
    "C46_nonstrict_total",
    "C46_blocks_do_not_matter",
    "C46_nonstrict_covers_refuted"
   ],
   "note": "Coordinates and tolerances are exact; frozensets are compared by value where the code compares their hashes."
  },
  {
   "property": "C47",
   "status": "proved",
   "theorems": [
    "C47_partition",
    "C47_total",
    "C47_members_near_the_first",
    "C47_pairwise_near_refuted",
    "C47_equal_together_refuted"
   ],
   "note": "Coordinates and tolerances are exact; frozensets are compared by value where the code compares their hashes. A zero tolerance (division by zero) is not modelled."
  },
  {
   "property": "C48",
   "status": "proved",
   "theorems": [
    "C48_partition",
    "C48_conjugates",
    "C48_one_orientation",
    "C48_orientation_does_not_matter",
    "C48_groups_near_and_centers",
    "C48_total",
    "C48_near_together_refuted"
   ],
   "note": "Coordinates and tolerances are exact; frozensets are compared by value where the code compares their hashes. The lengths of the centers (square roots) are not modelled."
  },
  {
   "property": "C49",
   "status": "proved",
   "theorems": [
    "C49_mean_collapse",
    "C49_mean_lies_between",
    "C49_nothing_left",
    "C49_default_weights",
    "C49_axis_accepted",
    "C49_absmean_collapse",
    "C49_quadmean_collapse",
    "C49_quadmean_lies_between",
    "C49_tiny_weights_refuted"
   ],
   "note": "Exact rationals with infinities; NaN, complex input and rounding are not modelled. The square root is a real number, so quadmean_lies_between uses the axioms of the standard library's reals."
  },
  {
   "property": "C50",
   "status": "proved",
   "theorems": [
    "C50_or_is_any",
    "C50_and_is_all",
    "C50_dual",
    "C50_numbers_refused",
    "C50_algorithms"
   ],
   "note": "N-dimensional boolean arrays of any shape with any axis argument."
  },
  {
   "property": "C51",
   "status": "proved",
   "theorems": [
    "C51_only_flags",
    "C51_never_unflags",
    "C51_baseline",
    "C51_baseline_by_time",
    "C51_baseline_total",
    "C51_waterfall",
    "C51_waterfall_total",
    "C51_antenna",
    "C51_polarization_order_refuted",
    "C51_time_order_refuted",
    "C51_earlier_times_refuted",
    "C51_other_times_refuted",
    "C51_single_time_refuted"
   ],
   "note": "Flag mode; comparisons of telescope and spectral-window metadata in the conversion are assumed to succeed; of check() only the count of times is modelled."
  },
  {
   "property": "C52",
   "status": "proved",
   "theorems": [
    "C52_add",
    "C52_fast_concat",
    "C52_sum",
    "C52_same_histories",
    "C52_addition",
    "C52_addition_again",
    "C52_version_found",
    "C52_overwrite_refuted"
   ],
   "note": "Strings are lists of 8-bit characters."
  },
  {
   "property": "C53",
   "status": "proved",
   "theorems": [
    "C53_write",
    "C53_layout",
    "C53_round_trip",
    "C53_sequential",
    "C53_gap_refuted",
    "C53_sizes_refuted",
    "C53_split_refuted"
   ],
   "note": "Current (little-endian, unpadded) record format, cross- and auto-correlations; values are integers of a given number of bytes. Masks, channel averaging and objects of several files are not modelled; nor is how metadata tables are written."
  },
  {
   "property": "C54",
   "status": "proved",
   "theorems": [
    "C54_vis",
    "C54_range",
    "C54_raw",
    "C54_raw_same",
    "C54_half_step_refuted",
    "C54_flagged_scale_refuted"
   ],
   "note": "Exact rationals; scaling a float32 by a power of two is exact. NaN and infinities are not modelled."
  },
  {
   "property": "C55",
   "status": "proved",
   "theorems": [
    "C55_rows_and_columns",
    "C55_no_new_flags",
    "C55_idempotent",
    "C55_fraction",
    "C55_extremes",
    "C55_total",
    "C55_cal_fraction"
   ],
   "note": "Quotients are exact rationals."
  },
  {
   "property": "C56",
   "status": "proved",
   "theorems": [
    "C56_waterfall_to_baseline",
    "C56_waterfall_to_baseline_total",
    "C56_round_trip_baseline",
    "C56_to_waterfall_or",
    "C56_to_waterfall_and",
    "C56_to_waterfall_or_pols",
    "C56_to_waterfall_and_pols",
    "C56_waterfall_to_antenna",
    "C56_waterfall_to_antenna_total",
    "C56_round_trip_antenna",
    "C56_antenna_to_baseline",
    "C56_antenna_to_baseline_total",
    "C56_unsorted_times_refuted"
   ],
   "note": "Flag mode, methods 'or' and 'and'; telescope metadata comparisons are assumed to succeed; of check() only the count of times is modelled."
  },
  {
   "property": "C57",
   "status": "proved",
   "theorems": [
    "C57_rows",
    "C57_antennas",
    "C57_nothing_lost",
    "C57_total",
    "C57_antennas_refuted",
    "C57_large_numbers_lost_refuted",
    "C57_short_lost_refuted",
    "C57_ntimes_refuted"
   ],
   "note": "Antennas in the data are assumed to be listed by the telescope; the final check() and Nants_data are not modelled."
  },
  {
   "property": "C58",
   "status": "proved",
   "theorems": [
    "C58_partial_writes_accumulate",
    "C58_parts_equal_whole",
    "C58_wrong_shape_refused"
   ],
   "note": ""
  },
  {
   "property": "C59",
   "status": "proved",
   "theorems": [
    "C59_samples",
    "C59_total",
    "C59_undo",
    "C59_flags_grow",
    "C59_time_order_refuted",
    "C59_freq_order_refuted",
    "C59_half_calibrated_refuted",
    "C59_small_gains_refuted",
    "C59_unit_refuted",
    "C59_conventions_refuted"
   ],
   "note": "Exact rationals. Gain type solutions with a frequency array; delays, wide-band solutions and Dterm_cal, warnings and history are not modelled. Times and frequencies are compared with an absolute tolerance."
  },
  {
   "property": "C60",
   "status": "proved",
   "theorems": [
    "C60_rotECEF",
    "C60_rotECEF_turns",
    "C60_ENU",
    "C60_ENU_refused",
    "C60_ENU_there_and_back",
    "C60_ECEF_there_and_back",
    "C60_ENU_keeps_distances"
   ],
   "note": "Exact real arithmetic (the axioms of the standard library's reals); rounding is not modelled. The site is given by latitude, longitude and altitude."
  },
  {
   "property": "C61",
   "status": "proved",
   "theorems": [
    "C61_scalars",
    "C61_unnoticeable",
    "C61_changed_list_refuted",
    "C61_float_refuted"
   ],
   "note": "Model of functools.lru_cache (keys by equality, least recently used entry evicted) with returned lists as shared objects."
  },
  {
   "property": "C62",
   "status": "proved",
   "theorems": [
    "C62_add",
    "C62_fast_concat_rect",
    "C62_fast_concat_refuted",
    "C62_conjugate_keeps_rectangularity_truthful",
    "C62_antenna_order_keeps_rectangularity_truthful",
    "C62_reorder_pols_keeps_it",
    "C62_reorder_blts_keeps_it",
    "C62_set_rectangularity_makes_it_true",
    "C62_stale_after_conjugation_refuted",
    "C62_select_keeps_it"
   ],
   "note": "Per mutating call with the side conditions in the statement; C62_stale_after_conjugation_refuted and C19_autos_first_breaks_rectangularity_refuted are the failures."
  },
  {
   "property": "C63",
   "status": "proved",
   "theorems": [
    "C63_get_baseline_nums_exact",
    "C63_get_antpairs_exact",
    "C63_get_ants_exact"
   ],
   "note": ""
  },
  {
   "property": "C64",
   "status": "proved",
   "theorems": [
    "C64_phasing_to_a_new_name",
    "C64_phasing_to_a_stored_position",
    "C64_unprojecting",
    "C64_phasing_overwrites_refuted"
   ],
   "note": "C64_phasing_overwrites_refuted: phase() passes the id of the inexact match with force_update=True, so an entry in use by unselected rows is replaced."
  },
  {
   "property": "C65",
   "status": "proved",
   "theorems": [
    "C65_equality",
    "C65_every_object_equals_itself",
    "C65_small_integers_exact",
    "C65_large_antenna_numbers_refuted",
    "C65_symmetry_refuted"
   ],
   "note": "Model of UVParameter.__eq__ and UVBase.__eq__ for None, real and integer numbers and arrays, strings and lists of strings; dicts, recarrays, astropy and nested objects are values compared by an opaque equality; NaN, complex arrays and type checks are not modelled."
  },
  {
   "property": "C66",
   "status": "proved",
   "theorems": [
    "C66_two_rotations",
    "C66_uvw_from_antennas",
    "C66_enu_from_antennas",
    "C66_position_angle_refuted"
   ],
   "note": "Exact real arithmetic (the axioms of the standard library's reals); rounding is not modelled. np.empty's contents are an arbitrary matrix in the model."
  },
  {
   "property": "C67",
   "status": "proved",
   "theorems": [
    "C67_move",
    "C67_from_enu",
    "C67_to_enu",
    "C67_every_vector",
    "C67_there_and_back",
    "C67_enu_and_back",
    "C67_lengths_kept",
    "C67_old_uvw",
    "C67_no_angle_refuted"
   ],
   "note": "Exact real arithmetic (the axioms of the standard library's reals); rounding is not modelled."
  },
  {
   "property": "C68",
   "status": "proved",
   "theorems": [
    "C68_on_ellipsoid",
    "C68_altitude",
    "C68_back_on_ellipsoid",
    "C68_back_on_sphere",
    "C68_longitude_back",
    "C68_pole_refuted"
   ],
   "note": "Exact real arithmetic (the axioms of the standard library's reals); rounding is not modelled. Bowring's formula is not exact off the ellipsoid, so no exact inverse is claimed there."
  },
  {
   "property": "C69",
   "status": "proved",
   "theorems": [
    "C69_polar_back",
    "C69_cart_back"
   ],
   "note": "Exact real arithmetic (the axioms of the standard library's reals); rounding is not modelled."
  },
  {
   "property": "C70",
   "status": "proved",
   "theorems": [
    "C70_every_pair_once",
    "C70_total",
    "C70_docstring_sign_refuted"
   ],
   "note": "Coordinates and tolerances are exact; frozensets are compared by value where the code compares their hashes."
  },
  {
   "property": "C71",
   "status": "proved",
   "theorems": [
    "C71_unchanged",
    "C71_short_enough",
    "C71_only_upsample",
    "C71_only_downsample",
    "C71_neither",
    "C71_loses_data_refuted",
    "C71_lengthens_refuted"
   ],
   "note": "Exact rationals; the phasing of unprojected and driftscan data, LSTs, apparent coordinates and uvws are not modelled; of check() only the count of baselines."
  },
  {
   "property": "C72",
   "status": "proved",
   "theorems": [
    "C72_average",
    "C72_redundant",
    "C72_select",
    "C72_cross_pols_refuted",
    "C72_flagged_refuted",
    "C72_unflagged_refuted"
   ],
   "note": "The groups and the list of conjugated baselines are inputs (C46-C48 are about finding them). No baseline occurs in both orientations. Exact rationals; times are integers. Of the metadata only baselines and times are modelled."
  },
  {
   "property": "C73",
   "status": "proved",
   "theorems": [
    "C73_phase",
    "C73_unproject",
    "C73_set_uvws",
    "C73_positions",
    "C73_round_trip",
    "C73_direct",
    "C73_unproject_mask_refuted",
    "C73_set_uvws_refuted",
    "C73_delta_refuted",
    "C73_lookup_refuted"
   ],
   "note": "Real numbers in place of floats. The sky (astropy, erfa) is any function from position, time and LST to apparent place. lookup_name=True at JPL-Horizons, ephemeris extension, masks that select nothing are not modelled. Phasing under a stored name needs an explicit epoch."
  },
  {
   "property": "C74",
   "status": "proved",
   "theorems": [
    "C74_place",
    "C74_antennas",
    "C74_rotate",
    "C74_history",
    "C74_unproject_mask_refuted",
    "C74_rotate_mask_refuted",
    "C74_lookup_frame_refuted"
   ],
   "note": "As for C73. The hypothesis on position angles excludes rows at one hour angle and declination that differ in position angle (see C66). Rows phased with cat_type='unprojected' need a new name and phase_frame='altaz'."
  },
  {
   "property": "C75",
   "status": "proved",
   "theorems": [
    "C75_power",
    "C75_keep",
    "C75_hermitian",
    "C75_same_sky",
    "C75_three_vector_refuted"
   ],
   "note": "Real numbers in place of floats, so that the imaginary parts _check_auto_power removes are exactly zero. The last two axes of non-healpix beams are one pixel axis. Feeds named from two families (x and e) raise KeyError and are excluded by good_feeds."
  },
  {
   "property": "C76",
   "status": "proved",
   "theorems": [
    "C76_mueller",
    "C76_total",
    "C76_mean",
    "C76_sign_refuted",
    "C76_basis_refuted",
    "C76_one_feed_refuted"
   ],
   "note": "As for C75."
  },
  {
   "property": "C77",
   "status": "proved",
   "theorems": [
    "C77_normalize",
    "C77_again",
    "C77_area",
    "C77_converted_refuted",
    "C77_order_refuted"
   ],
   "note": "A frequency that is all zero gives NaN in the code and an error in the model. Areas are for polarization strings; interpolation to healpix is not modelled."
  },
  {
   "property": "C78",
   "status": "proved",
   "theorems": [
    "C78_reorder_antennas",
    "C78_reorder_times",
    "C78_reorder_jones",
    "C78_reorder_freqs",
    "C78_wide_windows_in_order",
    "C78_channels_in_order",
    "C78_legal_orders_accepted",
    "C78_bad_index_refused"
   ],
   "note": "Phase centers, history and metadata_only objects are not modelled; sorts are stable."
  },
  {
   "property": "C79",
   "status": "proved",
   "theorems": [
    "C79_axes",
    "C79_solutions",
    "C79_total_quality",
    "C79_metadata",
    "C79_window_jones",
    "C79_overlap_refused",
    "C79_different_refused",
    "C79_references_refused",
    "C79_combined",
    "C79_solutions_refuted",
    "C79_window_jones_refuted",
    "C79_same_range_refuted",
    "C79_totals_refuted"
   ],
   "note": "C79_solutions_refuted, C79_window_jones_refuted, C79_same_range_refuted and C79_totals_refuted show that the exceptions are needed. Broadcasting of arrays of other shapes is not modelled; it cannot arise for valid objects."
  },
  {
   "property": "C80",
   "status": "proved",
   "theorems": [
    "C80_kept",
    "C80_solutions",
    "C80_met",
    "C80_absent_refused",
    "C80_get",
    "C80_absent_window_refuted",
    "C80_two_windows_refuted",
    "C80_negative_refuted"
   ],
   "note": "C80_absent_window_refuted, C80_two_windows_refuted and C80_negative_refuted show that the exceptions are needed. Selection by phase center, history and warnings are not modelled."
  },
  {
   "property": "C81",
   "status": "proved",
   "theorems": [
    "C81_when",
    "C81_object",
    "C81_gains",
    "C81_modulus",
    "C81_conventions",
    "C81_sum",
    "C81_baseline"
   ],
   "note": "Over the real numbers. History and the calls of check are not modelled."
  },
  {
   "property": "C82",
   "status": "proved",
   "theorems": [
    "C82_convert",
    "C82_convert_when",
    "C82_remove",
    "C82_remove_total",
    "C82_idle",
    "C82_there_and_back",
    "C82_total_quality_refuted",
    "C82_uneven_refuted",
    "C82_twins_refuted"
   ],
   "note": "C82_total_quality_refuted, C82_uneven_refuted and C82_twins_refuted show that the exceptions are needed. When windows are combined, C82_remove assumes that no frequency is within the tolerance of all channels of a window with several (resolved). metadata_only objects and history are not modelled."
  },
  {
   "property": "C83",
   "status": "proved",
   "theorems": [
    "C83_kept",
    "C83_when",
    "C83_valid",
    "C83_antennas",
    "C83_channels",
    "C83_either_way",
    "C83_order_refuted",
    "C83_shared_frequency_refuted",
    "C83_one_channel_refuted",
    "C83_repeated_refuted"
   ],
   "note": "C83_order_refuted, C83_shared_frequency_refuted, C83_one_channel_refuted and C83_repeated_refuted show that the exceptions are needed. ant_str, history and the final check are not modelled; polarization_array holds integers."
  },
  {
   "property": "C84",
   "status": "proved",
   "theorems": [
    "C84_joined",
    "C84_when",
    "C84_valid",
    "C84_freqs_back",
    "C84_twice_refuted",
    "C84_antennas_refuted",
    "C84_times_refuted",
    "C84_baselines_refuted",
    "C84_windows_refuted"
   ],
   "note": "C84_twice_refuted, C84_antennas_refuted, C84_times_refuted, C84_baselines_refuted and C84_windows_refuted show that the exceptions are needed. The telescopes are taken to be the same; file names, history and collapsed polarizations are not modelled."
  },
  {
   "property": "C85",
   "status": "proved",
   "theorems": [
    "C85_to_flag",
    "C85_to_metric",
    "C85_already",
    "C85_back",
    "C85_or",
    "C85_or_refuses",
    "C85_or_same_shape",
    "C85_default_threshold_refuted",
    "C85_or_labels_refuted"
   ],
   "note": "C85_default_threshold_refuted and C85_or_labels_refuted show that the exceptions are needed. NaN metrics and the history are not modelled; of the final check only the shapes are."
  },
  {
   "property": "C86",
   "status": "proved",
   "theorems": [
    "C86_waterfall",
    "C86_polarizations",
    "C86_already",
    "C86_collapse_pol",
    "C86_flags",
    "C86_fraction",
    "C86_combine",
    "C86_combine_order",
    "C86_combine_chain",
    "C86_combine_refuses",
    "C86_unflagged_fraction",
    "C86_squares_refuted"
   ],
   "note": "C86_squares_refuted shows the last exception; the weights of one are part of C86_flags. Arithmetic is exact and there are no NaNs. Averages of metrics that are themselves quadratic means are covered for the quadratic mean only (suits)."
  },
  {
   "property": "C87",
   "status": "proved",
   "theorems": [
    "C87_select",
    "C87_accepts",
    "C87_twice",
    "C87_pol_order_refuted",
    "C87_pol_twice_refuted",
    "C87_power_basis_refuted",
    "C87_sign_refuted",
    "C87_half_done_refuted"
   ],
   "note": "The exceptions are C87_pol_order_refuted, C87_pol_twice_refuted, C87_power_basis_refuted, C87_sign_refuted and C87_half_done_refuted. History, warnings and the rest of the check are not modelled."
  },
  {
   "property": "C88",
   "status": "proved",
   "theorems": [
    "C88_add",
    "C88_accepts",
    "C88_refuses",
    "C88_split",
    "C88_order_refuted",
    "C88_overwrite_refuted",
    "C88_overwrite_basis_refuted",
    "C88_holes_refuted",
    "C88_power_basis_refuted",
    "C88_orientation_refuted"
   ],
   "note": "The exceptions are C88_order_refuted, C88_overwrite_refuted, C88_overwrite_basis_refuted, C88_holes_refuted, C88_power_basis_refuted and C88_orientation_refuted. File names, history and the rest of the check are not modelled."
  },
  {
   "property": "C89",
   "status": "proved",
   "theorems": [
    "C89_round_trip",
    "C89_when",
    "C89_part",
    "C89_windows",
    "C89_windows_refuted",
    "C89_order_refuted",
    "C89_decreasing_refuted",
    "C89_flags_refuted"
   ],
   "note": "The exceptions are C89_order_refuted, C89_windows (a choice of channels is never granted with several windows) with C89_windows_refuted, C89_decreasing_refuted and C89_flags_refuted. Numbers are exact: the rounding to single precision in the file, the conversion of coordinates between metres and seconds, tolerances, header keywords and the antenna table beyond the numbers are not modelled."
  },
  {
   "property": "C90",
   "status": "proved",
   "theorems": [
    "C90_meaning",
    "C90_antenna",
    "C90_words",
    "C90_nothing_refuted",
    "C90_feed_refuted",
    "C90_orientation_refuted",
    "C90_swapped_refuted",
    "C90_group_refuted",
    "C90_twice_refuted"
   ],
   "note": "The exceptions are C90_nothing_refuted, C90_feed_refuted, C90_orientation_refuted, C90_swapped_refuted, C90_group_refuted and C90_twice_refuted; C90_meaning assumes several polarizations or no letters for the last one. The regular expressions are modelled by functions on characters; warnings and printing are not modelled."
  },
  {
   "property": "C91",
   "status": "proved",
   "theorems": [
    "C91_read",
    "C91_get",
    "C91_set",
    "C91_mask",
    "C91_mask_given",
    "C91_keys",
    "C91_groups",
    "C91_back",
    "C91_any_refuted",
    "C91_or_mask_refuted",
    "C91_group_keys_refuted",
    "C91_length_refuted"
   ],
   "note": "The exceptions are C91_any_refuted, C91_or_mask_refuted, C91_group_keys_refuted and C91_length_refuted. Entries are lists of integers (several for fields like tsys); one field is read or set at a time; sorting on reading (the array of records) is not modelled."
  },
  {
   "property": "C92",
   "status": "proved",
   "theorems": [
    "C92_read",
    "C92_allowed",
    "C92_sum",
    "C92_discard_refuted",
    "C92_order_refuted"
   ],
   "note": "For discard_flagged=False and tables that are in order or not at the same places; the exceptions are C92_discard_refuted and C92_order_refuted. Tables without data are not modelled; records are compared field by field."
  },
  {
   "property": "C93",
   "status": "proved",
   "theorems": [
    "C93_update",
    "C93_select",
    "C93_again",
    "C93_autos_refuted",
    "C93_any_refuted",
    "C93_widen_refuted"
   ],
   "note": "The exceptions are C93_autos_refuted, C93_any_refuted and C93_widen_refuted. Aliases, codes (names of sources) and the data arrays are not modelled; integration numbers are below 2^32."
  },
  {
   "property": "C94",
   "status": "proved",
   "theorems": [
    "C94_refused",
    "C94_all",
    "C94_each",
    "C94_default",
    "C94_freqs",
    "C94_windows",
    "C94_windows_given",
    "C94_arrays",
    "C94_fast_refuted",
    "C94_integration_refuted",
    "C94_order_refuted",
    "C94_single_refuted",
    "C94_pol_refuted",
    "C94_dropped_refuted"
   ],
   "note": "The exceptions are the theorems with suffix _refuted. The telescope, phase centers, uvws and the test for rectangular axes (C17) are not modelled; sidereal time is any function of time."
  },
  {
   "property": "C95",
   "status": "proved",
   "theorems": [
    "C95_when",
    "C95_normalized",
    "C95_undone",
    "C95_autos_one",
    "C95_unordered_refuted"
   ],
   "note": "Data are exact reals (no nan). The exception is C95_unordered_refuted."
  },
  {
   "property": "C96",
   "status": "proved",
   "theorems": [
    "C96_removed",
    "C96_refused",
    "C96_inverse",
    "C96_again_refuted"
   ],
   "note": "The exception is C96_again_refuted. Data are exact rationals; the cache of antpair2ind is not used (C20, C23)."
  },
  {
   "property": "C97",
   "status": "proved",
   "theorems": [
    "C97_blocks",
    "C97_window_jones",
    "C97_new_windows",
    "C97_refused",
    "C97_accepted",
    "C97_shared_window_refuted",
    "C97_window_order_refuted",
    "C97_wide_windows_refuted",
    "C97_references_refuted"
   ],
   "note": "The exceptions are C97_shared_window_refuted, C97_window_order_refuted, C97_wide_windows_refuted and C97_references_refuted. Catalogs of phase centers, histories, filenames and telescopes are not modelled beyond one token that must agree."
  },
  {
   "property": "C98",
   "status": "proved",
   "theorems": [
    "C98_wiring",
    "C98_visibilities",
    "C98_channels",
    "C98_files",
    "C98_flags",
    "C98_flags_refused",
    "C98_missing",
    "C98_antennas",
    "C98_frequencies_refuted"
   ],
   "note": "The exception is C98_frequencies_refuted. The wiring and the packing of files are as documented in the code. Frequencies, widths and times are exact. FITS files, scaling, the Van Vleck, bandpass, digital gain and cable corrections and aoflagger files are not modelled."
  },
  {
   "property": "C99",
   "status": "proved",
   "theorems": [
    "C99_nearest",
    "C99_linear",
    "C99_own",
    "C99_refused",
    "C99_directions",
    "C99_unknown",
    "C99_grid",
    "C99_reuse",
    "C99_reuse_refuted",
    "C99_select_refuted",
    "C99_bandpass_refuted",
    "C99_polarizations_refuted"
   ],
   "note": "The exceptions are C99_reuse_refuted, C99_select_refuted, C99_bandpass_refuted and C99_polarizations_refuted. Splines are arbitrary functions of an image, their options and a direction. Kinds other than nearest and linear, coupling matrices, basis vectors and the check of the domain are not modelled."
  },
  {
   "property": "C100",
   "status": "proved",
   "theorems": [
    "C100_antennas",
    "C100_diameters",
    "C100_both_refused",
    "C100_solutions",
    "C100_times",
    "C100_channels",
    "C100_windows",
    "C100_jones",
    "C100_diameters_refuted",
    "C100_listed"
   ],
   "note": "The exception is C100_diameters_refuted. New antenna positions and diameters given by the user, other keywords, sidereal times, history and the final check are not modelled."
  },
  {
   "property": "C101",
   "status": "proved",
   "theorems": [
    "C101_all",
    "C101_kept",
    "C101_names",
    "C101_numbers",
    "C101_unknown",
    "C101_mixed_refuted"
   ],
   "note": "The exception is C101_mixed_refuted. C101_names and C101_numbers suppose that the number of antennas is set. Locations, diameters, x_orientation, warnings and the final check are not modelled."
  },
  {
   "property": "C102",
   "status": "proved",
   "theorems": [
    "C102_names",
    "C102_array",
    "C102_dict",
    "C102_refused",
    "C102_other",
    "C102_numbers"
   ],
   "note": "The default format of names; names are ASCII strings, and Python's limit on the number of digits of strings read as integers is left out. The other parameters of Telescope.new are not modelled."
  }
 ]
}
