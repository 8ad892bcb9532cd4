{
 "claims": [
  {
   "property": "C01",
   "status": "proved",
   "theorems": [
    "C01_parts_are_maximal_runs",
    "C01_runs_list_is_unique",
    "C01_true_index_in_exactly_one_part"
   ],
   "note": ""
  },
  {
   "property": "C02",
   "status": "proved",
   "theorems": [
    "C02_filter_is_concatenation_of_parts",
    "C02_mask_length_mismatch_raises"
   ],
   "note": ""
  },
  {
   "property": "C03",
   "status": "proved",
   "theorems": [
    "C03_nan_replaces_masked_out_elements",
    "C03_other_lengths",
    "C03_integers_beyond_2_53_refuted"
   ],
   "note": ""
  },
  {
   "property": "C04",
   "status": "proved",
   "theorems": [
    "C04_startstop_last_trigger"
   ],
   "note": ""
  },
  {
   "property": "C05",
   "status": "proved",
   "theorems": [
    "C05_startstop_apply",
    "C05_startstop_bad_length",
    "C05_one_element_result_is_broadcast"
   ],
   "note": ""
  },
  {
   "property": "C06",
   "status": "proved",
   "theorems": [
    "C06_duration_removes_exactly_the_bad_runs",
    "C06_duration_error_changes_nothing",
    "C06_duration_idempotent",
    "C06_durations_compose"
   ],
   "note": ""
  },
  {
   "property": "C07",
   "status": "proved",
   "theorems": [
    "C07_when_at_least_duration_is_honoured",
    "C07_integral_requirement_is_exact",
    "C07_fractional_requirement_refuted"
   ],
   "note": ""
  },
  {
   "property": "C08",
   "status": "proved",
   "theorems": [
    "C08_mindur_is_persistent",
    "C08_string_mask_refuted"
   ],
   "note": ""
  },
  {
   "property": "C09",
   "status": "proved",
   "theorems": [
    "C09_parts_reflect_the_mask_in_every_world",
    "C09_writing_mask_elements_refuted",
    "C09_sharing_a_mask_array_refuted",
    "C09_parts_reflect_the_current_mask"
   ],
   "note": ""
  },
  {
   "property": "C10",
   "status": "proved",
   "theorems": [
    "C10_mask_reset",
    "C10_all_true_without_nan",
    "C10_all_true_refuted_with_nan",
    "C10_empty_pack"
   ],
   "note": ""
  },
  {
   "property": "C11",
   "status": "proved",
   "theorems": [
    "C11_part_selection"
   ],
   "note": ""
  },
  {
   "property": "C12",
   "status": "proved",
   "theorems": [
    "C12_nof_argument_overrides_attribute"
   ],
   "note": ""
  },
  {
   "property": "C13",
   "status": "proved",
   "theorems": [
    "C13_integer_lookup",
    "C13_string_lookup",
    "C13_duplicate_name_without_data"
   ],
   "note": ""
  },
  {
   "property": "C14",
   "status": "proved",
   "theorems": [
    "C14_fallback_round_trip",
    "C14_trailing_junk_and_negative_keys_refuted"
   ],
   "note": ""
  },
  {
   "property": "C15",
   "status": "proved",
   "theorems": [
    "C15_append_concatenates_channels"
   ],
   "note": ""
  },
  {
   "property": "C16",
   "status": "proved",
   "theorems": [
    "C16_append_data_keys_differ",
    "C16_append_names_keys_differ_is_not_atomic",
    "C16_append_with_an_empty_side"
   ],
   "note": ""
  },
  {
   "property": "C17",
   "status": "proved",
   "theorems": [
    "C17_operations_on_other_packs",
    "C17_append_isolates",
    "C17_append_copies_the_arrays",
    "C17_empty_pack_shares_the_dicts",
    "C17_empty_pack_refuted"
   ],
   "note": ""
  },
  {
   "property": "C18",
   "status": "proved",
   "theorems": [
    "C18_fn_and_filenames",
    "C18_fn_assignment_and_append"
   ],
   "note": ""
  },
  {
   "property": "C19",
   "status": "proved",
   "theorems": [
    "C19_reading_calls_change_nothing",
    "C19_call_returns_the_value",
    "C19_plain_calls_return_the_stored_array",
    "C19_copying_calls_return_fresh_arrays",
    "C19_duration_returns_the_mask",
    "C19_startstop_returns_a_new_array"
   ],
   "note": ""
  },
  {
   "property": "C20",
   "status": "proved",
   "theorems": [
    "C20_keys_stay_integers",
    "C20_construction_gives_integer_keys",
    "C20_other_key_rejected",
    "C20_update_with_other_key_rejected",
    "C20_accepted_update_stores_all",
    "C20_keys_stay_unique",
    "C20_single_items"
   ],
   "note": ""
  },
  {
   "property": "C21",
   "status": "proved",
   "theorems": [
    "C21_iterator_entries_lost_refuted",
    "C21_data_dict_keeps_iterator_entries",
    "C21_non_integer_keys_get_in_refuted",
    "C21_failed_update_may_have_inserted"
   ],
   "note": ""
  },
  {
   "property": "C22",
   "status": "proved",
   "theorems": [
    "C22_values_stay_arrays",
    "C22_unacceptable_value_changes_nothing",
    "C22_acceptable_values_are_flat"
   ],
   "note": ""
  },
  {
   "property": "C23",
   "status": "proved",
   "theorems": [
    "C23_attribute_type_protection",
    "C23_accepted_values_are_stored"
   ],
   "note": ""
  },
  {
   "property": "C24",
   "status": "proved",
   "theorems": [
    "C24_assigned_npdict_is_shared",
    "C24_assigning_a_plain_dict_resets_the_mask",
    "C24_npdict_keeps_the_old_mask"
   ],
   "note": ""
  },
  {
   "property": "C25",
   "status": "proved",
   "theorems": [
    "C25_records_by_name",
    "C25_records_by_fallback",
    "C25_fallback_mislabels_refuted",
    "C25_records_errors"
   ],
   "note": ""
  },
  {
   "property": "C26",
   "status": "proved",
   "theorems": [
    "C26_name",
    "C26_name_errors"
   ],
   "note": ""
  },
  {
   "property": "C27",
   "status": "proved",
   "theorems": [
    "C27_round_trip",
    "C27_integers"
   ],
   "note": ""
  },
  {
   "property": "C28",
   "status": "proved",
   "theorems": [
    "C28_equal_length"
   ],
   "note": ""
  },
  {
   "property": "C29",
   "status": "proved",
   "theorems": [
    "C29_projection",
    "C29_names_select",
    "C29_unsorted_refuted",
    "C29_duplicate_refuted"
   ],
   "note": ""
  },
  {
   "property": "C30",
   "status": "proved",
   "theorems": [
    "C30_columns",
    "C30_fails",
    "C30_value_error",
    "C30_converter_index"
   ],
   "note": ""
  },
  {
   "property": "C31",
   "status": "proved",
   "theorems": [
    "C31_narrowest",
    "C31_blank_lines",
    "C31_tab_line_refuted"
   ],
   "note": ""
  },
  {
   "property": "C32",
   "status": "proved",
   "theorems": [
    "C32_same_data",
    "C32_names",
    "C32_skiprows"
   ],
   "note": ""
  },
  {
   "property": "C33",
   "status": "proved",
   "theorems": [
    "C33_debug",
    "C33_ragged_refuted",
    "C33_first_line_refuted"
   ],
   "note": ""
  },
  {
   "property": "C34",
   "status": "proved",
   "theorems": [
    "C34_rows",
    "C34_single",
    "C34_one_character",
    "C34_found",
    "C34_blank_error",
    "C34_lazy",
    "C34_lazy_single",
    "C34_comma_delimiter_refuted",
    "C34_comma_last_row_refuted",
    "C34_aligned_refuted",
    "C34_surroundings_refuted"
   ],
   "note": ""
  },
  {
   "property": "C35",
   "status": "proved",
   "theorems": [
    "C35_arguments",
    "C35_not_found",
    "C35_all_given",
    "C35_blank",
    "C35_usecols_none",
    "C35_position_refuted"
   ],
   "note": ""
  },
  {
   "property": "C36",
   "status": "proved",
   "theorems": [
    "C36_dbfpack_inverts_encoding"
   ],
   "note": ""
  },
  {
   "property": "C37",
   "status": "proved",
   "theorems": [
    "C37_selection_is_projection",
    "C37_selection_is_projection_refuted"
   ],
   "note": ""
  },
  {
   "property": "C38",
   "status": "proved",
   "theorems": [
    "C38_deleted_records_never_appear",
    "C38_rows_are_the_live_records"
   ],
   "note": ""
  },
  {
   "property": "C39",
   "status": "proved",
   "theorems": [
    "C39_truncated_copy_raises",
    "C39_short_file_raises",
    "C39_selecting_last_field_raises",
    "C39_selecting_reader_raises_refuted"
   ],
   "note": ""
  },
  {
   "property": "C40",
   "status": "proved",
   "theorems": [
    "C40_conversion_of_well_formed_fields",
    "C40_numeric_fields_total",
    "C40_date_fields_total",
    "C40_logical_and_text_fields_total"
   ],
   "note": ""
  },
  {
   "property": "C41",
   "status": "proved",
   "theorems": [
    "C41_value",
    "C41_bijection",
    "C41_case",
    "C41_monotone",
    "C41_rejected",
    "C41_nonletters_refuted"
   ],
   "note": ""
  },
  {
   "property": "C42",
   "status": "proved",
   "theorems": [
    "C42_parse_back",
    "C42_two_letters",
    "C42_negative_index_refuted"
   ],
   "note": ""
  },
  {
   "property": "C43",
   "status": "proved",
   "theorems": [
    "C43_address",
    "C43_no_letter",
    "C43_total",
    "C43_parsers_agree",
    "C43_leading_zero_refuted",
    "C43_print_parse"
   ],
   "note": ""
  },
  {
   "property": "C44",
   "status": "proved",
   "theorems": [
    "C44_items",
    "C44_text",
    "C44_sorted",
    "C44_inner_space_refuted"
   ],
   "note": ""
  },
  {
   "property": "C45",
   "status": "proved",
   "theorems": [
    "C45_typing",
    "C45_positions"
   ],
   "note": ""
  },
  {
   "property": "C46",
   "status": "proved",
   "theorems": [
    "C46_rectangle",
    "C46_outside",
    "C46_bare_stop_column_refuted",
    "C46_no_columns",
    "C46_other_header_refuted",
    "C46_other_header",
    "C46_false_header",
    "C46_array_refuted"
   ],
   "note": ""
  },
  {
   "property": "C47",
   "status": "proved",
   "theorems": [
    "C47_date_round_trip",
    "C47_datetime_round_trip",
    "C47_time_round_trip",
    "C47_serials_are_days",
    "C47_consecutive",
    "C47_monotone",
    "C47_range_errors",
    "C47_documented_range_refuted",
    "C47_accepted_tuples"
   ],
   "note": ""
  },
  {
   "property": "C48",
   "status": "proved",
   "theorems": [
    "C48_integral_agree",
    "C48_serials_59_60",
    "C48_injective_elsewhere",
    "C48_datetime_round_trip",
    "C48_half_second"
   ],
   "note": ""
  },
  {
   "property": "C49",
   "status": "proved",
   "theorems": [
    "C49_grid",
    "C49_order",
    "C49_ragged",
    "C49_refused",
    "C49_pack",
    "C49_negative_refuted"
   ],
   "note": ""
  },
  {
   "property": "C50",
   "status": "proved",
   "theorems": [
    "C50_number",
    "C50_special",
    "C50_integers",
    "C50_short"
   ],
   "note": ""
  },
  {
   "property": "C51",
   "status": "proved",
   "theorems": [
    "C51_terminates",
    "C51_reads",
    "C51_sound",
    "C51_cycle",
    "C51_short_streams",
    "C51_mark_refuted",
    "C51_locate"
   ],
   "note": ""
  },
  {
   "property": "C52",
   "status": "proved",
   "theorems": [
    "C52_tree",
    "C52_returns",
    "C52_cycle",
    "C52_shared_refuted"
   ],
   "note": ""
  },
  {
   "property": "C53",
   "status": "proved",
   "theorems": [
    "C53_pieces",
    "C53_verdict",
    "C53_independent",
    "C53_not_date"
   ],
   "note": ""
  },
  {
   "property": "C54",
   "status": "proved",
   "theorems": [
    "C54_table",
    "C54_cuts",
    "C54_unicode",
    "C54_unicode_empty",
    "C54_surrogates_refuted",
    "C54_phonetic_refuted"
   ],
   "note": ""
  },
  {
   "property": "C55",
   "status": "proved",
   "theorems": [
    "C55_histories_follow_the_value_model",
    "C55_new_packs",
    "C55_one_operation"
   ],
   "note": ""
  },
  {
   "property": "C56",
   "status": "proved",
   "theorems": [
    "C56_opens",
    "C56_refuses",
    "C56_disjoint"
   ],
   "note": ""
  },
  {
   "property": "C57",
   "status": "proved",
   "theorems": [
    "C57_search",
    "C57_reads",
    "C57_twice_refuted"
   ],
   "note": ""
  },
  {
   "property": "C58",
   "status": "proved",
   "theorems": [
    "C58_opens",
    "C58_encrypted",
    "C58_cut",
    "C58_ends",
    "C58_beyond_refuted",
    "C58_dimension_refuted"
   ],
   "note": ""
  },
  {
   "property": "C59",
   "status": "proved",
   "theorems": [
    "C59_opens",
    "C59_pack"
   ],
   "note": ""
  },
  {
   "property": "C60",
   "status": "proved",
   "theorems": [
    "C60_one_nearest",
    "C60_text_decimals",
    "C60_dbase_decimals"
   ],
   "note": ""
  },
  {
   "property": "C61",
   "status": "proved",
   "theorems": [
    "C61_opens",
    "C61_bad_row",
    "C61_missing_sheet",
    "C61_no_workbook",
    "C61_capital_relations_refuted",
    "C61_unnumbered_row_refuted",
    "C61_negative_string_refuted"
   ],
   "note": ""
  },
  {
   "property": "C62",
   "status": "proved",
   "theorems": [
    "C62_pack"
   ],
   "note": ""
  },
  {
   "property": "C63",
   "status": "proved",
   "theorems": [
    "C63_same",
    "C63_division_refuted",
    "C63_empty_call_refuted",
    "C63_compare_refuted",
    "C63_union_refuted",
    "C63_choose_refuted",
    "C63_span_refuted",
    "C63_chain_refuted",
    "C63_self_refuted",
    "C63_text_refuted",
    "C63_huge_refuted",
    "C63_sheetless_refuted",
    "C63_macro_refuted"
   ],
   "note": ""
  },
  {
   "property": "C64",
   "status": "proved",
   "theorems": [
    "C64_same",
    "C64_url_refuted",
    "C64_box_refuted",
    "C64_object_refuted",
    "C64_tip_refuted",
    "C64_mark_refuted"
   ],
   "note": ""
  },
  {
   "property": "C65",
   "status": "proved",
   "theorems": [
    "C65_ends",
    "C65_hangs_refuted",
    "C65_all_ends",
    "C65_turning_refuted"
   ],
   "note": ""
  },
  {
   "property": "C66",
   "status": "proved",
   "theorems": [
    "C66_cells",
    "C66_shape",
    "C66_dimension_refuted",
    "C66_xlsx",
    "C66_none_refuted",
    "C66_pack",
    "C66_pack_xlsx",
    "C66_all_cells",
    "C66_all_new",
    "C66_all_shape",
    "C66_all_pack",
    "C66_early_refuted"
   ],
   "note": ""
  },
  {
   "property": "C67",
   "status": "proved",
   "theorems": [
    "C67_utf8",
    "C67_latin1",
    "C67_textpack",
    "C67_lazy_textpack",
    "C67_separator_refuted",
    "C67_newline_refuted",
    "C67_digits_refuted"
   ],
   "note": ""
  },
  {
   "property": "C68",
   "status": "proved",
   "theorems": [
    "C68_repr",
    "C68_order_and_mask"
   ],
   "note": ""
  },
  {
   "property": "C69",
   "status": "proved",
   "theorems": [
    "C69_opens",
    "C69_pack"
   ],
   "note": ""
  },
  {
   "property": "C70",
   "status": "proved",
   "theorems": [
    "C70_opens",
    "C70_pack",
    "C70_no_formats_refuted"
   ],
   "note": ""
  },
  {
   "property": "C71",
   "status": "proved",
   "theorems": [
    "C71_same",
    "C71_reference_refuted"
   ],
   "note": ""
  },
  {
   "property": "C72",
   "status": "proved",
   "theorems": [
    "C72_opens",
    "C72_pack",
    "C72_mode_refuted",
    "C72_unplaced",
    "C72_misnamed"
   ],
   "note": ""
  },
  {
   "property": "C73",
   "status": "proved",
   "theorems": [
    "C73_text_named",
    "C73_text_stream",
    "C73_lazy_named",
    "C73_lazy_stream",
    "C73_dbf_named",
    "C73_dbf_stream",
    "C73_first_call_refuted",
    "C73_closed_stream"
   ],
   "note": ""
  },
  {
   "property": "C74",
   "status": "proved",
   "theorems": [
    "C74_xls",
    "C74_archive_refuted"
   ],
   "note": ""
  },
  {
   "property": "C75",
   "status": "proved",
   "theorems": [
    "C75_raw",
    "C75_raw_error"
   ],
   "note": ""
  },
  {
   "property": "C76",
   "status": "proved",
   "theorems": [
    "C76_assigned",
    "C76_only",
    "C76_text_kept_refuted"
   ],
   "note": ""
  },
  {
   "property": "C77",
   "status": "proved",
   "theorems": [
    "C77_columns",
    "C77_refused"
   ],
   "note": ""
  },
  {
   "property": "C78",
   "status": "proved",
   "theorems": [
    "C78_values",
    "C78_read",
    "C78_refused",
    "C78_selected"
   ],
   "note": ""
  },
  {
   "property": "C79",
   "status": "proved",
   "theorems": [
    "C79_rows",
    "C79_no_row",
    "C79_columns",
    "C79_readxl",
    "C79_cells",
    "C79_iteration",
    "C79_rectangle",
    "C79_sheets"
   ],
   "note": ""
  },
  {
   "property": "C80",
   "status": "proved",
   "theorems": [
    "C80_cell",
    "C80_range",
    "C80_unique",
    "C80_unique_refuted",
    "C80_sheet",
    "C80_r1c1",
    "C80_r1c1_unique",
    "C80_a1",
    "C80_one_base_refuted",
    "C80_relative_sheets"
   ],
   "note": ""
  },
  {
   "property": "C81",
   "status": "proved",
   "theorems": [
    "C81_counts",
    "C81_one",
    "C81_written",
    "C81_padding_refuted",
    "C81_ends",
    "C81_file",
    "C81_document"
   ],
   "note": ""
  },
  {
   "property": "C82",
   "status": "proved",
   "theorems": [
    "C82_text",
    "C82_reads",
    "C82_ends",
    "C82_negative_refuted",
    "C82_file",
    "C82_document"
   ],
   "note": ""
  },
  {
   "property": "C83",
   "status": "proved",
   "theorems": [
    "C83_opens",
    "C83_answers",
    "C83_country_refuted",
    "C83_eager",
    "C83_stored",
    "C83_same",
    "C83_new",
    "C83_released",
    "C83_number_refuted",
    "C83_numbers",
    "C83_failing_refuted",
    "C83_countries",
    "C83_ends"
   ],
   "note": ""
  },
  {
   "property": "C84",
   "status": "proved",
   "theorems": [
    "C84_cell",
    "C84_cell_fails",
    "C84_documented_refuted",
    "C84_area",
    "C84_clipped",
    "C84_places",
    "C84_area_fails",
    "C84_agree"
   ],
   "note": ""
  },
  {
   "property": "C85",
   "status": "proved",
   "theorems": [
    "C85_expand",
    "C85_words",
    "C85_lossless",
    "C85_display",
    "C85_texts",
    "C85_stored"
   ],
   "note": ""
  },
  {
   "property": "C86",
   "status": "proved",
   "theorems": [
    "C86_nearest",
    "C86_colours",
    "C86_exact",
    "C86_order"
   ],
   "note": ""
  },
  {
   "property": "C87",
   "status": "proved",
   "theorems": [
    "C87_same",
    "C87_options",
    "C87_zoom",
    "C87_fit",
    "C87_grid"
   ],
   "note": ""
  },
  {
   "property": "C88",
   "status": "proved",
   "theorems": [
    "C88_width",
    "C88_biff2_refuted",
    "C88_unformatted"
   ],
   "note": ""
  }
 ]
}