{
 "claims": [
  {
   "property": "C01",
   "status": "partial",
   "theorems": [
    "C01_word_lookup_exact",
    "C01_name_lookup_exact",
    "C01_name_lookup_duplicates",
    "C01_index_for_id",
    "C01_index_for_id_empty_refuted"
   ],
   "note": "Proved for every non-empty and, for names, every empty table. Missing because false of the code: d3plot_index_for_id on an empty id table reads ids[0] (C01_index_for_id_empty_refuted)."
  },
  {
   "property": "C02",
   "status": "proved",
   "theorems": [
    "C02_word_insertion_point",
    "C02_name_insertion_point",
    "C02_name_insertion_point_duplicates"
   ],
   "note": ""
  },
  {
   "property": "C03",
   "status": "proved",
   "theorems": [
    "C03_path_iteration",
    "C03_text_copied",
    "C03_is_absolute"
   ],
   "note": ""
  },
  {
   "property": "C04",
   "status": "partial",
   "theorems": [
    "C04_element_equality",
    "C04_element_order_partial",
    "C04_entry_lookup_partial",
    "C04_entry_lookup_refuted"
   ],
   "note": "Equality proved for all names; order and entry lookup for 7-bit names. False of the code for bytes >= 128 (signed against unsigned comparison): C04_entry_lookup_refuted."
  },
  {
   "property": "C05",
   "status": "partial",
   "theorems": [
    "C05_join_elements",
    "C05_join_one_separator",
    "C05_join_empty_refuted",
    "C05_join_root_refuted"
   ],
   "note": "Proved for every left operand that is neither empty nor the root; both exceptions are refuted: out-of-bounds read, two separators."
  },
  {
   "property": "C06",
   "status": "partial",
   "theorems": [
    "C06_move_up_parent",
    "C06_move_up_root",
    "C06_move_up_relative_refuted"
   ],
   "note": "Proved for absolute paths; false for relative ones (C06_move_up_relative_refuted)."
  },
  {
   "property": "C07",
   "status": "proved",
   "theorems": [
    "C07_builder_concatenates",
    "C07_builder_c_string",
    "C07_clone",
    "C07_clone_len"
   ],
   "note": ""
  },
  {
   "property": "C08",
   "status": "partial",
   "theorems": [
    "C08_get",
    "C08_set",
    "C08_set_defined",
    "C08_compare_partial",
    "C08_compare_long_refuted",
    "C08_starts_with_partial",
    "C08_starts_with_long_refuted",
    "C08_copy_partial",
    "C08_copy_underflow_refuted",
    "C08_copy_to_string"
   ],
   "note": "Every operation proved for texts that stay on one side of the 82-character inline buffer or are compared below it; refuted: comparing two texts of 82+ characters, a long proper prefix, copies whose length underflows."
  },
  {
   "property": "C09",
   "status": "partial",
   "theorems": [
    "C09_lines_partial",
    "C09_lines_any_size",
    "C09_chunk_independent_partial",
    "C09_multiple_refuted",
    "C09_garbage_refuted"
   ],
   "note": "Proved for every file size that is not a multiple of the chunk size and memory without line feeds in it; both exceptions are refuted (an extra empty line; a line split by garbage). C09_lines_any_size says what happens for the remaining sizes."
  },
  {
   "property": "C10",
   "status": "proved",
   "theorems": [
    "C10_comment_position"
   ],
   "note": ""
  },
  {
   "property": "C11",
   "status": "partial",
   "theorems": [
    "C11_keywords_stable_sorted",
    "C11_keywords_permutation",
    "C11_keywords_defined_partial",
    "C11_third_duplicate_refuted"
   ],
   "note": "Order, stability and permutation proved for every event sequence that ends; missing because false of the code: three equal names that are the greatest so far read behind the table (C11_third_duplicate_refuted)."
  },
  {
   "property": "C12",
   "status": "partial",
   "theorems": [
    "C12_get_present",
    "C12_get_absent_partial",
    "C12_get_absent_refuted"
   ],
   "note": "Present keywords: proved for all. Absent ones: except for asking behind the last run of the table, which reads behind it (C12_get_absent_refuted)."
  },
  {
   "property": "C13",
   "status": "partial",
   "theorems": [
    "C13_slice_partial",
    "C13_slice_absent",
    "C13_slice_first_refuted"
   ],
   "note": "Proved for every run that does not start at index 0 without being hit by the search; that case loses a keyword (C13_slice_first_refuted)."
  },
  {
   "property": "C14",
   "status": "partial",
   "theorems": [
    "C14_int_fields_partial",
    "C14_int_sound",
    "C14_int_blank",
    "C14_int_foreign",
    "C14_odd_fields_refuted",
    "C14_overflow_refuted"
   ],
   "note": "Proved as an exact characterisation for fields of at most 18 characters; wider ones can overflow (C14_overflow_refuted); a lone '-' and trailing words are accepted (C14_odd_fields_refuted)."
  },
  {
   "property": "C15",
   "status": "partial",
   "theorems": [
    "C15_type_meaning",
    "C15_int_accepted_partial",
    "C15_float_accepted_partial",
    "C15_blank_is_string",
    "C15_plus_refuted",
    "C15_exponent_refuted"
   ],
   "note": "The meaning of every type is exact (C15_type_meaning). The implication 'reported INT/FLOAT => parser accepts' fails for '+5' and for wide exponents (refuted) and is proved for all other fields."
  },
  {
   "property": "C16",
   "status": "proved",
   "theorems": [
    "C16_float_exact",
    "C16_float_rounded",
    "C16_float_accepted_only",
    "C16_float_defined",
    "C16_whole",
    "C16_float_double"
   ],
   "note": ""
  },
  {
   "property": "C17",
   "status": "partial",
   "theorems": [
    "C17_iteration_partial",
    "C17_short_card_refuted",
    "C17_at_end",
    "C17_last_field"
   ],
   "note": "Proved for cards whose length is a multiple of the width; otherwise the iteration passes the end (C17_short_card_refuted). The end and the last fields of longer cards: C17_at_end, C17_last_field."
  },
  {
   "property": "C18",
   "status": "partial",
   "theorems": [
    "C18_string_trimmed",
    "C18_trimmed_unique",
    "C18_whole_trimmed",
    "C18_is_empty",
    "C18_no_trim_partial",
    "C18_no_trim_short_refuted"
   ],
   "note": "Trimmed variants proved for all fields; the untrimmed variant reads behind a card that is shorter than the field (C18_no_trim_short_refuted)."
  },
  {
   "property": "C19",
   "status": "partial",
   "theorems": [
    "C19_events_partial",
    "C19_table_partial",
    "C19_empty_file_refuted",
    "C19_comment_file_refuted",
    "C19_nameless_refuted",
    "C19_long_line_refuted"
   ],
   "note": "Proved for every file of keywords and cards in the sense of KeyParseSpec; refuted: empty and comment-only files, nameless keywords, lines of 82 characters with an indented keyword."
  },
  {
   "property": "C20",
   "status": "partial",
   "theorems": [
    "C20_names_partial",
    "C20_one_character_refuted",
    "C20_stale_name_refuted",
    "C20_comment_refuted"
   ],
   "note": "Proved for names of two or more characters that are completed and not followed by a comment; the three exceptions are refuted."
  },
  {
   "property": "C21",
   "status": "partial",
   "theorems": [
    "C21_includes_partial",
    "C21_root_folder",
    "C21_meaning_unique",
    "C21_self_include_refuted",
    "C21_absolute_name_refuted",
    "C21_long_message_refuted",
    "C21_missing_file",
    "C21_error_no_keywords",
    "C21_message_limit"
   ],
   "note": "Proved for every include structure that has a meaning (finite derivation [plays], unique by C21_meaning_unique); refuted: self inclusion, absolute names, messages longer than the 1024-byte buffer."
  },
  {
   "property": "C22",
   "status": "partial",
   "theorems": [
    "C22_include_transform_partial",
    "C22_define_transformation_partial",
    "C22_short_card_refuted",
    "C22_plus_refuted",
    "C22_big_float_refuted",
    "C22_blank_is_default"
   ],
   "note": "Proved for every number and content of padded cards with exact arithmetic for floats (rounding: C16_float_rounded); refuted: unpadded cards, '+' signs, floats that do not fit."
  },
  {
   "property": "C23",
   "status": "partial",
   "theorems": [
    "C23_lookup_partial",
    "C23_frame_partial",
    "C23_variable_over_folder_refuted",
    "C23_folder_below_variable_refuted",
    "C23_double_separator_refuted",
    "C23_non_ascii_refuted"
   ],
   "note": "Proved for every history without a variable that is also a folder, with 7-bit names and single separators; each exception is refuted."
  },
  {
   "property": "C24",
   "status": "partial",
   "theorems": [
    "C24_listing_partial",
    "C24_unknown_below_empty_refuted"
   ],
   "note": "Exact for every path: the root and recorded folders are listed with their entries, for other paths the result is computed (nothing, or the refuted case: paths below an empty folder are listed as existing and empty)."
  },
  {
   "property": "C25",
   "status": "partial",
   "theorems": [
    "C25_read_back_partial"
   ],
   "note": "Proved for up to 256 files of well-formed records, the unusable files (if any) being the last ones; the general case is false of the code, see C28."
  },
  {
   "property": "C26",
   "status": "partial",
   "theorems": [
    "C26_typed_read_partial",
    "C26_messages",
    "C26_size_not_reset_refuted",
    "C26_long_path_refuted"
   ],
   "note": "Proved for every directory and path shorter than the message buffer; refuted: *data_size is not reset on failure; long paths overrun the message buffer."
  },
  {
   "property": "C27",
   "status": "partial",
   "theorems": [
    "C27_navigation_partial",
    "C27_above_root_refuted",
    "C27_back_to_root_refuted",
    "C27_cd_root_refuted",
    "C27_absolute_up_refuted"
   ],
   "note": "Proved for every sequence of CD records that never leaves the root and does not return to it; the exceptions are refuted."
  },
  {
   "property": "C28",
   "status": "partial",
   "theorems": [
    "C28_rejected_last_partial",
    "C28_cleanup_index_partial",
    "C28_broken_first_refuted",
    "C28_wrong_file_refuted",
    "C28_many_files_refuted"
   ],
   "note": "Proved when the rejected files are the last ones; false otherwise (swap with the last file keeps stale indices; 8-bit file index): C28_broken_first_refuted, C28_wrong_file_refuted, C28_many_files_refuted."
  },
  {
   "property": "C29",
   "status": "partial",
   "theorems": [
    "C29_broken_header_partial",
    "C29_no_files",
    "C29_truncated_partial",
    "C29_endless_refuted"
   ],
   "note": "Proved for every broken header and every truncation, with the exact messages; refuted: a record of length 0 makes the record loop spin for ever."
  },
  {
   "property": "C30",
   "status": "partial",
   "theorems": [
    "C30_count_partial",
    "C30_between_refuted",
    "C30_variable_first_refuted"
   ],
   "note": "Proved for folders without variables of their own whose entries beginning with 'd' are all time steps; both exceptions are refuted."
  },
  {
   "property": "C31",
   "status": "partial",
   "theorems": [
    "C31_regular_partial",
    "C31_direct_partial",
    "C31_overflow_refuted",
    "C31_shorter_refuted",
    "C31_position_refuted",
    "C31_type_refuted",
    "C31_garbage_refuted",
    "C31_not_timed",
    "C31_messages",
    "C31_missing_partial"
   ],
   "note": "Proved for regular time steps (any type, any nesting) and for variables directly inside of the steps; refuted: more or fewer values than in the first step, nested variables at another position, types, unknown path elements."
  },
  {
   "property": "C32",
   "status": "partial",
   "theorems": [
    "C32_resolution_partial",
    "C32_sound_partial",
    "C32_existing_partial",
    "C32_d_variable_refuted",
    "C32_metadata_variable_refuted",
    "C32_folder_refuted"
   ],
   "note": "Resolution is characterised exactly for every directory whose entries named like a time step or 'metadata' are folders; refuted otherwise; success can also denote a folder (C32_folder_refuted)."
  },
  {
   "property": "C33",
   "status": "proved",
   "theorems": [
    "C33_exclusive",
    "C33_isolated_read",
    "C33_isolated_tell"
   ],
   "note": ""
  },
  {
   "property": "C34",
   "status": "proved",
   "theorems": [
    "C34_bound",
    "C34_reuse"
   ],
   "note": "Counterexamples outside of the stated domain: C34_failures_refuted, C34_reuse_refuted."
  },
  {
   "property": "C35",
   "status": "proved",
   "theorems": [
    "C35_reads",
    "C35_split_independent",
    "C35_skip"
   ],
   "note": "Counterexamples outside of the stated domain: C35_position_refuted."
  },
  {
   "property": "C36",
   "status": "proved",
   "theorems": [
    "C36_seek",
    "C36_read",
    "C36_read_at",
    "C36_skip"
   ],
   "note": "Counterexamples outside of the stated domain: C36_wrap_refuted, C36_close_after_error_refuted."
  },
  {
   "property": "C37",
   "status": "proved",
   "theorems": [
    "C37_word_size",
    "C37_little_endian",
    "C37_little_endian_range"
   ],
   "note": ""
  },
  {
   "property": "C38",
   "status": "proved",
   "theorems": [
    "C38_digit"
   ],
   "note": ""
  },
  {
   "property": "C39",
   "status": "proved",
   "theorems": [
    "C39_tables"
   ],
   "note": ""
  },
  {
   "property": "C40",
   "status": "partial",
   "theorems": [
    "C40_state_tables",
    "C40_disagreement_rejected",
    "C40_globals_refuted"
   ],
   "note": "Tables are proved consecutive for all supported plots, disagreeing node data are rejected; refuted: too few global variables drop all states without an error."
  },
  {
   "property": "C41",
   "status": "proved",
   "theorems": [
    "C41_solids",
    "C41_thick_shells",
    "C41_shells",
    "C41_beams"
   ],
   "note": ""
  },
  {
   "property": "C42",
   "status": "proved",
   "theorems": [
    "C42_part",
    "C42_no_elements",
    "C42_members"
   ],
   "note": ""
  },
  {
   "property": "C43",
   "status": "proved",
   "theorems": [
    "C43_node_indices",
    "C43_node_ids",
    "C43_num_elements"
   ],
   "note": "Counterexamples outside of the stated domain: C43_foreign_part_refuted."
  },
  {
   "property": "C44",
   "status": "partial",
   "theorems": [
    "C44_all_ids_partial",
    "C44_ascending",
    "C44_permutation",
    "C44_part_ids_partial",
    "C44_two_types_exact",
    "C44_interleaved_refuted",
    "C44_overlap_refuted",
    "C44_moved_refuted",
    "C44_plot_refuted"
   ],
   "note": "False in general: proved for tables that can be merged one after the other (exactly characterised for two tables by C44_two_types_exact), every returned array is a permutation; refuted for interleaved ids (unsorted), overlapping memcpy and moved arrays (undefined behaviour)."
  },
  {
   "property": "C45",
   "status": "proved",
   "theorems": [
    "C45_numbers",
    "C45_solids",
    "C45_mismatch",
    "C45_none",
    "C45_outside"
   ],
   "note": "Counterexamples outside of the stated domain: C45_overrun_refuted, C45_unset_refuted."
  },
  {
   "property": "C46",
   "status": "proved",
   "theorems": [
    "C46_shells",
    "C46_mismatch",
    "C46_none",
    "C46_outside"
   ],
   "note": "Counterexamples outside of the stated domain: C46_overrun_refuted, C46_other_strains_refuted, C46_few_points_refuted."
  },
  {
   "property": "C47",
   "status": "partial",
   "theorems": [
    "C47_displacements_refuted",
    "C47_coordinates_partial"
   ],
   "note": "False of the code: plots announcing displacements are rejected at open (C47_displacements_refuted). In every plot that opens nothing is added (C47_coordinates_partial)."
  },
  {
   "property": "C48",
   "status": "proved",
   "theorems": [
    "C48_time",
    "C48_outside",
    "C48_all_times"
   ],
   "note": ""
  },
  {
   "property": "C49",
   "status": "proved",
   "theorems": [
    "C49_no_deadlock"
   ],
   "note": ""
  },
  {
   "property": "C50",
   "status": "proved",
   "theorems": [
    "C50_close"
   ],
   "note": ""
  },
  {
   "property": "C51",
   "status": "partial",
   "theorems": [
    "C51_open_partial",
    "C51_short_file_refuted",
    "C51_unreadable_refuted",
    "C51_long_name_refuted",
    "C51_single_file_refuted",
    "C51_short_control_refuted",
    "C51_extra_refuted"
   ],
   "note": "False in general: the refuted theorems show which inputs lead to undefined behaviour; C51_open_partial and C53 (supported plots) show where there is none."
  },
  {
   "property": "C52",
   "status": "proved",
   "theorems": [
    "C52_family",
    "C52_missing",
    "C52_missing_reported",
    "C52_unclear_reported"
   ],
   "note": ""
  },
  {
   "property": "C53",
   "status": "proved",
   "theorems": [
    "C53_finds_family",
    "C53_control_data",
    "C53_signed",
    "C53_end_marker",
    "C53_flags"
   ],
   "note": ""
  },
  {
   "property": "C54",
   "status": "proved",
   "theorems": [
    "C54_states",
    "C54_states_apart"
   ],
   "note": "Counterexamples outside of the stated domain: C54_last_state_refuted."
  },
  {
   "property": "C55",
   "status": "partial",
   "theorems": [
    "C55_vector",
    "C55_absent",
    "C55_outside",
    "C55_all_states",
    "C55_all_states_absent_refuted"
   ],
   "note": "Proved for all single-state readers and, for vectors that exist, the all-states readers; an all-states read of an absent vector returns other words (C55_all_states_absent_refuted)."
  },
  {
   "property": "C56",
   "status": "partial",
   "theorems": [
    "C56_ids",
    "C56_no_ids_refuted"
   ],
   "note": "Proved for every plot with an id section; without one the ids are the words of the title (C56_no_ids_refuted)."
  },
  {
   "property": "C57",
   "status": "partial",
   "theorems": [
    "C57_part_ids",
    "C57_part_ids_of_titles",
    "C57_no_part_ids",
    "C57_part_titles",
    "C57_title_run_time",
    "C57_no_parts_refuted"
   ],
   "note": "Proved for every supported plot with part ids or titles; without parts an uninitialised pointer is closed (C57_no_parts_refuted)."
  },
  {
   "property": "C58",
   "status": "proved",
   "theorems": [
    "C58_thick_shells",
    "C58_strains_known",
    "C58_mismatch",
    "C58_none",
    "C58_outside"
   ],
   "note": "Counterexamples outside of the stated domain: C58_overflow_refuted."
  },
  {
   "property": "C59",
   "status": "proved",
   "theorems": [
    "C59_beams",
    "C59_mismatch",
    "C59_none",
    "C59_outside"
   ],
   "note": ""
  },
  {
   "property": "C60",
   "status": "proved",
   "theorems": [
    "C60_shell",
    "C60_thick_shell",
    "C60_shells_of_state"
   ],
   "note": "Counterexamples outside of the stated domain: C60_few_points_refuted."
  },
  {
   "property": "C61",
   "status": "proved",
   "theorems": [
    "C61_by_id",
    "C61_unknown",
    "C61_no_parts"
   ],
   "note": "Counterexamples outside of the stated domain: C61_unsorted_refuted."
  },
  {
   "property": "C62",
   "status": "partial",
   "theorems": [
    "C62_values_partial",
    "C62_all_operations",
    "C62_self_assignment_refuted",
    "C62_view"
   ],
   "note": "Proved for every program without self-assignment; a = a loses the values (refuted). C62_all_operations: nothing else is excluded."
  },
  {
   "property": "C63",
   "status": "partial",
   "theorems": [
    "C63_no_leak_partial",
    "C63_assignment_leaks_refuted"
   ],
   "note": "Proved for every program without assignments onto arrays that hold values; these leak (refuted)."
  },
  {
   "property": "C64",
   "status": "partial",
   "theorems": [
    "C64_time_steps",
    "C64_freed_once",
    "C64_first_owns_refuted"
   ],
   "note": "Contents and single release proved; refuted: the arrays are not values on their own, the first one owns the memory of all."
  },
  {
   "property": "C65",
   "status": "partial",
   "theorems": [
    "C65_string",
    "C65_sized",
    "C65_sized_sized",
    "C65_std_partial",
    "C65_std_nul_refuted",
    "C65_mixed_exact",
    "C65_mixed_partial",
    "C65_mixed_sound",
    "C65_mixed_refuted"
   ],
   "note": "Proved for all same-kind comparisons; std::string without NUL; String against SizedString characterised exactly (C65_mixed_exact), which is not equality for strings longer than 32 characters (refuted)."
  },
  {
   "property": "C66",
   "status": "partial",
   "theorems": [
    "C66_string_at",
    "C66_range_for_refuted"
   ],
   "note": "Indexing proved; a range-for over a String never stops at its end (refuted)."
  },
  {
   "property": "C67",
   "status": "partial",
   "theorems": [
    "C67_int_partial",
    "C67_in_range",
    "C67_no_integer_refuted"
   ],
   "note": "Proved for every field with an integer below 2^63 and every target type; a field without an integer gives 0 instead of throwing (refuted)."
  },
  {
   "property": "C68",
   "status": "partial",
   "theorems": [
    "C68_whole_partial",
    "C68_default_partial",
    "C68_throws",
    "C68_short_card_refuted"
   ],
   "note": "Proved for cards that contain the columns asked for; a card that ends inside a field is read past its end (refuted)."
  },
  {
   "property": "C69",
   "status": "partial",
   "theorems": [
    "C69_cards_partial",
    "C69_no_leak_partial",
    "C69_self_assignment_refuted",
    "C69_moved_refuted",
    "C69_assignment_leaks_refuted"
   ],
   "note": "Proved for every program without self-assignment, use after move, and (for leaks) assignment onto an owned copy; all three refuted."
  },
  {
   "property": "C70",
   "status": "partial",
   "theorems": [
    "C70_slice_partial",
    "C70_absent_partial",
    "C70_long_name_refuted",
    "C70_name_ends_at_nul",
    "C70_first_refuted",
    "C70_cards",
    "C70_empty_slice_refuted"
   ],
   "note": "Proved for names up to 990 characters and runs that do not start the table; refuted: longer names, the first run, public constructor with an empty range."
  },
  {
   "property": "C71",
   "status": "proved",
   "theorems": [
    "C71_opened_is_consistent",
    "C71_header_is_complete"
   ],
   "note": ""
  },
  {
   "property": "C72",
   "status": "partial",
   "theorems": [
    "C72_values_partial",
    "C72_all_operations",
    "C72_copy_shares_refuted",
    "C72_self_assignment_refuted"
   ],
   "note": "Proved for every program that copies no part with thick shells and assigns no part to itself; both refuted."
  },
  {
   "property": "C73",
   "status": "partial",
   "theorems": [
    "C73_no_leak_partial",
    "C73_copy_leaks_refuted",
    "C73_assignment_leaks_refuted"
   ],
   "note": "Proved for every program without copies and without assignments onto parts with elements; both leak (refuted)."
  },
  {
   "property": "C74",
   "status": "partial",
   "theorems": [
    "C74_nodes_partial",
    "C74_throws",
    "C74_thick_for_solid_refuted",
    "C74_wrong_nodes_refuted"
   ],
   "note": "Proved if no thick shell connectivities are passed or the part has no solids; otherwise the wrong table is used (refuted)."
  },
  {
   "property": "C75",
   "status": "partial",
   "theorems": [
    "C75_title_partial",
    "C75_part_titles_partial",
    "C75_throws",
    "C75_cut_refuted",
    "C75_no_blank_refuted",
    "C75_part_no_blank_refuted"
   ],
   "note": "Proved for titles of one word followed by blanks; longer titles are cut at the first blank, titles without blanks are scanned past their end (refuted)."
  },
  {
   "property": "C76",
   "status": "partial",
   "theorems": [
    "C76_values_partial",
    "C76_all_operations",
    "C76_copy_without_name_refuted",
    "C76_missing_string_refuted",
    "C76_self_move_refuted"
   ],
   "note": "Proved for every program that copies only objects with a file name; copying without one and reading strings the keyword does not give are undefined (refuted), self-move empties."
  },
  {
   "property": "C77",
   "status": "partial",
   "theorems": [
    "C77_no_leak_partial",
    "C77_temperature_refuted",
    "C77_assignment_refuted"
   ],
   "note": "Proved for objects without a temperature flag and without assignments onto objects holding strings; both leak (refuted)."
  },
  {
   "property": "C78",
   "status": "partial",
   "theorems": [
    "C78_values_partial",
    "C78_all_operations",
    "C78_copy_refuted",
    "C78_assignment_refuted",
    "C78_self_assignment_refuted"
   ],
   "note": "Proved for every program whose copies and assignments are of full objects; others keep uninitialised or old members (refuted)."
  },
  {
   "property": "C79",
   "status": "partial",
   "theorems": [
    "C79_no_leak_partial",
    "C79_assignment_refuted"
   ],
   "note": "Proved for every program without assignments onto objects that hold memory; these leak (refuted)."
  },
  {
   "property": "C80",
   "status": "partial",
   "theorems": [
    "C80_handles_partial",
    "C80_all_operations",
    "C80_moved_from_refuted",
    "C80_moved_string_refuted",
    "C80_self_move_refuted",
    "C80_self_move_names_refuted"
   ],
   "note": "Proved for every program that neither reads a moved-from D3plot, nor uses a text its handle has ended, nor moves an object onto itself; all refuted for every such program (C80_moved_string_refuted: the same holds for a moved-from String). C80_all_operations: nothing else is excluded."
  },
  {
   "property": "C81",
   "status": "partial",
   "theorems": [
    "C81_message_partial",
    "C81_message_moves_partial",
    "C81_copy",
    "C81_open_message",
    "C81_name_partial",
    "C81_stale_message_refuted",
    "C81_destroyed_refuted"
   ],
   "note": "Proved until the same handle is read again or destroyed (names: destroyed), also across moves of the handle; copies and messages of failed opens for ever. Refuted for every program that looks later."
  },
  {
   "property": "C82",
   "status": "partial",
   "theorems": [
    "C82_memory_partial",
    "C82_plots",
    "C82_binout_refuted",
    "C82_assignment_refuted"
   ],
   "note": "Proved for every program without assignments onto open objects: exactly one block per opened Binout with files is left, so programs with D3plot only leak nothing; both exceptions refuted."
  },
  {
   "property": "C83",
   "status": "partial",
   "theorems": [
    "C83_plot_close",
    "C83_plot_close_twice_refuted",
    "C83_failed_plot_close",
    "C83_binout_close_partial",
    "C83_binout_close_refuted"
   ],
   "note": "Everything but the array of files of a binout is released; refuted: that array leaks, a second d3plot_close frees the data pointers twice (for every plot and history of reads)."
  },
  {
   "property": "C84",
   "status": "partial",
   "theorems": [
    "C84_lookup",
    "C84_variable",
    "C84_no_bytes",
    "C84_metadata",
    "C84_timed",
    "C84_num_timesteps",
    "C84_timed_folder",
    "C84_cut_refuted"
   ],
   "note": "Proved for every file and path; refuted outside of whole numbers of elements: a time step whose byte count is no multiple of the element size shifts the arrays of all later steps."
  },
  {
   "property": "C85",
   "status": "partial",
   "theorems": [
    "C85_no_folder",
    "C85_folder_partial",
    "C85_steps_partial",
    "C85_empty_refuted"
   ],
   "note": "Proved for every folder with an entry; refuted: reading a folder without entries accesses an empty vector (undefined behaviour)."
  },
  {
   "property": "C86",
   "status": "partial",
   "theorems": [
    "C86_determined",
    "C86_meaning",
    "C86_parse_partial",
    "C86_untrimmed_partial",
    "C86_whole_partial",
    "C86_default_partial",
    "C86_plus_refuted",
    "C86_short_refuted",
    "C86_default_short_refuted",
    "C86_untrimmed_short_refuted"
   ],
   "note": "Proved for cards that have room for their fields and fields with a meaning (all of up to 11 columns); refuted: integers with a plus sign are returned as 0; cards that end inside of a field are read behind their end."
  },
  {
   "property": "C87",
   "status": "partial",
   "theorems": [
    "C87_str_exact",
    "C87_str_partial",
    "C87_last_refuted",
    "C87_empty_refuted",
    "C87_list_refuted",
    "C87_self_refuted",
    "C87_values",
    "C87_order_partial",
    "C87_prefix_refuted",
    "C87_getitem",
    "C87_setitem_partial",
    "C87_setitem_length",
    "C87_setitem_range",
    "C87_setitem_refuted",
    "C87_new_partial",
    "C87_new_refuted"
   ],
   "note": "Exact rule for strings, values, order and elements; refuted: the last byte of a string is ignored by ==, '' == '' raises IndexError, an array never equals another array, a text that begins with another one is not greater, characters of several bytes are stored by their first byte, sizes wrap around."
  },
  {
   "property": "C88",
   "status": "partial",
   "theorems": [
    "C88_arrays",
    "C88_index_partial",
    "C88_iteration_refuted"
   ],
   "note": "Proved for arrays and for indices below len(); refuted for keywords and slices: the iteration ends with RuntimeError instead of stopping."
  },
  {
   "property": "C89",
   "status": "partial",
   "theorems": [
    "C89_alive_partial",
    "C89_dropped_refuted",
    "C89_element_refuted"
   ],
   "note": "Proved for all runs in which the owner still exists at each use; refuted otherwise: the owner's memory is freed with its last reference (no keep_alive)."
  },
  {
   "property": "C90",
   "status": "partial",
   "theorems": [
    "C90_same_results",
    "C90_shells_partial",
    "C90_thick_shells_partial",
    "C90_all_given_back",
    "C90_empty_blocks_refuted",
    "C90_no_points_refuted",
    "C90_failed_partial",
    "C90_failed_shells_refuted",
    "C90_failed_beams_refuted",
    "C90_beams_partial",
    "C90_beams_without_points_refuted",
    "C90_null"
   ],
   "note": "Proved for shells and thick shells with integration points and for beams with integration points; at most empty blocks are left. Refuted: without integration points an uninitialised pointer (shells) or the content of an empty block (beams) is freed; empty blocks are never freed; a failed read of shells with word size 4 loses the history variables and the additional integration points, a failed read of beams loses both of its arrays."
  },
  {
   "property": "C91",
   "status": "partial",
   "theorems": [
    "C91_shells_partial",
    "C91_thick_shells_partial",
    "C91_memory_partial",
    "C91_copy_refuted",
    "C91_empty_copy_refuted",
    "C91_self_copy_refuted",
    "C91_mean_copy_refuted",
    "C91_overwrite_refuted",
    "C91_thick_index_refuted",
    "C91_beams_refuted",
    "C91_shell_point"
   ],
   "note": "Proved: programs that copy only arrays without history variables and additional points (shells: all indices; thick shells: indices below 256) see exactly the values of the file; if they overwrite only empty arrays and destroy all objects, at most empty blocks stay, and none if all elements have history variables and other than three points. Refuted: a copy of an array shares the memory of the elements (double free), a copy of an empty array cannot be destroyed, assignment of an array to itself loses it, a copy of a mean surface dangles (this is what Python's get_mean gives), assignment loses what an array held, the index of an integration point of thick shells wraps at 256, arrays of beams free only the structs. Thick shells with more than three points and history variables overflow on reading (C58) and are not covered."
  },
  {
   "property": "C92",
   "status": "proved",
   "theorems": [
    "C92_report",
    "C92_no_section",
    "C92_no_file",
    "C92_still_running",
    "C92_own_time",
    "C92_times"
   ],
   "note": ""
  },
  {
   "property": "C93",
   "status": "partial",
   "theorems": [
    "C93_order_partial",
    "C93_column",
    "C93_inner_order_refuted",
    "C93_long_name_refuted"
   ],
   "note": "Proved: the outermost sections are in descending order of their times; the name column has 40 characters and begins with the dashes and the name. Refuted: the sections inside of a section are in the order of their names, except below the first one (only stack[0] is sorted further); a name of 1024 or more characters (with its dashes) overruns the buffer. Missing: the text of the time (double, printf)."
  },
  {
   "property": "C94",
   "status": "partial",
   "theorems": [
    "C94_time",
    "C94_time_outside",
    "C94_all_times",
    "C94_vector",
    "C94_absent",
    "C94_outside",
    "C94_all_states",
    "C94_all_states_absent_refuted",
    "C94_exact"
   ],
   "note": "Proved for all times and announced vectors, absent vectors and states of the single state readers; refuted: the readers of all states do not check that the vector exists (as C55). Plots with displacements (IU = 2) cannot be opened (C47)."
  },
  {
   "property": "C95",
   "status": "partial",
   "theorems": [
    "C95_opens",
    "C95_variable",
    "C95_missing",
    "C95_children",
    "C95_no_folder",
    "C95_count_partial",
    "C95_timed_partial",
    "C95_python_partial"
   ],
   "note": "Proved for existence, types and listings for all files; for counts, timed reads and Python's reads under the conditions of C30, C31 and C84 (regular time steps), outside of which those are refuted. Rejected files have to be the last ones (C28)."
  },
  {
   "property": "C96",
   "status": "partial",
   "theorems": [
    "C96_callbacks_partial",
    "C96_layout_partial",
    "C96_read_back_partial",
    "C96_row_partial",
    "C96_numbers_partial",
    "C96_twice_tame",
    "C96_three_times_refuted"
   ],
   "note": "Proved for all layouts and contents with ordinary keywords (no INCLUDE keywords: C21) in which a name that occurs a third time is not the greatest so far (else refuted, as C11) and for integers of at most 18 columns."
  },
  {
   "property": "C97",
   "status": "proved",
   "theorems": [
    "C97_free",
    "C97_parse",
    "C97_no_leak",
    "C97_undefined",
    "C97_independent"
   ],
   "note": ""
  },
  {
   "property": "C98",
   "status": "partial",
   "theorems": [
    "C98_open",
    "C98_short_family",
    "C98_missing",
    "C98_reads_partial",
    "C98_plenty",
    "C98_outside",
    "C98_read_outside",
    "C98_skip",
    "C98_too_much",
    "C98_near_refuted",
    "C98_single_refuted",
    "C98_wrap_refuted",
    "C98_leak_refuted"
   ],
   "note": "Proved: opening; all reads from a position in an open file, or further away from the open files than their number, with any reads behind it; all reads if every file is open; the errors outside of the data. Refuted: at the limit every seek to a file that is not open and nearer than that fails with 'Failed to open next file' (the last open file is opened again before others are closed); with one open file it is fseek(NULL); below the limit going back to the first file runs out of the array, and going ahead leaks a FILE."
  },
  {
   "property": "C99",
   "status": "partial",
   "theorems": [
    "C99_two_roundings",
    "C99_nearest_partial",
    "C99_nearest_refuted"
   ],
   "note": "Proved: exactly two roundings (the fraction, the sum) for every number of digits up to the precision; hence the nearest number below one, with a fraction the type can hold, and for whole numbers (C16_whole). Refuted otherwise: the field 1.14 read as double and 1.18 read as float are not the nearest. Numbers with exponents: only the bound C16_float_rounded (pow is not specified)."
  },
  {
   "property": "C100",
   "status": "partial",
   "theorems": [
    "C100_open",
    "C100_states",
    "C100_ids",
    "C100_elements",
    "C100_titles",
    "C100_time",
    "C100_all_times",
    "C100_vector",
    "C100_numbers",
    "C100_solids",
    "C100_shells",
    "C100_thick_shells",
    "C100_beams"
   ],
   "note": "Proved for all models with at least one part, at least three integration points and all groups of values stored (IOSHL = 1000); thick shells either without history variables or with three integration points (else refuted: C58_overflow_refuted). Not written: deletion tables, thermal data, higher order elements, history variables of beams (C53 and C58 to C60 say how those are read). With 8 bytes per word the title must not look like a control word."
  },
  {
   "property": "C101",
   "status": "partial",
   "theorems": [
    "C101_paths_partial",
    "C101_overlap_refuted",
    "C101_empty_refuted",
    "C101_folder"
   ],
   "note": "Proved for names at most as long as the folder of the pattern; refuted: a longer name is copied with memcpy between overlapping regions, the empty pattern reads in front of its first character. What _findfirst reports is an input; the POSIX branch passes on what glob(3) reports."
  },
  {
   "property": "C102",
   "status": "partial",
   "theorems": [
    "C102_freed",
    "C102_counts",
    "C102_ids",
    "C102_all_ids",
    "C102_elements",
    "C102_titles",
    "C102_times",
    "C102_vectors",
    "C102_velocity_acceleration",
    "C102_room",
    "C102_part_room",
    "C102_nodes_room",
    "C102_part",
    "C102_part_by_id",
    "C102_part_freed",
    "C102_nodes_partial",
    "C102_nodes_leak_refuted"
   ],
   "note": "Proved for all readers of ids, connectivity, titles, times, vectors and parts; for the nodes of a part when the connectivity of its elements is passed. Refuted: connectivity that d3plot_part_get_node_ids2, _node_indices2 and _num_nodes2 read themselves is never freed (pgni.h never sets loaded_cons). The element states are C90; coordinates of displacement plots, the state readers of C48 and d3plot_part_get_all_element_ids are not part of this memory model."
  },
  {
   "property": "C103",
   "status": "proved",
   "theorems": [
    "C103_type_id",
    "C103_children",
    "C103_open_error",
    "C103_read",
    "C103_read_timed",
    "C103_real_path",
    "C103_read_room",
    "C103_timed_room",
    "C103_children_room",
    "C103_error_room",
    "C103_path_room",
    "C103_client"
   ],
   "note": ""
  },
  {
   "property": "C104",
   "status": "partial",
   "theorems": [
    "C104_ids",
    "C104_elements",
    "C104_titles",
    "C104_times",
    "C104_vectors",
    "C104_rows_partial",
    "C104_no_states_refuted",
    "C104_all_ids_partial",
    "C104_all_ids_leak_refuted",
    "C104_part",
    "C104_part_by_id"
   ],
   "note": "Proved for all readers of ids, connectivity, titles, times, vectors of a state and parts, without further conditions; vectors of all states if three times the number of nodes fits 64 bits and for their destruction if there are states. Refuted: without states the block is left to nobody; D3plot::read_all_element_ids throws an error of the last table (the thick shells) that the C function says it ignores, and the array of the ids of the other elements is lost. What blocks contain is carried beside the objects; coordinates of displacement plots and the state readers are not in this model."
  },
  {
   "property": "C105",
   "status": "proved",
   "theorems": [
    "C105_read",
    "C105_read_timed",
    "C105_type_id",
    "C105_children",
    "C105_real_path"
   ],
   "note": ""
  },
  {
   "property": "C106",
   "status": "partial",
   "theorems": [
    "C106_first_partial",
    "C106_same_errors",
    "C106_no_recovery_refuted",
    "C106_overflow_refuted",
    "C106_open_partial",
    "C106_long_name_refuted",
    "C106_file_type"
   ],
   "note": "Proved: the first error of a plot, for system messages of at most 900 characters, and errors of opening, for names shorter than 992 characters, have exactly the message of their cause (a file it names by number is there and cannot be opened); the errors of later calls are those of the model without texts. Refuted: a plot whose read has failed once never reads again (the error string of the buffer is not cleared and taken for a failed seek); every further call makes the message 27 characters longer, and the 38th at the latest writes behind the array of 1024 bytes; so does opening a missing file with a name of 992 or more characters. Calls that read one block of words (title, run time, ids, time)."
  },
  {
   "property": "C107",
   "status": "partial",
   "theorems": [
    "C107_same_errors",
    "C107_local_time",
    "C107_time_partial",
    "C107_single",
    "C107_late_refuted",
    "C107_throws",
    "C107_written"
   ],
   "note": "Proved for all words of 4 bytes and all times from 1677 to 2262; later times, which only words of 8 bytes can hold, overflow the nanoseconds of a time point (refuted). localtime is a parameter."
  }
 ]
}