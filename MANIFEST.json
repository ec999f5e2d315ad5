{
 "claims": [
  {
   "property": "C01",
   "status": "proved",
   "theorems": [
    "C01_scalars_survive"
   ],
   "note": ""
  },
  {
   "property": "C02",
   "status": "proved",
   "theorems": [
    "C02_strings_survive",
    "C02_validation_is_utf8"
   ],
   "note": ""
  },
  {
   "property": "C03",
   "status": "proved",
   "theorems": [
    "C03_values_survive"
   ],
   "note": ""
  },
  {
   "property": "C04",
   "status": "proved",
   "theorems": [
    "C04_header_lengths"
   ],
   "note": "For every record of every finished file of at most 2e9 bytes."
  },
  {
   "property": "C05",
   "status": "proved",
   "theorems": [
    "C05_keys_survive"
   ],
   "note": ""
  },
  {
   "property": "C06",
   "status": "proved",
   "theorems": [
    "C06_packed_date_determines_the_second",
    "C06_date_read_back_refuted"
   ],
   "note": "The packed date determines the second (1995-2058). The reader does not unpack it: C06_date_read_back_refuted."
  },
  {
   "property": "C07",
   "status": "proved",
   "theorems": [
    "C07_free_segments_survive"
   ],
   "note": ""
  },
  {
   "property": "C08",
   "status": "proved",
   "theorems": [
    "C08_file_header_survives"
   ],
   "note": ""
  },
  {
   "property": "C09",
   "status": "proved",
   "theorems": [
    "C09_directory_survives"
   ],
   "note": ""
  },
  {
   "property": "C10",
   "status": "proved",
   "theorems": [
    "C10_object_lists_survive"
   ],
   "note": "For arbitrary class tables and object bodies that are themselves readable; object positions below 2^31."
  },
  {
   "property": "C11",
   "status": "proved",
   "theorems": [
    "C11_baskets_give_back_their_entries"
   ],
   "note": ""
  },
  {
   "property": "C12",
   "status": "proved",
   "theorems": [
    "C12_columns_give_back_their_values"
   ],
   "note": ""
  },
  {
   "property": "C13",
   "status": "proved",
   "theorems": [
    "C13_file_gives_back_its_tables"
   ],
   "note": ""
  },
  {
   "property": "C14",
   "status": "proved",
   "theorems": [
    "C14_tree_is_as_long_as_its_longest_column"
   ],
   "note": ""
  },
  {
   "property": "C15",
   "status": "proved",
   "theorems": [
    "C15_callbacks_hear_every_row",
    "C15_after_is_never_heard"
   ],
   "note": ""
  },
  {
   "property": "C16",
   "status": "proved",
   "theorems": [
    "C16_cycle_numbers",
    "C16_newest_cycle_wins_refuted",
    "C16_newest_cycle_wins"
   ],
   "note": "Names without a semicolon (the lookup takes 'name;cycle' apart), for files in which no name is used more than 32767 times; beyond that the 32767th object is found: C16_newest_cycle_wins_refuted."
  },
  {
   "property": "C17",
   "status": "proved",
   "theorems": [
    "C17_records_follow_each_other",
    "C17_records_never_overlap",
    "C17_records_keep_their_bytes"
   ],
   "note": "For all programs that create, write any trees and close; every prefix of their writes."
  },
  {
   "property": "C18",
   "status": "proved",
   "theorems": [
    "C18_unsaved_file_is_refused"
   ],
   "note": "Every crash point (also inside a write) before the directory is rewritten; what happens inside that one write is left open."
  },
  {
   "property": "C19",
   "status": "proved",
   "theorems": [
    "C19_saved_file_opens",
    "C19_last_write_refuted"
   ],
   "note": "Every crash point after the directory is saved and before the header is rewritten. Between blanking and rewriting the header the file is lost: C19_last_write_refuted."
  },
  {
   "property": "C20",
   "status": "proved",
   "theorems": [
    "C20_close_is_consistent"
   ],
   "note": ""
  },
  {
   "property": "C21",
   "status": "proved",
   "theorems": [
    "C21_read_only_file_is_not_written",
    "C21_read_only_file_takes_no_object",
    "C21_refused_writes_do_not_change_reading",
    "C21_write_only_file_is_not_read"
   ],
   "note": "If the call would have succeeded on a writable file the error is EReadOnly; otherwise the other error or panic may come first."
  },
  {
   "property": "C22",
   "status": "proved",
   "theorems": [
    "C22_slash_is_refused",
    "C22_other_class_is_refused",
    "C22_tree_with_slash_is_refused",
    "C22_tree_with_slash_writes_refuted"
   ],
   "note": "Objects: state unchanged. Whole trees: directory unchanged, but column data is already on disk: C22_tree_with_slash_writes_refuted."
  },
  {
   "property": "C23",
   "status": "proved",
   "theorems": [
    "C23_newer_versions_refused",
    "C23_inner_records_refused"
   ],
   "note": ""
  },
  {
   "property": "C24",
   "status": "proved",
   "theorems": [
    "C24_registered_classes",
    "C24_unknown_class_refused",
    "C24_unknown_key_refused"
   ],
   "note": ""
  },
  {
   "property": "C25",
   "status": "proved",
   "theorems": [
    "C25_only_the_own_type_reads"
   ],
   "note": ""
  },
  {
   "property": "C26",
   "status": "proved",
   "theorems": [
    "C26_lookup_is_first_in_order",
    "C26_lookup_in_a_branch"
   ],
   "note": ""
  },
  {
   "property": "C27",
   "status": "proved",
   "theorems": [
    "C27_names_are_paths",
    "C27_plain_names",
    "C27_absolute_names"
   ],
   "note": ""
  },
  {
   "property": "C28",
   "status": "proved",
   "theorems": [
    "C28_flat_structures_are_columns"
   ],
   "note": ""
  },
  {
   "property": "C29",
   "status": "proved",
   "theorems": [
    "C29_what_structures_leave",
    "C29_nested_structures_are_columns",
    "C29_nested_twice_refuted",
    "C29_only_nested_refuted"
   ],
   "note": "Exact description for every shape (C29_what_structures_leave); the two refutations record the entries that are lost."
  },
  {
   "property": "C30",
   "status": "proved",
   "theorems": [
    "C30_structures_are_rows",
    "C30_plain_fields",
    "C30_missing_column",
    "C30_empty_structure_refuted",
    "C30_uneven_slices_refuted"
   ],
   "note": ""
  },
  {
   "property": "C31",
   "status": "proved",
   "theorems": [
    "C31_stored_uncompressed"
   ],
   "note": ""
  },
  {
   "property": "C32",
   "status": "proved",
   "theorems": [
    "C32_cleaning_goes_inside",
    "C32_written_names_are_clean",
    "C32_root_names",
    "C32_long_long_refuted"
   ],
   "note": "C32_long_long_refuted records C++ names that cleaning spoils."
  },
  {
   "property": "C33",
   "status": "proved",
   "theorems": [
    "C33_entries_are_put_together",
    "C33_fields_are_rows",
    "C33_empty_sub_branch_refuted",
    "C33_array_sub_branch_refuted"
   ],
   "note": ""
  },
  {
   "property": "C34",
   "status": "proved",
   "theorems": [
    "C34_slices_take_the_whole_entry",
    "C34_branches_of_slices"
   ],
   "note": ""
  },
  {
   "property": "C35",
   "status": "proved",
   "theorems": [
    "C35_fill_survives",
    "C35_line_survives",
    "C35_marker_survives",
    "C35_io_features_survive",
    "C35_object_header_survives",
    "C35_names_survive"
   ],
   "note": ""
  },
  {
   "property": "C36",
   "status": "proved",
   "theorems": [
    "C36_branches_survive"
   ],
   "note": "For every branch state satisfying wbr_ok (fields in range of their width, distinct leaf identities)."
  },
  {
   "property": "C37",
   "status": "proved",
   "theorems": [
    "C37_streamers_survive"
   ],
   "note": "For every list of streamer infos satisfying sinfo_ok; the built-in table does."
  },
  {
   "property": "C38",
   "status": "proved",
   "theorems": [
    "C38_scalar_reads_stay_inside",
    "C38_string_reads_stay_inside",
    "C38_value_reads_stay_inside",
    "C38_cstring_refuted"
   ],
   "note": "All primitive and value reads. read_cstring is the exception: C38_cstring_refuted."
  },
  {
   "property": "C39",
   "status": "proved",
   "theorems": [
    "C39_vector_limit_is_exact",
    "C39_long_then_short_refuted"
   ],
   "note": ""
  },
  {
   "property": "C40",
   "status": "proved",
   "theorems": [
    "C40_which_paths_can_be_reopened"
   ],
   "note": ""
  },
  {
   "property": "C41",
   "status": "proved",
   "theorems": [
    "C41_short_file_is_an_error",
    "C41_foreign_file_is_not_opened",
    "C41_foreign_file_error_refuted"
   ],
   "note": "A foreign file aborts the program instead of giving an error: C41_foreign_file_error_refuted."
  },
  {
   "property": "C42",
   "status": "proved",
   "theorems": [
    "C42_structures_come_back",
    "C42_nested_names_refuted"
   ],
   "note": "C42_nested_names_refuted records that the default names of nested fields differ between writing and reading."
  },
  {
   "property": "C43",
   "status": "proved",
   "theorems": [
    "C43_pausing_providers"
   ],
   "note": ""
  },
  {
   "property": "C44",
   "status": "proved",
   "theorems": [
    "C44_vectors_at_any_depth",
    "C44_columns_name_their_type"
   ],
   "note": ""
  },
  {
   "property": "C45",
   "status": "proved",
   "theorems": [
    "C45_what_fits_is_written",
    "C45_what_fits_is_read_back"
   ],
   "note": "Total correctness of a writing program: it never panics, errors or runs out of fuel when the contents fit. The limits on baskets and positions are exact (C58_what_can_be_written)."
  },
  {
   "property": "C46",
   "status": "proved",
   "theorems": [
    "C46_opening_any_file_ends",
    "C46_reading_any_object_ends",
    "C46_more_steps_change_nothing",
    "C46_reading_any_column_ends",
    "C46_reading_empty_values_ends",
    "C46_reading_any_slices_ends",
    "C46_reading_any_structures_ends",
    "C46_structure_without_columns_refuted",
    "C46_slices_of_nothing_refuted",
    "C46_hollow_sub_branches_refuted",
    "C46_reading_any_sets_and_maps_ends"
   ],
   "note": "For all bytes, and for all decoders that end. The refuted theorems show the loops that do not end."
  },
  {
   "property": "C47",
   "status": "proved",
   "theorems": [
    "C47_packed_records_give_back_their_contents",
    "C47_packed_objects_are_the_same",
    "C47_columns_depend_on_contents_only",
    "C47_compressed_copies_are_alike",
    "C47_decoders_do_not_matter",
    "C47_written_files_need_no_decoders",
    "C47_several_blocks_refuted",
    "C47_other_algorithms_refuted"
   ],
   "note": "For all decoders (zlib, xz and lz4 themselves are not modelled; they are parameters). Contents up to 2^24 bytes, the size of one block; the refuted theorems show that several blocks and other algorithms cannot be read."
  },
  {
   "property": "C48",
   "status": "proved",
   "theorems": [
    "C48_types_are_checked",
    "C48_sets_and_maps_come_back",
    "C48_sets_have_no_duplicates",
    "C48_maps_have_one_value_per_key",
    "C48_the_last_value_counts",
    "C48_other_types_as_before",
    "C48_maps_are_not_checked_refuted"
   ],
   "note": "Containers of fewer than 2^30 elements. The library does not write sets and maps, so this is about ROOT's layout as the relation `laid` gives it."
  },
  {
   "property": "C49",
   "status": "proved",
   "theorems": [
    "C49_refused_trees_cost_only_themselves",
    "C49_records_follow_each_other",
    "C49_crashes",
    "C49_without_refusals"
   ],
   "note": "The only error `write` can answer on such a file is the refusal of a name with a slash; panics end the program. The bytes of the refused columns stay in the file (see C22)."
  },
  {
   "property": "C50",
   "status": "proved",
   "theorems": [
    "C50_dump_prints_the_file",
    "C50_dump_prints_every_tree",
    "C50_ls_lists_the_file",
    "C50_every_column_refuted",
    "C50_every_tree_refuted",
    "C50_semicolons_panic"
   ],
   "note": "What is printed is data (row, column, value), not text. The claim that every column and every tree is printed is false; three theorems say where (vectors of 64-bit integers, older trees of the same name, names with a semicolon)."
  },
  {
   "property": "C51",
   "status": "proved",
   "theorems": [
    "C51_refused_or_whole",
    "C51_torn_directory",
    "C51_torn_blanking",
    "C51_torn_header",
    "C51_refused_or_whole_refuted"
   ],
   "note": "Two exceptions are in the statement: the position of the keys torn between two nonzero bytes (C51_refused_or_whole_refuted shows that the claim is then false), and, for paths of 110 bytes or more, the length of the name torn one byte before its end (not decided). A write that reaches the disk reaches it in order, byte after byte."
  },
  {
   "property": "C52",
   "status": "proved",
   "theorems": [
    "C52_tree_records_conform",
    "C52_described_by_itself_refuted",
    "C52_descriptions_of_a_file",
    "C52_descriptions_are_closed"
   ],
   "note": "The reader of SpecDesc.v takes the descriptions of the leaves and of TBranchElement from the library's table, because no file holds them: C52_described_by_itself_refuted. Records of 2^30 bytes and more are left out: the byte count shares its word with a flag at that bit. Only the records of trees are covered, not those of baskets, keys, free segments and of the descriptions themselves."
  },
  {
   "property": "C53",
   "status": "proved",
   "theorems": [
    "C53_baskets_decide",
    "C53_damage_stays_where_it_is",
    "C53_values_before_the_damage",
    "C53_every_byte_has_one_place",
    "C53_parts_do_not_overlap",
    "C53_step_by_step",
    "C53_damage_is_noticed_refuted"
   ],
   "note": "C53_damage_is_noticed_refuted: one changed byte turns true into false without an error. The iterator is modelled for branches without sub-branches (the only ones the library writes); C53_baskets_decide covers any branch of any file when collected. The changed file may also be shorter or longer."
  },
  {
   "property": "C54",
   "status": "proved",
   "theorems": [
    "C54_schedules_do_not_matter",
    "C54_schedules_agree",
    "C54_files_written_side_by_side",
    "C54_readers_in_any_order",
    "C54_written_then_read",
    "C54_missing_files",
    "C54_closed_is_not_enough",
    "C54_dropped_is_enough",
    "C54_readers_keep_their_file_refuted",
    "C54_readers_keep_removed_files_refuted"
   ],
   "note": "Where it fails: C54_closed_is_not_enough (opening between close and drop panics, for every file), C54_readers_keep_their_file_refuted and C54_readers_keep_removed_files_refuted (trees and iterators open the path again for each basket). A step is one call of the library, so interleavings inside a call are not covered; links, permissions and full disks are not modelled; iterators for branches without sub-branches only."
  },
  {
   "property": "C55",
   "status": "proved",
   "theorems": [
    "C55_closed_files_stay",
    "C55_late_tables_are_not_stored",
    "C55_closing_again_fails",
    "C55_closing_again_keeps_the_tables",
    "C55_written_is_stored_refuted"
   ],
   "note": "C55_written_is_stored_refuted: a table written after close is accepted and lost. What a second close leaves is proved for a second close without tables in between and up to 10^9 bytes (C55_closing_again_keeps_the_tables); that it fails is proved in every case."
  },
  {
   "property": "C56",
   "status": "proved",
   "theorems": [
    "C56_exactly_these_types",
    "C56_other_types_leave_no_trace",
    "C56_a_tree_is_written_once"
   ],
   "note": "Arrays of 2^31 or more elements are left out (the element count is truncated there)."
  },
  {
   "property": "C57",
   "status": "proved",
   "theorems": [
    "C57_names_decide_the_type",
    "C57_plain_names",
    "C57_brackets_hide_the_type",
    "C57_any_name_reads_refuted"
   ],
   "note": "C57_any_name_reads_refuted: a column of i32 called x[1] is refused when it is read as i32. What a column gives when it is read as the wrong type its name shows is not stated."
  },
  {
   "property": "C58",
   "status": "proved",
   "theorems": [
    "C58_baskets_of_a_file",
    "C58_how_full",
    "C58_entries_of_one_size",
    "C58_writing_holds_little",
    "C58_at_most_32767_baskets",
    "C58_what_can_be_written",
    "C58_steady_columns_fit",
    "C58_what_fits_is_written_refuted"
   ],
   "note": "C58_what_can_be_written: of all that fits into a file, exactly the columns of at most 32767 baskets whose positions fit can be written; 134180864 numbers of 8 bytes can (one_number_less), 134180865 cannot (C58_what_fits_is_written_refuted); a long string and 1000 short ones can or cannot depending on one byte (just_fits, just_does_not_fit). The memory bound counts the data of the basket, not the list of positions kept for strings and vectors."
  },
  {
   "property": "C59",
   "status": "proved",
   "theorems": [
    "C59_numbers_of_a_file",
    "C59_trees_add_up_refuted"
   ],
   "note": "C59_trees_add_up_refuted: the totals of a tree with a column are never the sums of those of its branches; the number of compressed bytes is always 0."
  },
  {
   "property": "C60",
   "status": "proved",
   "theorems": [
    "C60_callbacks_leave_no_trace",
    "C60_bytes_and_tables"
   ],
   "note": ""
  },
  {
   "property": "C61",
   "status": "proved",
   "theorems": [
    "C61_size_of_a_file",
    "C61_no_larger_than",
    "C61_no_smaller_than"
   ],
   "note": ""
  }
 ]
}