(** All property theorems, so that their assumptions can be printed in one go. *)
From Verif Require Import PropAfter PropBasket PropCodec PropColl PropCount PropCrash PropCycle PropDamage PropDerive PropDesc PropDump PropEnds PropFile PropNames PropPack PropRead PropRoom PropSame PropSize PropTitle PropTree PropTry PropTypes PropWorld.

Definition all_properties :=
  (@C55_closed_files_stay,
   @C55_late_tables_are_not_stored,
   @C55_closing_again_fails,
   @C55_closing_again_keeps_the_tables,
   @C55_written_is_stored_refuted,
   @C58_baskets_of_a_file,
   @C58_how_full,
   @C58_entries_of_one_size,
   @C58_writing_holds_little,
   @C58_at_most_32767_baskets,
   @C58_what_can_be_written,
   @C58_steady_columns_fit,
   @C58_what_fits_is_written_refuted,
   @C01_scalars_survive,
   @C02_strings_survive,
   @C02_validation_is_utf8,
   @C03_values_survive,
   @C05_keys_survive,
   @C06_packed_date_determines_the_second,
   @C06_date_read_back_refuted,
   @C07_free_segments_survive,
   @C08_file_header_survives,
   @C09_directory_survives,
   @C10_object_lists_survive,
   @C23_newer_versions_refused,
   @C23_inner_records_refused,
   @C24_registered_classes,
   @C24_unknown_class_refused,
   @C24_unknown_key_refused,
   @C35_fill_survives,
   @C35_line_survives,
   @C35_marker_survives,
   @C35_io_features_survive,
   @C35_object_header_survives,
   @C35_names_survive,
   @C36_branches_survive,
   @C37_streamers_survive,
   @C38_scalar_reads_stay_inside,
   @C38_string_reads_stay_inside,
   @C38_value_reads_stay_inside,
   @C38_cstring_refuted,
   @C48_types_are_checked,
   @C48_sets_and_maps_come_back,
   @C48_sets_have_no_duplicates,
   @C48_maps_have_one_value_per_key,
   @C48_the_last_value_counts,
   @C48_other_types_as_before,
   @C46_reading_any_sets_and_maps_ends,
   @C48_maps_are_not_checked_refuted,
   @C59_numbers_of_a_file,
   @C59_trees_add_up_refuted,
   @C51_refused_or_whole,
   @C51_torn_directory,
   @C51_torn_blanking,
   @C51_torn_header,
   @C51_refused_or_whole_refuted,
   @C16_cycle_numbers,
   @C16_newest_cycle_wins_refuted,
   @C53_baskets_decide,
   @C53_damage_stays_where_it_is,
   @C53_values_before_the_damage,
   @C53_every_byte_has_one_place,
   @C53_parts_do_not_overlap,
   @C53_step_by_step,
   @C53_damage_is_noticed_refuted,
   @C27_names_are_paths,
   @C27_plain_names,
   @C27_absolute_names,
   @C28_flat_structures_are_columns,
   @C29_what_structures_leave,
   @C29_nested_structures_are_columns,
   @C29_nested_twice_refuted,
   @C29_only_nested_refuted,
   @C30_structures_are_rows,
   @C30_plain_fields,
   @C30_missing_column,
   @C30_empty_structure_refuted,
   @C30_uneven_slices_refuted,
   @C42_structures_come_back,
   @C42_nested_names_refuted,
   @C43_pausing_providers,
   @C52_tree_records_conform,
   @C52_described_by_itself_refuted,
   @C52_descriptions_of_a_file,
   @C52_descriptions_are_closed,
   @C50_dump_prints_the_file,
   @C50_dump_prints_every_tree,
   @C50_ls_lists_the_file,
   @C50_every_column_refuted,
   @C50_every_tree_refuted,
   @C50_semicolons_panic,
   @C46_opening_any_file_ends,
   @C46_reading_any_object_ends,
   @C46_more_steps_change_nothing,
   @C46_reading_any_column_ends,
   @C46_reading_empty_values_ends,
   @C46_reading_any_slices_ends,
   @C46_reading_any_structures_ends,
   @C46_structure_without_columns_refuted,
   @C46_slices_of_nothing_refuted,
   @C46_hollow_sub_branches_refuted,
   @C04_header_lengths,
   @C17_records_follow_each_other,
   @C17_records_never_overlap,
   @C17_records_keep_their_bytes,
   @C31_stored_uncompressed,
   @C16_newest_cycle_wins,
   @C18_unsaved_file_is_refused,
   @C19_saved_file_opens,
   @C19_last_write_refuted,
   @C20_close_is_consistent,
   @C21_read_only_file_is_not_written,
   @C21_read_only_file_takes_no_object,
   @C21_refused_writes_do_not_change_reading,
   @C21_write_only_file_is_not_read,
   @C22_slash_is_refused,
   @C22_other_class_is_refused,
   @C22_tree_with_slash_is_refused,
   @C22_tree_with_slash_writes_refuted,
   @C40_which_paths_can_be_reopened,
   @C41_short_file_is_an_error,
   @C41_foreign_file_is_not_opened,
   @C41_foreign_file_error_refuted,
   @C32_cleaning_goes_inside,
   @C32_written_names_are_clean,
   @C32_root_names,
   @C32_long_long_refuted,
   @C44_vectors_at_any_depth,
   @C44_columns_name_their_type,
   @C47_packed_records_give_back_their_contents,
   @C47_packed_objects_are_the_same,
   @C47_columns_depend_on_contents_only,
   @C47_compressed_copies_are_alike,
   @C47_decoders_do_not_matter,
   @C47_written_files_need_no_decoders,
   @C47_several_blocks_refuted,
   @C47_other_algorithms_refuted,
   @C33_entries_are_put_together,
   @C33_fields_are_rows,
   @C33_empty_sub_branch_refuted,
   @C33_array_sub_branch_refuted,
   @C34_slices_take_the_whole_entry,
   @C34_branches_of_slices,
   @C45_what_fits_is_written,
   @C45_what_fits_is_read_back,
   @C60_callbacks_leave_no_trace,
   @C60_bytes_and_tables,
   @C61_size_of_a_file,
   @C61_no_larger_than,
   @C61_no_smaller_than,
   @C57_names_decide_the_type,
   @C57_plain_names,
   @C57_brackets_hide_the_type,
   @C57_any_name_reads_refuted,
   @C13_file_gives_back_its_tables,
   @C12_columns_give_back_their_values,
   @C39_vector_limit_is_exact,
   @C39_long_then_short_refuted,
   @C11_baskets_give_back_their_entries,
   @C14_tree_is_as_long_as_its_longest_column,
   @C25_only_the_own_type_reads,
   @C15_callbacks_hear_every_row,
   @C15_after_is_never_heard,
   @C26_lookup_is_first_in_order,
   @C26_lookup_in_a_branch,
   @C49_refused_trees_cost_only_themselves,
   @C49_records_follow_each_other,
   @C49_crashes,
   @C49_without_refusals,
   @C56_exactly_these_types,
   @C56_other_types_leave_no_trace,
   @C56_a_tree_is_written_once,
   @C54_schedules_do_not_matter,
   @C54_schedules_agree,
   @C54_files_written_side_by_side,
   @C54_readers_in_any_order,
   @C54_written_then_read,
   @C54_missing_files,
   @C54_closed_is_not_enough,
   @C54_dropped_is_enough,
   @C54_readers_keep_their_file_refuted,
   @C54_readers_keep_removed_files_refuted).
Print Assumptions all_properties.
