{
 "claims": [
  {
   "property": "C01",
   "status": "proved",
   "theorems": [
    "C01_align_up_least",
    "C01_align_up_wraps",
    "C01_align_down_greatest",
    "C01_is_power_of_2"
   ],
   "note": "whole (with the exact condition for wrapping)"
  },
  {
   "property": "C02",
   "status": "proved",
   "theorems": [
    "C02_is_sum_safe"
   ],
   "note": "whole"
  },
  {
   "property": "C03",
   "status": "proved",
   "theorems": [
    "C03_section_name"
   ],
   "note": "whole"
  },
  {
   "property": "C04",
   "status": "proved",
   "theorems": [
    "C04_section_flags",
    "C04_flag_bits"
   ],
   "note": "whole"
  },
  {
   "property": "C05",
   "status": "proved",
   "theorems": [
    "C05_raw_history",
    "C05_virtual_view",
    "C05_overwrite_inside",
    "C05_overwrite_beyond"
   ],
   "note": "whole"
  },
  {
   "property": "C06",
   "status": "partial",
   "theorems": [
    "C06_get_directory",
    "C06_out_of_range",
    "C06_set_directory_rva",
    "C06_set_directory_size",
    "C06_remove_directory",
    "C06_count_above_16_refuted"
   ],
   "note": "proved up to 16 directories; a count above 16 reads past the array (refuted)"
  },
  {
   "property": "C07",
   "status": "partial",
   "theorems": [
    "C07_directory_exists_partial",
    "C07_no_directories_refuted"
   ],
   "note": "proved for 1 to 16 directories; with 0 directories the unsigned count wraps (refuted)"
  },
  {
   "property": "C08",
   "status": "partial",
   "theorems": [
    "C08_strip_data_directories_partial",
    "C08_min_count_refuted"
   ],
   "note": "nothing used is dropped; the minimum count is missed by one (refuted)"
  },
  {
   "property": "C09",
   "status": "proved",
   "theorems": [
    "C09_rva_to_va_32",
    "C09_round_trip_32",
    "C09_round_trip_64",
    "C09_va_to_rva_accepts",
    "C09_va_to_rva_rejects",
    "C09_round_trip_back"
   ],
   "note": "whole"
  },
  {
   "property": "C10",
   "status": "proved",
   "theorems": [
    "C10_section_from_rva",
    "C10_section_from_rva_throws",
    "C10_contiguous_layout"
   ],
   "note": "whole"
  },
  {
   "property": "C11",
   "status": "partial",
   "theorems": [
    "C11_headers",
    "C11_rva_round_trip",
    "C11_offset_round_trip",
    "C11_rva_unmapped_throws",
    "C11_offset_unmapped_throws",
    "C11_virtual_tail_refuted"
   ],
   "note": "proved for stored bytes; addresses in a section's virtual tail get offsets outside it (refuted)"
  },
  {
   "property": "C12",
   "status": "proved",
   "theorems": [
    "C12_read_safe",
    "C12_read_in_section_safe",
    "C12_read_exact",
    "C12_read_total"
   ],
   "note": "whole"
  },
  {
   "property": "C13",
   "status": "partial",
   "theorems": [
    "C13_virtual_pointer_partial",
    "C13_raw_pointer_partial",
    "C13_raw_pointer_refuted"
   ],
   "note": "virtual view proved; raw view proved for addresses inside the data, refuted beyond"
  },
  {
   "property": "C14",
   "status": "proved",
   "theorems": [
    "C14_load_safe",
    "C14_factory_safe",
    "C14_type_safe"
   ],
   "note": "whole"
  },
  {
   "property": "C15",
   "status": "partial",
   "theorems": [
    "C15_checked_partial",
    "C15_layout_partial",
    "C15_wrapping_section_refuted"
   ],
   "note": "all checked header fields; layout unless a section wraps around 2^32 (refuted)"
  },
  {
   "property": "C16",
   "status": "proved",
   "theorems": [
    "C16_load_from_file",
    "C16_factory_from_file"
   ],
   "note": "whole"
  },
  {
   "property": "C17",
   "status": "partial",
   "theorems": [
    "C17_checksum_partial",
    "C17_checksum_refuted",
    "C17_load_partial",
    "C17_type_partial",
    "C17_short_stream_refuted",
    "C17_debug_data_refuted"
   ],
   "note": "proved when no read was cut short; refuted for short streams and debug data past the end"
  },
  {
   "property": "C18",
   "status": "partial",
   "theorems": [
    "C18_add_section",
    "C18_add_first_section",
    "C18_when_it_succeeds",
    "C18_zero_virtual_size_refuted"
   ],
   "note": "proved when the last section has a virtual size; otherwise it may overlap the new one (refuted)"
  },
  {
   "property": "C19",
   "status": "partial",
   "theorems": [
    "C19_size_of_image_after_edits",
    "C19_update_image_size",
    "C19_expand_raw_refuted",
    "C19_fresh_image_refuted"
   ],
   "note": "proved; expanding raw data, and a fresh image, are the exceptions (refuted)"
  },
  {
   "property": "C20",
   "status": "proved",
   "theorems": [
    "C20_set_section_virtual_size"
   ],
   "note": "whole"
  },
  {
   "property": "C21",
   "status": "proved",
   "theorems": [
    "C21_expand_raw",
    "C21_expand_virtual",
    "C21_only_last"
   ],
   "note": "whole"
  },
  {
   "property": "C22",
   "status": "partial",
   "theorems": [
    "C22_realign_section",
    "C22_realign_all_sections",
    "C22_realign_file",
    "C22_longer_data_refuted"
   ],
   "note": "proved for data not longer than SizeOfRawData; refuted otherwise"
  },
  {
   "property": "C23",
   "status": "proved",
   "theorems": [
    "C23_set_file_alignment"
   ],
   "note": "whole"
  },
  {
   "property": "C24",
   "status": "partial",
   "theorems": [
    "C24_rebuild_partial",
    "C24_loaded_partial",
    "C24_realigned_partial",
    "C24_added_section_refuted",
    "C24_directory_count_refuted"
   ],
   "note": "proved for images whose data match SizeOfRawData (loaded or realigned ones); refuted for added sections and 17 directories"
  },
  {
   "property": "C25",
   "status": "proved",
   "theorems": [
    "C25_reload",
    "C25_can_be_written"
   ],
   "note": "whole (`C25_can_be_written` says which images can be written)"
  },
  {
   "property": "C26",
   "status": "partial",
   "theorems": [
    "C26_places_partial",
    "C26_stale_pointer_refuted"
   ],
   "note": "proved when sections without data have no file pointer behind the headers; stale PointerToRawData refuted"
  },
  {
   "property": "C27",
   "status": "proved",
   "theorems": [
    "C27_checksum",
    "C27_store",
    "C27_safe"
   ],
   "note": "whole"
  },
  {
   "property": "C28",
   "status": "partial",
   "theorems": [
    "C28_round_trip",
    "C28_empty_list_refuted"
   ],
   "note": "proved; the empty list is refuted"
  },
  {
   "property": "C29",
   "status": "proved",
   "theorems": [
    "C29_item_round_trip",
    "C29_entry_round_trip",
    "C29_item_layout"
   ],
   "note": "whole"
  },
  {
   "property": "C30",
   "status": "proved",
   "theorems": [
    "C30_reading_is_safe"
   ],
   "note": "whole"
  },
  {
   "property": "C31",
   "status": "partial",
   "theorems": [
    "C31_exact",
    "C31_reversible",
    "C31_overlapping_refuted"
   ],
   "note": "proved for disjoint words; overlapping ones refuted"
  },
  {
   "property": "C32",
   "status": "partial",
   "theorems": [
    "C32_round_trip_partial",
    "C32_unnamed_forwarder_refuted",
    "C32_null_address_refuted",
    "C32_empty_list_refuted",
    "C32_no_names_refuted"
   ],
   "note": "proved for functions that the format can tell apart; five kinds of lists refuted"
  },
  {
   "property": "C33",
   "status": "proved",
   "theorems": [
    "C33_duplicates",
    "C33_sorted_names"
   ],
   "note": "whole"
  },
  {
   "property": "C34",
   "status": "partial",
   "theorems": [
    "C34_within_partial",
    "C34_empty_list_refuted"
   ],
   "note": "non-empty lists; the empty list is refuted"
  },
  {
   "property": "C35",
   "status": "proved",
   "theorems": [
    "C35_reading_is_safe"
   ],
   "note": "whole"
  },
  {
   "property": "C36",
   "status": "partial",
   "theorems": [
    "C36_exact_tables",
    "C36_round_trip_partial",
    "C36_ordinal_refuted",
    "C36_no_address_refuted",
    "C36_fill_without_build_refuted",
    "C36_rewritten_partial",
    "C36_rewrite_end_refuted"
   ],
   "note": "round trip for settings and libraries that can be told apart, also with tables rewritten in place in other sections; refuted otherwise. Missing: filling in tables of names beside tables rewritten in place, and such tables in the headers or the rebuilt section"
  },
  {
   "property": "C37",
   "status": "proved",
   "theorems": [
    "C37_reading_is_safe"
   ],
   "note": "whole"
  },
  {
   "property": "C38",
   "status": "partial",
   "theorems": [
    "C38_front_partial",
    "C38_tail_refuted"
   ],
   "note": "bytes before the directory; bytes after it are cut off (refuted)"
  },
  {
   "property": "C39",
   "status": "partial",
   "theorems": [
    "C39_round_trip_partial",
    "C39_wide_id_refuted",
    "C39_empty_data_refuted"
   ],
   "note": "proved for 16-bit ids and non-empty data, in order or with lengths that are multiples of 4; refuted otherwise"
  },
  {
   "property": "C40",
   "status": "partial",
   "theorems": [
    "C40_within_partial",
    "C40_order_refuted"
   ],
   "note": "proved when the entries are in order already or all lengths are multiples of four; refuted otherwise"
  },
  {
   "property": "C41",
   "status": "partial",
   "theorems": [
    "C41_reading_ends",
    "C41_reading_is_safe_partial",
    "C41_name_refuted"
   ],
   "note": "termination whole; safety except over-read of names (refuted)"
  },
  {
   "property": "C42",
   "status": "proved",
   "theorems": [
    "C42_reading_is_total",
    "C42_add",
    "C42_remove_language",
    "C42_remove_name",
    "C42_remove_type",
    "C42_history",
    "C42_languages",
    "C42_names",
    "C42_types",
    "C42_count",
    "C42_index",
    "C42_add_directories",
    "C42_remove_directories",
    "C42_unique_needed_to_add",
    "C42_unique_needed_to_remove"
   ],
   "note": "whole on trees with unique keys (which is needed, shown)"
  },
  {
   "property": "C43",
   "status": "partial",
   "theorems": [
    "C43_round_trip_partial",
    "C43_growing",
    "C43_zero_fill_refuted"
   ],
   "note": "places inside file data, or everything in the last section, which grows; places split between a section that grows and others are missing; zero fill without raw data refuted"
  },
  {
   "property": "C44",
   "status": "partial",
   "theorems": [
    "C44_within_partial",
    "C44_short_data_refuted",
    "C44_callbacks_refuted",
    "C44_offset_refuted"
   ],
   "note": "proved when the raw data are as long as the addresses say, the callbacks fit and the structure ends below 2^32; refuted otherwise"
  },
  {
   "property": "C45",
   "status": "partial",
   "theorems": [
    "C45_round_trip_partial",
    "C45_terminator_refuted",
    "C45_strip_refuted",
    "C45_large_refuted"
   ],
   "note": "proved for 16-bit offsets, a null terminator already there and a section that is not stripped or the last; refuted otherwise"
  },
  {
   "property": "C46",
   "status": "proved",
   "theorems": [
    "C46_reading_is_safe"
   ],
   "note": "whole"
  },
  {
   "property": "C47",
   "status": "partial",
   "theorems": [
    "C47_round_trip_partial",
    "C47_strip_refuted"
   ],
   "note": "proved for a section that is not stripped or the last; refuted otherwise"
  },
  {
   "property": "C48",
   "status": "proved",
   "theorems": [
    "C48_reading_is_safe",
    "C48_exact_table"
   ],
   "note": "whole"
  },
  {
   "property": "C49",
   "status": "partial",
   "theorems": [
    "C49_records_partial",
    "C49_reads_inside_refuted"
   ],
   "note": "records proved; stubs without the mark are read past their end (refuted)"
  },
  {
   "property": "C50",
   "status": "proved",
   "theorems": [
    "C50_histogram",
    "C50_shannon",
    "C50_bounds",
    "C50_zero",
    "C50_empty",
    "C50_image"
   ],
   "note": "whole (real-number formula, no rounding)"
  },
  {
   "property": "C51",
   "status": "proved",
   "theorems": [
    "C51_round_trip",
    "C51_too_short"
   ],
   "note": "whole"
  },
  {
   "property": "C52",
   "status": "partial",
   "theorems": [
    "C52_exact_partial",
    "C52_inside_partial",
    "C52_lookup",
    "C52_safe_refuted"
   ],
   "note": "proved for well-formed data; over-read for other data refuted"
  },
  {
   "property": "C53",
   "status": "proved",
   "theorems": [
    "C53_safe",
    "C53_exact",
    "C53_ids",
    "C53_largest_id_rejected"
   ],
   "note": "whole"
  },
  {
   "property": "C54",
   "status": "proved",
   "theorems": [
    "C54_round_trip",
    "C54_in_the_tree",
    "C54_format",
    "C54_any_order",
    "C54_bound_needed"
   ],
   "note": "whole within the 16-bit sizes of the format (bound shown to be needed)"
  },
  {
   "property": "C55",
   "status": "partial",
   "theorems": [
    "C55_in_bounds_partial",
    "C55_terminates_partial",
    "C55_overread_refuted",
    "C55_odd_translation_refuted",
    "C55_loop_refuted"
   ],
   "note": "at most 65535 bytes past the end, terminates without words of 0xFFFD or more; over-read, odd translations and an endless loop refuted"
  },
  {
   "property": "C56",
   "status": "partial",
   "theorems": [
    "C56_set_get",
    "C56_set_others",
    "C56_default",
    "C56_set_pairs",
    "C56_add",
    "C56_remove_table",
    "C56_remove_pair",
    "C56_read_string",
    "C56_write_string",
    "C56_canonical",
    "C56_remove_string_partial",
    "C56_capital_refuted",
    "C56_history",
    "C56_stored",
    "C56_named"
   ],
   "note": "proved; translations in capital letters refuted for removal"
  },
  {
   "property": "C57",
   "status": "partial",
   "theorems": [
    "C57_fresh",
    "C57_at_end",
    "C57_smallest",
    "C57_first",
    "C57_types",
    "C57_images_kept_partial",
    "C57_replaced_refuted",
    "C57_endless_refuted"
   ],
   "note": "proved while numbers last; replaced pictures and endless search at 65535 refuted"
  },
  {
   "property": "C58",
   "status": "proved",
   "theorems": [
    "C58_round_trip",
    "C58_packed",
    "C58_new_group",
    "C58_append",
    "C58_get",
    "C58_remove",
    "C58_add_remove",
    "C58_single"
   ],
   "note": "whole"
  },
  {
   "property": "C59",
   "status": "partial",
   "theorems": [
    "C59_lookup_partial",
    "C59_overread_refuted"
   ],
   "note": "icons whole; cursors when the groups have room for the entries they announce; over-read refuted"
  },
  {
   "property": "C60",
   "status": "proved",
   "theorems": [
    "C60_safe",
    "C60_loaded"
   ],
   "note": "whole"
  },
  {
   "property": "C61",
   "status": "proved",
   "theorems": [
    "C61_bound_imports_not_attached",
    "C61_bound_imports_no_overflow",
    "C61_bound_imports_only",
    "C61_config_not_attached",
    "C61_config_no_overflow",
    "C61_config_only",
    "C61_exports_not_attached",
    "C61_exports_no_overflow",
    "C61_exports_only",
    "C61_imports_not_attached",
    "C61_imports_no_overflow",
    "C61_imports_only",
    "C61_relocations_not_attached",
    "C61_relocations_no_overflow",
    "C61_relocations_only",
    "C61_resources_not_attached",
    "C61_resources_no_overflow",
    "C61_resources_not_empty",
    "C61_resources_only",
    "C61_rewritten_only",
    "C61_tls_not_attached",
    "C61_tls_no_overflow",
    "C61_tls_only"
   ],
   "note": "whole (imports, exports, relocations, TLS, configuration, bound imports, resources)"
  },
  {
   "property": "C62",
   "status": "proved",
   "theorems": [
    "C62_created_images_load",
    "C62_new_image"
   ],
   "note": "whole"
  },
  {
   "property": "C63",
   "status": "proved",
   "theorems": [
    "C63_name_exists",
    "C63_ordinal_exists",
    "C63_ordinal_limits",
    "C63_no_limits"
   ],
   "note": "whole"
  },
  {
   "property": "C64",
   "status": "proved",
   "theorems": [
    "C64_reading_config_is_safe",
    "C64_reading_tls_is_safe"
   ],
   "note": "whole"
  },
  {
   "property": "C65",
   "status": "proved",
   "theorems": [
    "C65_flags",
    "C65_os",
    "C65_type",
    "C65_version_string",
    "C65_version_strings",
    "C65_version_string_injective",
    "C65_numbers"
   ],
   "note": "whole"
  },
  {
   "property": "C66",
   "status": "partial",
   "theorems": [
    "C66_round_trip_partial",
    "C66_tall_refuted",
    "C66_colours_refuted"
   ],
   "note": "proved for heights below 128 and no colour count; refuted otherwise"
  },
  {
   "property": "C67",
   "status": "partial",
   "theorems": [
    "C67_get",
    "C67_remove",
    "C67_add_partial"
   ],
   "note": "get and remove whole; add except for 65535 pictures (C57)"
  },
  {
   "property": "C68",
   "status": "partial",
   "theorems": [
    "C68_exact",
    "C68_absent",
    "C68_file_names_refuted",
    "C68_auxiliary_refuted",
    "C68_codeview_type_refuted",
    "C68_exceptions_refuted",
    "C68_last_refuted"
   ],
   "note": "proved; five deviations from the format refuted"
  },
  {
   "property": "C69",
   "status": "partial",
   "theorems": [
    "C69_memory",
    "C69_values_partial",
    "C69_self_assignment_refuted",
    "C69_type_refuted"
   ],
   "note": "memory whole; values except self-assignment (refuted)"
  },
  {
   "property": "C70",
   "status": "partial",
   "theorems": [
    "C70_from_file_partial",
    "C70_past_end_refuted"
   ],
   "note": "whole for file streams; past a string stream's end zeros are kept (refuted)"
  },
  {
   "property": "C71",
   "status": "partial",
   "theorems": [
    "C71_safe_partial",
    "C71_values_partial",
    "C71_no_leak_partial",
    "C71_self_assignment_refuted",
    "C71_own_data_refuted",
    "C71_own_directory_refuted",
    "C71_assign_inner_refuted",
    "C71_push_inner_refuted",
    "C71_assign_outer_refuted"
   ],
   "note": "proved for programs that do not copy between an entry and one inside it; six such cases refuted"
  },
  {
   "property": "C72",
   "status": "partial",
   "theorems": [
    "C72_values_partial",
    "C72_self_assignment_refuted",
    "C72_failure_refuted"
   ],
   "note": "except self-assignment (use after free) and failing constructors (leak), refuted"
  },
  {
   "property": "C74",
   "status": "partial",
   "theorems": [
    "C74_directories_are_safe",
    "C74_other_directories_partial"
   ],
   "note": "exports, bound imports, relocations and debug whole; the others when no section reaches 2^32; resources as in C41"
  },
  {
   "property": "C73",
   "status": "proved",
   "theorems": [
    "C73_tls",
    "C73_config",
    "C73_relocations",
    "C73_bound_imports",
    "C73_exports",
    "C73_absent",
    "C73_resources",
    "C73_absent_trees"
   ],
   "note": "whole"
  },
  {
   "property": "C75",
   "status": "proved",
   "theorems": [
    "C75_exact",
    "C75_absent",
    "C75_safe"
   ],
   "note": "whole"
  },
  {
   "property": "C76",
   "status": "partial",
   "theorems": [
    "C76_reported",
    "C76_has",
    "C76_kind",
    "C76_header_start",
    "C76_set",
    "C76_set_rest",
    "C76_set_consistent",
    "C76_written",
    "C76_set_written",
    "C76_has_none_refuted"
   ],
   "note": "whole; with zero directories `has_*` is not what the count says (`_refuted`)"
  },
  {
   "property": "C77",
   "status": "partial",
   "theorems": [
    "C77_overlay_partial",
    "C77_no_sections",
    "C77_written",
    "C77_trailing_empty_refuted",
    "C77_swapped_refuted",
    "C77_hidden_refuted"
   ],
   "note": "partial: exact when the section that is last in the table has data and is last in the file; three `_refuted` theorems for the other files"
  },
  {
   "property": "C78",
   "status": "proved",
   "theorems": [
    "C78_written",
    "C78_bound_imports",
    "C78_sections_suffice",
    "C78_header_bytes"
   ],
   "note": "proved"
  },
  {
   "property": "C79",
   "status": "partial",
   "theorems": [
    "C79_realign_reads",
    "C79_realign_consistent",
    "C79_realigned_written",
    "C79_not_realigned_refuted"
   ],
   "note": "proved, and `_refuted`: an edited image that is not realigned cannot be written"
  },
  {
   "property": "C80",
   "status": "partial",
   "theorems": [
    "C80_editable",
    "C80_exports_partial",
    "C80_relocations",
    "C80_resources_partial",
    "C80_imports_partial",
    "C80_tls_partial",
    "C80_tls_growing"
   ],
   "note": "relocations proved; exports, imports, resources, TLS partial as in C32, C36, C39, C43"
  },
  {
   "property": "C81",
   "status": "partial",
   "theorems": [
    "C81_history_partial",
    "C81_cut_refuted"
   ],
   "note": "partial: six kinds of edits (exports, relocations, resources, imports with descriptors moved, a new section at the end, TLS with its data and callbacks in the last section, which grows for them); libraries that keep their own address table, bound imports and configuration are missing. `_refuted`: imports stored in front of another table of the same section cut that table off"
  },
  {
   "property": "C82",
   "status": "partial",
   "theorems": [
    "C82_bitmap_in_tree",
    "C82_string_in_tree",
    "C82_messages_in_tree",
    "C82_saved_partial",
    "C82_changes_saved_partial",
    "C82_bitmap_saved_partial",
    "C82_version_saved_partial"
   ],
   "note": "partial: the trees C39 leaves out (empty data, wide numbers, unordered trees with lengths that are not multiples of 4)"
  },
  {
   "property": "C83",
   "status": "partial",
   "theorems": [
    "C83_agrees",
    "C83_edits",
    "C83_rebuild",
    "C83_config",
    "C83_config_refuted",
    "C83_tls",
    "C83_tls_refuted",
    "C83_rebase",
    "C83_rebase_refuted",
    "C83_no_entry_refuted",
    "C83_imports_agrees",
    "C83_imports",
    "C83_imports_refuted"
   ],
   "note": "`_refuted`: without the directory entry in the headers the section is written before the exception; so it is by a load configuration with an address that does not fit and by TLS callbacks without room; rebasing stops half-way; so does rewriting import tables in place"
  },
  {
   "property": "C84",
   "status": "partial",
   "theorems": [
    "C84_total",
    "C84_remaining",
    "C84_in_section",
    "C84_enough",
    "C84_section_offset",
    "C84_pointer",
    "C84_writable_pointer",
    "C84_by_va",
    "C84_in_section_refuted"
   ],
   "note": "`_refuted`: the length in a section at hand is computed in 31 bits, so it is 0 when 2 GiB or more remain, and wrong far behind the stored data"
  },
  {
   "property": "C85",
   "status": "partial",
   "theorems": [
    "C85_realign",
    "C85_written",
    "C85_config",
    "C85_bound_imports_partial",
    "C85_stripped_end_refuted"
   ],
   "note": "configuration proved, bound imports partial as in C45. `_refuted`: a list of lock prefixes at the end of the last section loses its terminator"
  },
  {
   "property": "C86",
   "status": "partial",
   "theorems": [
    "C86_unmoved",
    "C86_written",
    "C86_moved_refuted"
   ],
   "note": "proved for files whose sections do not move and, in general, for raw data that stand in the file at the offsets given. `_refuted`: nothing updates these offsets when sections move"
  },
  {
   "property": "C87",
   "status": "proved",
   "theorems": [
    "C87_own_directory",
    "C87_other_directory"
   ],
   "note": "proved"
  },
  {
   "property": "C88",
   "status": "proved",
   "theorems": [
    "C88_shown",
    "C88_named"
   ],
   "note": "proved for resources below 65536 bytes whose blocks have the documented lengths"
  },
  {
   "property": "C89",
   "status": "partial",
   "theorems": [
    "C89_write_again_partial",
    "C89_bound_imports_refuted"
   ],
   "note": "partial: with and without stripping the DOS header, for every image with a consistent layout whose bound imports are absent or left where they are. `_refuted`: bound imports at the start of the first section are moved into the headers by the second write"
  }
 ]
}