{
 "claims": [
  {
   "property": "C01",
   "status": "proved",
   "theorems": [
    "C01_utf16_round_trip",
    "C01_utf16_total",
    "C01_warning_iff_unpaired_surrogate"
   ],
   "note": ""
  },
  {
   "property": "C02",
   "status": "partial",
   "theorems": [
    "C02_multi_sz_round_trip_partial",
    "C02_multi_sz_surrogate_refuted",
    "C02_multi_sz_blank_refuted",
    "C02_multi_sz_total"
   ],
   "note": "The round trip fails for strings with characters above U+FFFF and for strings made only of white space; both failures are proved, the round trip is proved for every other list."
  },
  {
   "property": "C03",
   "status": "proved",
   "theorems": [
    "C03_latin1",
    "C03_latin1_injective"
   ],
   "note": ""
  },
  {
   "property": "C04",
   "status": "proved",
   "theorems": [
    "C04_filetime_exact_iff_representable",
    "C04_filetime_zero_refuted"
   ],
   "note": "The property holds exactly for the instants the code can represent; the exact condition and a counterexample outside it are proved."
  },
  {
   "property": "C05",
   "status": "proved",
   "theorems": [
    "C05_hex_round_trip",
    "C05_hex_length"
   ],
   "note": ""
  },
  {
   "property": "C06",
   "status": "proved",
   "theorems": [
    "C06_row_round_trip"
   ],
   "note": ""
  },
  {
   "property": "C07",
   "status": "proved",
   "theorems": [
    "C07_rot13_involution",
    "C07_rot13_letters",
    "C07_rot13_others"
   ],
   "note": ""
  },
  {
   "property": "C08",
   "status": "proved",
   "theorems": [
    "C08_lznt1_decodes"
   ],
   "note": ""
  },
  {
   "property": "C09",
   "status": "partial",
   "theorems": [
    "C09_lznt1_terminates",
    "C09_lznt1_total_refuted"
   ],
   "note": "Termination holds for every input; absence of aborts is false, with a proved counterexample."
  },
  {
   "property": "C10",
   "status": "proved",
   "theorems": [
    "C10_pretty_path",
    "C10_pretty_path_root",
    "C10_pretty_path_total"
   ],
   "note": ""
  },
  {
   "property": "C11",
   "status": "proved",
   "theorems": [
    "C11_checksum_value",
    "C11_checksum_reserved_values",
    "C11_checksum_detects_change",
    "C11_remapped_values_collide"
   ],
   "note": ""
  },
  {
   "property": "C12",
   "status": "proved",
   "theorems": [
    "C12_header_fields",
    "C12_header_file_name",
    "C12_no_other_header_is_accepted",
    "C12_header_never_aborts",
    "C12_bin_header_fields"
   ],
   "note": ""
  },
  {
   "property": "C13",
   "status": "proved",
   "theorems": [
    "C13_marvin32"
   ],
   "note": ""
  },
  {
   "property": "C14",
   "status": "proved",
   "theorems": [
    "C14_log_round_trip"
   ],
   "note": ""
  },
  {
   "property": "C15",
   "status": "proved",
   "theorems": [
    "C15_torn_log",
    "C15_torn_header",
    "C15_torn_log_applies_prefix",
    "C15_log_parsing_terminates",
    "C15_short_entry_refuted"
   ],
   "note": "Cuts of written logs are covered completely. C15_short_entry_refuted shows that other bytes can abort the log parser."
  },
  {
   "property": "C16",
   "status": "proved",
   "theorems": [
    "C16_applied_entries",
    "C16_applied_entries_exist",
    "C16_applied_entries_unique",
    "C17_recovered_hive",
    "C16_gap_between_logs_refuted",
    "C16_damaged_log_restarts_refuted"
   ],
   "note": "Proved within each log; between logs the code does not check the sequence of entries, which the two refutations show. Hypothesis: the secondary sequence number of the hive is not 0."
  },
  {
   "property": "C17",
   "status": "proved",
   "theorems": [
    "C17_recovered_hive",
    "C17_log_chain_exists",
    "C17_log_chain_unique",
    "C17_bad_checksum",
    "C17_growth_refuted"
   ],
   "note": "The growth is specified as the code does it; C17_growth_refuted shows that it is not the size the last entry names."
  },
  {
   "property": "C18",
   "status": "proved",
   "theorems": [
    "C18_log_order",
    "C18_equal_numbers_refuted"
   ],
   "note": ""
  },
  {
   "property": "C19",
   "status": "proved",
   "theorems": [
    "C19_clean_hive",
    "C19_same_iteration"
   ],
   "note": "For logs that the log parser does not abort on (C15_short_entry_refuted)."
  },
  {
   "property": "C20",
   "status": "partial",
   "theorems": [
    "C20_header_after_recovery",
    "C20_one_log",
    "C20_nothing_applied_refuted",
    "C20_number_lost_refuted"
   ],
   "note": "The header is consistent in all cases; that it names the last applied entry is proved for one log and is false in general (refutations): it may name 0."
  },
  {
   "property": "C21",
   "status": "proved",
   "theorems": [
    "C21_key_cells",
    "C21_value_cells",
    "C21_reading_a_key",
    "C21_content"
   ],
   "note": "Reading with recovered keys pending is restricted to states without deleted keys, because the update of modified lists can recurse without end on crafted logs (see DESIGN.md)."
  },
  {
   "property": "C22",
   "status": "proved",
   "theorems": [
    "C22_key_cells_round_trip"
   ],
   "note": ""
  },
  {
   "property": "C23",
   "status": "partial",
   "theorems": [
    "C23_value_cells_round_trip",
    "C23_unknown_flag_refuted"
   ],
   "note": "Proved for the flag values the format defines (0-3); with any other bit the compressed-name flag is lost and the claim is false."
  },
  {
   "property": "C24",
   "status": "partial",
   "theorems": [
    "C24_resident_data",
    "C24_cell_data_partial",
    "C24_big_data",
    "C24_db_prefix_refuted",
    "C24_fixed_width_refuted"
   ],
   "note": "Holds except for fixed-width types, which keep only their width, and for data over 16344 bytes in one cell that begins with the big-data signature; both exceptions are proved."
  },
  {
   "property": "C25",
   "status": "partial",
   "theorems": [
    "C25_numbers",
    "C25_strings",
    "C25_multi_strings_partial",
    "C25_binary",
    "C25_too_short"
   ],
   "note": "All types except MULTI_SZ with blank strings or characters beyond the basic plane, where the claim is false (C02)."
  },
  {
   "property": "C26",
   "status": "proved",
   "theorems": [
    "C26_lists",
    "C26_far_items_lh",
    "C26_far_items_lf"
   ],
   "note": ""
  },
  {
   "property": "C27",
   "status": "partial",
   "theorems": [
    "C27_list_parsing_ends_partial",
    "C27_fuel",
    "C27_index_root_cycle_refuted"
   ],
   "note": "Ends, and never aborts, unless an index root reaches itself; then it recurses without end (refutation)."
  },
  {
   "property": "C28",
   "status": "partial",
   "theorems": [
    "C28_security_ring",
    "C28_of_key",
    "C28_security_ends_partial",
    "C28_inner_cycle_refuted"
   ],
   "note": "Ends unless the chain enters a cycle that avoids its start; then it loops without end (refutation)."
  },
  {
   "property": "C46",
   "status": "partial",
   "theorems": [
    "C46_key_cells",
    "C46_value_cells",
    "C46_data_place_refuted"
   ],
   "note": "All cell fields; the entry of the value data does not locate the data (refutation)."
  },
  {
   "property": "C47",
   "status": "partial",
   "theorems": [
    "C47_sub_keys",
    "C47_sub_keys_returned",
    "C47_values_partial",
    "C47_values_good",
    "C47_values_refuted"
   ],
   "note": "True of sub-keys. A bad value hides the values after it (refutation); those before it are returned."
  },
  {
   "property": "C49",
   "status": "partial",
   "theorems": [
    "C49_utf16",
    "C49_utf16_never_aborts",
    "C49_lznt1",
    "C49_utf16_multiple_refuted",
    "C49_lznt1_aborts_refuted"
   ],
   "note": "The two offset laws hold; Utf16Multiple with an offset and LZNT1 on damaged data abort (refutations)."
  },
  {
   "property": "C29",
   "status": "proved",
   "theorems": [
    "C29_hive_opens",
    "C29_preorder"
   ],
   "note": "For hives with or without logs, and after any history of look-ups on the parser; recovery of deleted items off."
  },
  {
   "property": "C30",
   "status": "partial",
   "theorems": [
    "C30_iteration_ends_partial",
    "C30_iteration_ends_recovered_partial",
    "C30_no_logs_no_deleted_root",
    "C30_replayed_iteration_ends",
    "C30_list_cycle_refuted"
   ],
   "note": "Every file, filter and mode, except files in which an index root reaches itself: there the claim is false (refutation). With recovery and logs also except when a log deleted a key with the flag of a root (false then, C51_two_roots_refuted)."
  },
  {
   "property": "C31",
   "status": "proved",
   "theorems": [
    "C31_postorder"
   ],
   "note": "Without a filter; recovery of deleted items off."
  },
  {
   "property": "C32",
   "status": "proved",
   "theorems": [
    "C32_paths_spell_positions",
    "C32_paths_spell_positions_recovered"
   ],
   "note": "Every file and filter in which no index root reaches itself (iteration does not end there, C30); with recovery on, of the allocated keys, and unless a log deleted a key with the flag of a root."
  },
  {
   "property": "C33",
   "status": "partial",
   "theorems": [
    "C33_get_key",
    "C33_every_path",
    "C33_root_name_refuted"
   ],
   "note": "Every path in every well-formed hive without backslashes in names, after any history of look-ups. With the root name in the path the name itself is not compared and a second trailing backslash hides the root (refutation)."
  },
  {
   "property": "C34",
   "status": "proved",
   "theorems": [
    "C34_get_value",
    "C34_characters"
   ],
   "note": ""
  },
  {
   "property": "C35",
   "status": "partial",
   "theorems": [
    "C35_filter",
    "C35_postorder",
    "C35_root_filter",
    "C35_literal_filter",
    "C35_path",
    "C35_postorder_refuted",
    "C35_no_component_refuted",
    "C35_leading_backslash_refuted"
   ],
   "note": "All filters that address keys below the root, in pre-order; in post-order with ancestors the same keys in post-order, without ancestors the claim is false (refutation), but every matching key comes and only keys above one besides; the filter that the tools make of a path selects the keys at and below it, but nothing when the path begins with a backslash (refutation); the filters that do not reach below the root never select a key below it, also when child keys are requested (refutation)."
  },
  {
   "property": "C36",
   "status": "proved",
   "theorems": [
    "C36_counts_are_of_iteration",
    "C36_counts",
    "C36_filtered_counts"
   ],
   "note": ""
  },
  {
   "property": "C48",
   "status": "proved",
   "theorems": [
    "C48_look_ups_change_nothing",
    "C48_interleaved",
    "C48_filtered"
   ],
   "note": ""
  },
  {
   "property": "C38",
   "status": "partial",
   "theorems": [
    "C38_recovered_items",
    "C38_cells",
    "C38_allocated_never_recovered_partial",
    "C38_tiny_cell_refuted"
   ],
   "note": "Every recovered item, in every file, is a free cell or lies inside a cell and parses there. That no allocated cell is reported holds unless a cell of less than six bytes precedes it; then the claim is false (refutation)."
  },
  {
   "property": "C39",
   "status": "partial",
   "theorems": [
    "C39_free_cells_partial",
    "C39_last_bin_refuted"
   ],
   "note": "Every bin that begins before the size of the bins data; the bins after that, at least the last one, are never scanned (refutation)."
  },
  {
   "property": "C37",
   "status": "partial",
   "theorems": [
    "C37_same_hive",
    "C37_live_view",
    "C37_get_key",
    "C37_views_agree_partial",
    "C37_replayed_views_agree",
    "C37_postorder_refuted"
   ],
   "note": "All hives, logs and filters: bytes, header, look-ups and pre-order iteration; both iterations end (C37_views_agree_partial) under the conditions of C30. In post-order the order of allocated keys changes (refutation)."
  },
  {
   "property": "C51",
   "status": "partial",
   "theorems": [
    "C51_opens_with_recovery_partial",
    "C51_not_rejected_partial",
    "C51_opens_with_logs_partial",
    "C51_notes_end_partial",
    "C51_replayed_notes_end",
    "C51_notes_never_end",
    "C51_unfilled_bin_refuted",
    "C51_two_roots_refuted",
    "C51_torn_root_refuted"
   ],
   "note": "Without logs: hives whose bins are filled with cells; a bin that ends in zeros makes the build fail (refutation). With logs: a hive that opens with its logs, and with recovery but without its logs, is not rejected with both, and opens if its replay is steady (ReplaySpec.v). Each condition is needed: a hive whose torn root the log restores opens without recovery and is rejected with it (C51_torn_root_refuted), and if two free keys have the flag of a root the build never ends (C51_two_roots_refuted)."
  },
  {
   "property": "C40",
   "status": "partial",
   "theorems": [
    "C40_build",
    "C40_next",
    "C40_entries",
    "C40_modified_keys",
    "C40_modified_values",
    "C40_deleted_values",
    "C40_deleted_keys_partial",
    "C40_items",
    "C40_root_items_refuted",
    "C40_lost_children_refuted"
   ],
   "note": "One comparison of any build: what is added to and taken from the versions and deleted items. Partial: the file does not grow beyond zeros, live items with names without backslash, and a removed key of that very path is not back (refutation). Items removed right below the root are recorded but never shown (refutation)."
  },
  {
   "property": "C41",
   "status": "partial",
   "theorems": [
    "C41_deleted_values",
    "C41_added_keys",
    "C41_added_values",
    "C41_deleted_keys_partial",
    "C41_deleted_keys_refuted"
   ],
   "note": "All histories of adds and removals. Deleted keys only when the removal of the last deleted sub-key of a key does not name a path that has deleted sub-keys itself (refutation)."
  },
  {
   "property": "C50",
   "status": "proved",
   "theorems": [
    "C50_messages_kept",
    "C50_prefixes",
    "C50_has_logs",
    "C50_option",
    "C50_written",
    "C50_shown",
    "C50_lines",
    "C50_empty_merge_refuted"
   ],
   "note": "All histories of adding, merging and prefixing. A merge with nothing leaves a present but empty collection (refutation of: present only if there is a message)."
  },
  {
   "property": "C52",
   "status": "partial",
   "theorems": [
    "C52_skips_reported",
    "C52_clean_reported",
    "C52_unread_logs",
    "C52_damaged_signature_refuted"
   ],
   "note": "All hives with a right header checksum. Bytes that do not look like an entry end the log without a diagnostic (refutation)."
  },
  {
   "property": "C44",
   "status": "proved",
   "theorems": [
    "C44_export_read",
    "C44_one_reading",
    "C44_written",
    "C44_hive",
    "C44_part",
    "C44_odd_file_refuted"
   ],
   "note": "Any export is read back, in one way, as the header comments, one row per item and totals that equal the row counts by kind and state (modulo 2^32, the width of the counters); for a well-formed hive the rows are the tree in pre-order with values. Dates are shown by a parameter without separators. Refuted companion: a file of an unknown type opens and its export panics."
  },
  {
   "property": "C45",
   "status": "proved",
   "theorems": [
    "C45_rows"
   ],
   "note": "Rows are numbered 1..n and are exactly the kept items; dates, flags, types and decoded contents are shown by parameters, the first three without separators."
  },
  {
   "property": "C42",
   "status": "proved",
   "theorems": [
    "C42_hives",
    "C42_same",
    "C42_duplicate_refuted",
    "C42_case_refuted"
   ],
   "note": "All pairs of well-formed hives in which sibling names differ in more than case, with no filter or a filter below the root; the hash has no collision between the two contents of an item. Self-comparison for every file without repeated items. Refuted companions: a value listed twice, and names that differ only in case."
  },
  {
   "property": "C43",
   "status": "proved",
   "theorems": [
    "C43_hunks",
    "C43_readable",
    "C43_report",
    "C43_newline_refuted",
    "C43_forged_refuted",
    "C43_empty_range_refuted"
   ],
   "note": "All change sets whose lines hold no line feed (names with a line feed: refutations, one a name that forges a hunk). The diff determines the lines removed and added. Empty ranges are numbered by the next line, as the code does; C43_empty_range_refuted shows that this is not the usual numbering. C43_report covers the plain report and its totals."
  },
  {
   "property": "C53",
   "status": "partial",
   "theorems": [
    "C53_shown",
    "C53_sub_keys",
    "C53_by_index",
    "C53_next",
    "C53_by_name_partial",
    "C53_by_path",
    "C53_parent",
    "C53_root_parent",
    "C53_values",
    "C53_by_name_on_root_refuted",
    "C53_root_parent_refuted"
   ],
   "note": "Well-formed hives whose names hold no backslash and whose sub keys name their parents, the root being the first cell. The look-up by name is proved for every key but the root; on the root it is false of the code (refutation): nothing is found in a fresh parser, and the call panics after another look-up. The root has no parent, but asking for it gives the key that its cell names, at a path that no key has (C53_root_parent, refutation)."
  },
  {
   "property": "C54",
   "status": "partial",
   "theorems": [
    "C54_denotes",
    "C54_one_meaning",
    "C54_sorted",
    "C54_plain",
    "C54_hive",
    "C54_zero_refuted"
   ],
   "note": "All FILETIMEs from 1677-09-21 to 2262-04-11, the range in which the code does not wrap; outside it the claim is false (refutation: the time zero is shown in 2185)."
  },
  {
   "property": "C55",
   "status": "partial",
   "theorems": [
    "C55_iteration",
    "C55_reads",
    "C55_by_path",
    "C55_by_path_refuted",
    "C55_security_refuted"
   ],
   "note": "All builds and all histories of look-ups. Keys from free space are shown without a past, and a deleted key that lay where the key above it lies without deleted sub keys. The last part of the claim is false of the code (refutation): a key looked up by path or name shows nothing of the past. The root is asked for under a path at which nothing is ever recorded (see C40_root_items_refuted). An earlier version keeps the place of its security descriptors, but they are read from the bytes of now (refutation)."
  },
  {
   "property": "C56",
   "status": "proved",
   "theorems": [
    "C56_content",
    "C56_one_meaning",
    "C56_flags",
    "C56_flags_one_meaning",
    "C56_rows",
    "C56_hive",
    "C56_part",
    "C56_text_alone_refuted",
    "C56_unnamed_bits_refuted"
   ],
   "note": "Which characters Rust prints without an escape is a parameter. Refuted companions: without the type the text does not tell the content, and flag bits without a name are not shown."
  },
  {
   "property": "C57",
   "status": "partial",
   "theorems": [
    "C57_sheets",
    "C57_one_reading",
    "C57_cells",
    "C57_succeeds",
    "C57_hive",
    "C57_part",
    "C57_log_text_refuted"
   ],
   "note": "The library that writes the file is a parameter: it accepts no cell outside the sheet, and for C57_succeeds all that fits. The replacing of characters is proved for all texts of keys and values; the texts of messages are written as they are, so a character that XML forbids reaches the file (refutation)."
  },
  {
   "property": "C58",
   "status": "partial",
   "theorems": [
    "C58_outputs",
    "C58_distinct",
    "C58_logs",
    "C58_compare",
    "C58_underscore_refuted",
    "C58_dot_refuted",
    "C58_log_case_refuted"
   ],
   "note": "For folders whose names have no dot and no underscore and hold no two hives whose names differ in case only. Without that the claim is false of the code (refutations: one hive overwrites the output of another). On a system that tells case apart, logs are found only in one spelling (refutation). Reading one hive is a parameter."
  },
  {
   "property": "C59",
   "status": "proved",
   "theorems": [
    "C59_paths",
    "C59_only_logs",
    "C59_comma_refuted"
   ],
   "note": "Refuted companion: a path with a comma in it cannot be given."
  },
  {
   "property": "C60",
   "status": "proved",
   "theorems": [
    "C60_lines",
    "C60_one_reading",
    "C60_one_meaning",
    "C60_hive",
    "C60_part",
    "C60_versions_refuted"
   ],
   "note": "The messages are parameters. Two values with the same line have the same stored fields, and the same content when the data are bytes. Refuted companion: the earlier versions of a key, unlike those of a value, are not in the export."
  },
  {
   "property": "C61",
   "status": "proved",
   "theorems": [
    "C61_dates",
    "C61_one_meaning",
    "C61_order",
    "C61_exact_refuted",
    "C61_zero_refuted"
   ],
   "note": "Refuted companions: times that differ by less than a microsecond are not told apart, and a time outside those years, such as 0, gives another date."
  },
  {
   "property": "C62",
   "status": "partial",
   "theorems": [
    "C62_held",
    "C62_iteration",
    "C62_root",
    "C62_open",
    "C62_sub_keys",
    "C62_find",
    "C62_parent",
    "C62_versions",
    "C62_after_iteration_refuted"
   ],
   "note": "For a parser that has not been iterated over; the keys in hand keep showing theirs even then. Iterating takes the parser, and afterwards its calls answer as if the hive were empty (refutation). Hives are those of C53: the names have no separator in them, the root is the first cell. Reading files and the lifetime of objects are not modelled."
  },
  {
   "property": "C63",
   "status": "partial",
   "theorems": [
    "C63_values",
    "C63_free_values",
    "C63_keys_refuted"
   ],
   "note": "Proved of values, for all hives and all log files, also when the entries overwrite the cell. False of keys: they vanish after the first log entry, and come back as deleted by a log after the second."
  },
  {
   "property": "C64",
   "status": "partial",
   "theorems": [
    "C64_opening",
    "C64_first_call",
    "C64_calls_without_a_filter",
    "C64_any_history",
    "C64_in_hand",
    "C64_other_root_refuted",
    "C64_odd_parent_refuted"
   ],
   "note": "Opening is proved for all bytes, unless a log file holds an entry whose size is below 40 (C15_short_entry_refuted). The first call, and all calls without a filter, are proved for all files; histories for hives whose header gives the first cell as root, otherwise a look-up can make the next filtered iteration abort (refutation). C64_in_hand adds the look-ups by path and by name on the keys a program holds, found by going down from the root; by name not on the root itself, where it can abort (C53_by_name_on_root_refuted). Going down from the parent of the root, which the file names freely, can make the next filtered iteration abort (C64_odd_parent_refuted). Running out of memory or stack, and endless runs (C30, C51), are not meant."
  },
  {
   "property": "C65",
   "status": "proved",
   "theorems": [
    "C65_decoders",
    "C65_chain",
    "C65_hive"
   ],
   "note": "Lists are those of C02: texts of the basic plane, none blank. A list that is not ended aborts when the offset is not 0 (C49_utf16_multiple_refuted), as do damaged streams (C49_lznt1_aborts_refuted)."
  },
  {
   "property": "C66",
   "status": "partial",
   "theorems": [
    "C66_paths",
    "C66_exports",
    "C66_complete"
   ],
   "note": "Proved for files of the type the library knows (header field at 28). The common export of a file of another type aborts: its key has no path (C44_odd_file_refuted). An iteration that does not end (C30) and memory are not meant."
  },
  {
   "property": "C67",
   "status": "partial",
   "theorems": [
    "C67_outputs",
    "C67_never_stopped",
    "C67_complete_partial",
    "C67_complete_replayed",
    "C67_written",
    "C67_json",
    "C67_common",
    "C67_tsv",
    "C67_xlsx",
    "C67_odd_type_refuted",
    "C67_short_entry_refuted",
    "C67_cycle_refuted"
   ],
   "note": "What becomes of each hive is proved for all folders of plain names (C58). That no hive stops the run is proved for files of bytes whose logs have no entry shorter than its header and, for the common format, whose headers name a known type; that it ends, in every format, when no index root is inside itself and recovery, if chosen, meets no logs to be replayed (or logs whose replay is steady, C73: C67_complete_replayed). Each condition is needed (refutations; with recovery and logs C51_two_roots_refuted). The command line parser, the file system and the console are outside the model."
  },
  {
   "property": "C68",
   "status": "proved",
   "theorems": [
    "C68_opening_ends",
    "C68_recovery_ends",
    "C68_opened_or_not"
   ],
   "note": "With recovery and logs to be replayed the claim is false: C51_two_roots_refuted (true if the replay is steady: C73). That it is a parser or an error, not an abort, needs that no log entry is shorter than its header (C15_short_entry_refuted)."
  },
  {
   "property": "C69",
   "status": "partial",
   "theorems": [
    "C69_outputs",
    "C69_complete",
    "C69_report",
    "C69_diff",
    "C69_part",
    "C69_backslash_refuted"
   ],
   "note": "The outputs are proved for all folders of plain names (C58); that the run goes through, when each file that takes part is a hive as in C42 or cannot be opened; otherwise a pair can abort the run (refutation). That changed contents are told needs that the hash has no collision between them. The command line parser, the file system, the console and the texts that name the files are outside the model."
  },
  {
   "property": "C70",
   "status": "proved",
   "theorems": [
    "C70_dump_keeps",
    "C70_compare_keeps",
    "C70_evidence",
    "C70_dump_outputs",
    "C70_compare_outputs",
    "C70_dump_as",
    "C70_compare_as",
    "C70_one_keeps",
    "C70_dump_one",
    "C70_compare_one",
    "C70_compare_over",
    "C70_over_refuted"
   ],
   "note": "The outputs are named as in C58 (folders of plain names). Refuted companion: told to write over its own input a dump replaces the hive, and a comparison whose output is one of its hives empties that hive before it is read, and gives no report. Errors of the file system, links, and names that differ in case only but mean one file are not modelled; of an output that is not finished nothing is said."
  },
  {
   "property": "C71",
   "status": "partial",
   "theorems": [
    "C71_beginning",
    "C71_killed",
    "C71_success_partial",
    "C71_sound",
    "C71_dump",
    "C71_compare",
    "C71_json",
    "C71_silent_refuted"
   ],
   "note": "The text formats and the reports; the spreadsheet is written by its library. For every capacity of the buffer. The last part is false of the code: no writer is flushed before it is dropped, so an error of the last transfer is not told (refutation); C71_success_partial says that no more than one buffer is missing then. How BufWriter and File of the standard library behave is modelled from their documentation and source. In a run over a folder the dump tool drops even the errors it gets."
  },
  {
   "property": "C72",
   "status": "partial",
   "theorems": [
    "C72_file",
    "C72_path",
    "C72_python",
    "C72_python_calls",
    "C72_python_new",
    "C72_same",
    "C72_file_whole",
    "C72_path_whole",
    "C72_python_whole",
    "C72_missing",
    "C72_filter_ignored",
    "C72_again_partial",
    "C72_again_refuted",
    "C72_log_again_refuted",
    "C72_midway_refuted"
   ],
   "note": "Building again holds for paths only (C72_again_partial). False of the code otherwise: a Python builder that was given an object as the hive never builds again, and one that was given objects as logs silently builds without them the second time (refutations); a reader that is not at its beginning is read from where it is. Also proved: a filter set on a builder has no effect. How read_to_end of the standard library behaves is modelled from its documentation; an object of Python that gives no bytes before its end is taken to be at its end."
  },
  {
   "property": "C73",
   "status": "proved",
   "theorems": [
    "C73_replay_ends",
    "C30_replayed_iteration_ends",
    "C37_replayed_views_agree",
    "C51_replayed_notes_end",
    "C67_complete_replayed"
   ],
   "note": "The conditions are those of `steady` in ReplaySpec.v, and that the secondary sequence number of the header is not 0. Without the condition on roots it is false (C51_two_roots_refuted, C73_two_roots)."
  },
  {
   "property": "C74",
   "status": "partial",
   "theorems": [
    "C74_filter",
    "C74_refused",
    "C74_classes_refuted"
   ],
   "note": "All but the last sentence, for filters that address keys below the root, whose literal names hold no backslash. The last sentence is false of the code (refutation): expressions are put in lower case before they are compiled, so that classes like \\D turn into their opposite. The library of regular expressions is a parameter."
  },
  {
   "property": "C75",
   "status": "partial",
   "theorems": [
    "C75_dump_success",
    "C75_compare_success",
    "C75_compare_missing",
    "C75_dump_tells",
    "C75_dump_missing",
    "C75_compare_tells",
    "C75_as_dump",
    "C75_as_compare",
    "C75_dump_folder_partial",
    "C75_compare_folder_partial",
    "C75_folder_always",
    "C75_folder_refuted"
   ],
   "note": "For single files, up to one buffer at the end of the output (see C71). Of folders it is false: every run over a folder that ends does so with success (C75_folder_always), also if a hive could not be opened and the export of an earlier run is still there, or a comparison failed and left an empty report (C75_folder_refuted). What holds of folders is that the outputs of all hives that can be exported are there and whole (the partial theorems, where nothing fails outside)."
  },
  {
   "property": "C76",
   "status": "proved",
   "theorems": [
    "C76_looks",
    "C76_plain"
   ],
   "note": "Up to 2^32 rows (a sheet has fewer). The formats are those of a run in which the library accepts every call; how it draws them is outside the model."
  },
  {
   "property": "C77",
   "status": "partial",
   "theorems": [
    "C77_unrecovered",
    "C77_unreplayed",
    "C77_live",
    "C77_replayed_partial",
    "C77_order_refuted",
    "C77_lost_refuted"
   ],
   "note": "Everything is the same without recovery, and with it if no logs are to be replayed. With recovery and logs the bytes and the keys in use are the same (C77_live). If the free space holds no deleted keys, so are the root, the warnings and the earlier versions of keys and values, and, without deleted values in the free space, the deleted values of every path and every key read with its history, but for its list of deleted sub keys (C77_replayed_partial). Missing: the same for hives with deleted keys or values in their free space. The rest of the statement is false of the code: keys deleted by one entry are listed in the order of the walk (C77_order_refuted), and whether keys deleted earlier are still shown after some of them came back depends on it (C77_lost_refuted), because the removal of the last key listed below a parent removes the list of another path (src/state.rs:130-145)."
  },
  {
   "property": "C78",
   "status": "proved",
   "theorems": [
    "C78_opens",
    "C78_iterated",
    "C78_counted",
    "C78_looked_up",
    "C78_agree_refuted"
   ],
   "note": "C78_looked_up is for files that hold a whole tree whose root is the first cell, as C33 is. C78_agree_refuted: iterating and asking for a path do not agree on such a file."
  },
  {
   "property": "C79",
   "status": "partial",
   "theorems": [
    "C79_no_change_iff",
    "C79_security_refuted",
    "C79_versions_refuted"
   ],
   "note": "Holds of the comparison with flags, times and access bits as all that is known of a key, for hives as in C42 and hashes without collisions. With security descriptors it is false of the code, for the comparison as for logs: they are not hashed (refutations)."
  },
  {
   "property": "C80",
   "status": "partial",
   "theorems": [
    "C80_look_up_ends",
    "C80_recovered",
    "C80_first_cell",
    "C80_from_a_key",
    "C80_steps_end",
    "C80_list_cycle_refuted"
   ],
   "note": "Holds of every file in which no list of sub keys contains itself, without recovery, and with recovery if the header gives the first cell as root or no deleted key with the flag of a root was recorded from logs; the steps only in the latter case. False of the code for lists that contain themselves (refutation)."
  },
  {
   "property": "C81",
   "status": "partial",
   "theorems": [
    "C81_where",
    "C81_recovered",
    "C81_pieces_refuted",
    "C81_versions_refuted"
   ],
   "note": "Proved of every file for values in one place, also of values recovered from free space. False of the code for values in pieces, whose positions are counted from the start of the bins and are those of the cells (C81_where says how to find the pieces from them), and for earlier versions of values."
  },
  {
   "property": "C82",
   "status": "proved",
   "theorems": [
    "C82_same",
    "C82_logs",
    "C82_clean",
    "C82_right",
    "C82_any",
    "C82_no_logs",
    "C82_export"
   ],
   "note": "C82_logs and C82_right are for a header with the right checksum; C82_any is for every file, but does not say from which header the sequence number is. Texts of exports that fail are not described."
  },
  {
   "property": "C83",
   "status": "partial",
   "theorems": [
    "C83_cut",
    "C83_found",
    "C83_path",
    "C83_warned",
    "C83_lost_keys",
    "C83_nothing_lost",
    "C83_silent_refuted"
   ],
   "note": "The warning for lost values is missing when the offset of the value list is at or beyond the length of the file (src/cell_key_node.rs:655-657): C83_silent_refuted. C83_warned proves it when at most 4096 bytes are missing. Lost sub keys are always warned about (C83_lost_keys)."
  },
  {
   "property": "C84",
   "status": "proved",
   "theorems": [
    "C84_hive",
    "C84_same",
    "C84_fields",
    "C84_found",
    "C84_live"
   ],
   "note": "With recovery of deleted items the free space is where these are; the live keys are the same (C84_live, for the order with parents first)."
  },
  {
   "property": "C85",
   "status": "partial",
   "theorems": [
    "C85_found",
    "C85_exact",
    "C85_get_key",
    "C85_stored",
    "C85_all",
    "C85_get_key_all",
    "C85_by_name",
    "C85_backslash_refuted",
    "C85_root_flag_refuted"
   ],
   "note": "Proved when no name below the key has a backslash (C85_exact, and the last part of C85_get_key); in every file the key that is found has the path asked for or one on the way to it (C85_found). False of the code for names with backslashes (C85_backslash_refuted). Nothing is missed that readable keys lead to (C85_all, C85_get_key_all). A look-up by name finds a sub key of that name (C85_by_name), but for sub keys flagged as root in damaged files (C85_root_flag_refuted); on the root itself it does not work, see C53."
  }
 ]
}