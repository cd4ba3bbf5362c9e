# A Rocq model of notatin

## 1. Approach

The model is a set of total, computable Gallina functions, one per modelled Rust
function, in `rocq/theories/*.v`. Every definition cites the file and lines of
`/repo` it models and says where it simplifies.

* **Bytes and buffers** are `list N`; "is a byte list" is the predicate `bytes_ok`.
* **Unsigned integers** are `N`, `i32` is `Z`; arithmetic that wraps in a release
  build is written with an explicit modulus. `usize` is 64 bits. Release-build
  semantics: overflow wraps, `debug_assert` is off.
* **Outcome type** `res A` = `Ok a | Err | Panic | OutOfFuel`. `Err` is a Rust
  `Err(_)`, `Panic` an abort (index or slice out of range, `unwrap` on `None`,
  capacity overflow, slicing inside a character). `OutOfFuel` is the model's own
  marker for recursion the code does not bound; theorems exclude it or prove that it
  is reached for every fuel (divergence).
* **nom parsers** are `list N -> option (A * list N)` (`None` = nom error).
* **Strings** are lists of UTF-8 bytes; byte slicing checks character boundaries where
  the Rust code can panic.
* **`&mut`** is a returned new value; a `HashMap` is an association list, and where
  its iteration order is observable the order is a parameter.
* **Oracles** are universally quantified parameters, never axioms: blake3
  (`list N -> N`), regular expressions (a predicate on a name), the order of hash
  maps, the rendering of dates and of flag sets in exports, the parser of security
  descriptors.
* Dates are nanoseconds since 1970 (`Z`).

A *specification file* (`*Spec.v`) says what a property means without the model's
functions (it uses only the model's data types and, where an output is specified,
small readers or grammars written for it). A *facts file* holds lemmas. A *property
file* (`Props*.v`) holds the theorems, each with `Print Assumptions` beneath and a
concrete case that meets its hypotheses. `Demo*.v` builds those concrete files.

## 2. What is modelled

| model file | code |
|------------|------|
| Base.v | result type, integer codecs, nom combinators, slices |
| Util.v | src/util.rs (text, dates to nanoseconds, hex, escaping, rot13, LZNT1, paths) |
| BaseBlock.v | src/base_block.rs, src/hive_bin_header.rs |
| Marvin.v | src/marvin32.rs |
| Types.v | src/state.rs, src/reg_item_map.rs, src/filter.rs (data), the node and value records |
| Value.v | src/cell_key_value.rs, src/cell_big_data.rs, src/cell_value.rs |
| Node.v | src/cell_key_node.rs, src/cell_key_security.rs, src/sub_key_list_*.rs, src/filter.rs, look-ups |
| Recover.v | src/parser_recover_deleted.rs, src/hive_bin_cell.rs |
| Parser.v | src/parser.rs: opening, iteration in both orders, counts, look-ups, root and parent |
| TxLog.v | src/transaction_log.rs, src/parser_builder.rs: logs, their application and analysis, `build` |
| Log.v | src/log.rs |
| Export.v | bin/reg_dump/common_writer.rs, bin/reg_dump/tsv_writer.rs |
| Compare.v | bin/reg_compare.rs: comparison, diff and report |
| Date.v | src/util.rs format_date_time, and of chrono: year/month/day of a day number, `%Y-%m-%dT%H:%M:%S`, `%9f` |
| Show.v | what bin/reg_dump/tsv_writer.rs prints: src/cell_value.rs Display of CellValue (with Rust's `{:?}` of strings), the names of the types, `{:?}` of the two flag sets |
| Xlsx.v | bin/reg_dump/xlsx_writer.rs: the rows, the splitting of long texts, the replacing of characters, the sheets; without formats, sizes, colours |
| Folder.v | src/cli_util.rs; the runs over folders of bin/reg_dump/main.rs and bin/reg_compare.rs, with the reading of one hive as a parameter |
| Json.v | bin/reg_dump/json_writer.rs, src/field_serializers.rs, the derived `Serialize` of keys, values, fields and messages, and of `serde_json`: compact structures, sequences, escapes, numbers |
| Python.v | pynotatin/src: dates, getters of keys and values, contents, iterators, the calls of the parser, `decode` |
| Dump.v | bin/reg_dump/main.rs: `reg_dump`, `process_file`, `process_folder`, the choices of the command line; without `clap`, the console and errors of the file system |
| CompareRun.v | bin/reg_compare.rs: `reg_compare` from files to output, `process_folders`, the choices of the command line; without `clap`, the console and errors of the file system |
| Disk.v | bin/reg_dump/main.rs: `process_file`, `process_folder`; bin/reg_compare.rs: `process_files`, `process_folders`, `reg_compare`: what they read from and write to one disk, and when; without errors of the file system, links and case-insensitive names |
| Sink.v | `BufWriter<File>` as bin/reg_dump/common_writer.rs, tsv_writer.rs, json_writer.rs and bin/reg_compare.rs use it, with a disk and a console that may fail; src/progress.rs as messages that may fail |
| Source.v | src/file_info.rs: reading; src/parser_builder.rs: both builders; pynotatin/src/util.rs: paths and file-like objects; pynotatin/src/py_notatin_parser.rs: `new` and the builder |
| FilterBuild.v | src/filter.rs: `FilterBuilder` with all its calls and `build`; crate regex as a parameter |
| Exit.v | how both tools end: what `main` returns and what is on the disk then, with one hive or pair or a folder of them, when disk and console may fail (bin/reg_dump/main.rs:40-261, bin/reg_compare.rs:44-365, src/cli_util.rs:75-83). A failing message while a hive is opened is taken to come first; of the output at which a run panics or hangs nothing is said |
| XlsxLook.v | bin/reg_dump/xlsx_writer.rs: `get_formatters`, `set_shading` and the rows of `write_key` and `write_value` they are set for |
| Secure.v | src/cell_key_node.rs: `get_security_descriptors` |
| RecoverOpen.v | proofs: opening with recovery and logs, compared step by step with opening without recovery (C51) |
| OrderPlain.v | proofs: opening does not depend on the order of hash maps if nothing is compared (C77) |
| OrderSpec.v | specification: what two runs over the same hive and logs have in common (C77) |
| OrderFacts.v, OrderRuns.v | proofs: two runs of the replay side by side, and what is read from a key after them (C77) |
| OddSpec.v | specification: a blank key (C78) |
| OddFacts.v | proofs: files of an unknown type (C78) |
| BlindFacts.v | proofs: when a comparison reports nothing (C79) |
| LookEnds.v | proofs: look-ups come to an end (C80) |
| DiffRead.v | proofs: a diff can be read back (C43) |
| WhereSpec.v | specification: where the bytes of a value lie (C81) |
| WhereFacts.v | proofs: every value shown lies where it says (C81) |
| Console.v | src/progress.rs, and what parser.rs, transaction_log.rs and reg_dump write on the console (C82) |
| ConsoleSpec.v | specification: what the console may say (C82) |
| ConsoleFacts.v | proofs: what the console says (C82) |
| CutSpec.v | specification: what a hive that was cut off may show (C83) |
| CutFacts.v, CutLook.v, CutPath.v | proofs: reading a hive that was cut off (C83) |
| CutKeys.v | proofs: the sub keys a hive that was cut off has lost (C83) |
| FillSpec.v | specification: layouts with open bytes, and keys that look the same (C84) |
| FillFacts.v, FillView.v, FillField.v | proofs: layouts survive any filling (C84) |
| FoundSpec.v | specification: what a look-up by path may find (C85) |
| FoundFacts.v, FoundName.v, FoundAll.v | proofs about look-ups in any file (C85) |

**Not modelled:** errors of the file system other than failing writes (Sink.v), `Serialize` of structures other than those below a key, the
workbook container of xlsx_writer.rs, command-line
parsing (main.rs), the texts of `Err` values,
`winstructs`' parser of security descriptors, the conversion of Python objects by pyo3, memory exhaustion
and stack exhaustion (unbounded recursion is `OutOfFuel`).

**Simplifications** that matter: the hash of a cell is a number; the data type of a
value is its number; a regular expression is a predicate; the full-field mode keeps
only offsets and lengths; logs of cells carry codes (the parser's own messages carry
texts in Log.v); allocation limits beyond the explicit guards of the code are ignored.

**Validation (not proof):** the model was extracted to OCaml outside this repository and
run on `/repo/test_data/NTUSER.DAT`: 2853 keys and 5523 values without recovery,
2853 and 5525 with recovery, as the upstream tests expect.

## 3. Properties

`proved`: the statement holds of the model as written in properties.jsonl, under the
conditions the theorem names. `partial`: it holds with the stated exception; a theorem
`…_refuted` shows that the exception is real wherever the statement is false of the
code. Notes are in MANIFEST.json.

| id | property | model and proof | status | theorems |
|----|----------|-----------------|--------|----------|
| C01 | UTF-16LE names and strings decode to what was written | UTF-16 decoder; round trip by induction on the text | proved | `C01_utf16_round_trip`, `C01_utf16_total`, `C01_warning_iff_unpaired_surrogate` |
| C02 | REG_MULTI_SZ decoding returns the stored list | multi-string loop; induction on the list of strings | partial | `C02_multi_sz_round_trip_partial`, `C02_multi_sz_surrogate_refuted`, `C02_multi_sz_blank_refuted`, `C02_multi_sz_total` |
| C03 | ASCII-compressed names decode as Latin-1 | Latin-1 decoder; pointwise | proved | `C03_latin1`, `C03_latin1_injective` |
| C04 | FILETIME conversion is exact | FILETIME arithmetic on Z; the set of exact instants is characterised | proved | `C04_filetime_exact_iff_representable`, `C04_filetime_zero_refuted` |
| C05 | Hex rendering of binary data is lossless | hex rendering against a reader | proved | `C05_hex_round_trip`, `C05_hex_length` |
| C06 | TSV field escaping is lossless and keeps rows intact | escaping against a reader of quoted fields | proved | `C06_row_round_trip` |
| C07 | ROT13 decoding is an involution that touches only ASCII letters | rot13, pointwise | proved | `C07_rot13_involution`, `C07_rot13_letters`, `C07_rot13_others` |
| C08 | LZNT1 decompression inverts compression | decoder against a denotation of chunks and tokens; simulation | proved | `C08_lznt1_decodes` |
| C09 | LZNT1 decompression is total on arbitrary bytes | decoder on arbitrary bytes; fuel bound, abort witness | partial | `C09_lznt1_terminates`, `C09_lznt1_total_refuted` |
| C10 | Root-less path is the path minus its first component | path functions; list reasoning | proved | `C10_pretty_path`, `C10_pretty_path_root`, `C10_pretty_path_total` |
| C11 | Base-block checksum is the format's checksum | checksum against a fold over words | proved | `C11_checksum_value`, `C11_checksum_reserved_values`, `C11_checksum_detects_change`, `C11_remapped_values_collide` |
| C12 | Hive header fields are read from their on-disk positions | header reader against byte positions | proved | `C12_header_fields`, `C12_header_file_name`, `C12_no_other_header_is_accepted`, `C12_header_never_aborts`, `C12_bin_header_fields` |
| C13 | Marvin32 hash equals its mathematical definition | hash against its definition on words | proved | `C13_marvin32` |
| C14 | Transaction-log entries parse to what was written | log writer (spec) and log parser; round trip | proved | `C14_log_round_trip` |
| C15 | A torn log contributes exactly its complete leading entries | prefixes of written logs | proved | `C15_torn_log`, `C15_torn_header`, `C15_torn_log_applies_prefix`, `C15_log_parsing_terminates`, `C15_short_entry_refuted` |
| C16 | Only hash-valid, in-sequence entries are applied | selection of entries; refinement to a chain relation | proved | `C16_applied_entries`, `C16_applied_entries_exist`, `C16_applied_entries_unique`, `C17_recovered_hive`, `C16_gap_between_logs_refuted`, `C16_damaged_log_restarts_refuted` |
| C17 | Applying a log overlays its dirty pages and nothing else | application of dirty pages; refinement to an overlay | proved | `C17_recovered_hive`, `C17_log_chain_exists`, `C17_log_chain_unique`, `C17_bad_checksum`, `C17_growth_refuted` |
| C18 | Transaction logs may be supplied in any order | stable sort; permutation argument | proved | `C18_log_order`, `C18_equal_numbers_refuted` |
| C19 | A consistent hive is not changed by logs | build with logs | proved | `C19_clean_hive`, `C19_same_iteration` |
| C20 | After recovery the header describes the recovered hive | header update | partial | `C20_header_after_recovery`, `C20_one_log`, `C20_nothing_applied_refuted`, `C20_number_lost_refuted` |
| C21 | Parsing a key or value cell never aborts and never reads outside the file | cell parsers on arbitrary bytes | proved | `C21_key_cells`, `C21_value_cells`, `C21_reading_a_key`, `C21_content` |
| C22 | Key node cells round-trip | cell writer (spec) and reader | proved | `C22_key_cells_round_trip` |
| C23 | Key value cells round-trip | cell writer (spec) and reader | partial | `C23_value_cells_round_trip`, `C23_unknown_flag_refuted` |
| C24 | Value data is the stored data, wherever it is stored | data reader against resident, cell and big-data storage | partial | `C24_resident_data`, `C24_cell_data_partial`, `C24_big_data`, `C24_db_prefix_refuted`, `C24_fixed_width_refuted` |
| C25 | Typed content inverts the value encoding | typed content against value encodings | partial | `C25_numbers`, `C25_strings`, `C25_multi_strings_partial`, `C25_binary`, `C25_too_short` |
| C26 | Sub-key lists enumerate exactly the listed keys | sub-key lists against a storage relation | proved | `C26_lists`, `C26_far_items_lh`, `C26_far_items_lf` |
| C27 | Sub-key list parsing terminates on every file | well-founded measure on acyclic lists; divergence witness | partial | `C27_list_parsing_ends_partial`, `C27_fuel`, `C27_index_root_cycle_refuted` |
| C28 | Security descriptor traversal terminates | ring of security cells; divergence witness | partial | `C28_security_ring`, `C28_of_key`, `C28_security_ends_partial`, `C28_inner_cycle_refuted` |
| C29 | Iteration visits every key exactly once, parents first | stack machine against the pre-order of a stored tree; simulation | proved | `C29_hive_opens`, `C29_preorder` |
| C30 | Iteration terminates without repeats on every file | stack machine on arbitrary files; measure on positions not yet visited | partial | `C30_iteration_ends_partial`, `C30_iteration_ends_recovered_partial`, `C30_no_logs_no_deleted_root`, `C30_replayed_iteration_ends`, `C30_list_cycle_refuted` |
| C31 | Post-order iteration visits children before parents | stack machine against the post-order | proved | `C31_postorder` |
| C32 | A key's path spells its position | invariant on every key of the stack | proved | `C32_paths_spell_positions`, `C32_paths_spell_positions_recovered` |
| C33 | Lookup by path finds a key iff it exists | look-up against the tree; induction on the path | partial | `C33_get_key`, `C33_every_path`, `C33_root_name_refuted` |
| C34 | Value lookup by name is ASCII case-insensitive and complete | value look-up | proved | `C34_get_value`, `C34_characters` |
| C35 | A filter selects exactly the matching keys | filter against a selection on the pre-order | partial | `C35_filter`, `C35_postorder`, `C35_root_filter`, `C35_literal_filter`, `C35_path`, `C35_postorder_refuted`, `C35_no_component_refuted`, `C35_leading_backslash_refuted` |
| C36 | Counts equal what iteration yields | counts against iteration | proved | `C36_counts_are_of_iteration`, `C36_counts`, `C36_filtered_counts` |
| C37 | Turning on recovery does not change the live view | simulation between builds with and without recovery | partial | `C37_same_hive`, `C37_live_view`, `C37_get_key`, `C37_views_agree_partial`, `C37_replayed_views_agree`, `C37_postorder_refuted` |
| C38 | Recovery scan reports only free cells from the file | invariant on the scan of cells and slack | partial | `C38_recovered_items`, `C38_cells`, `C38_allocated_never_recovered_partial`, `C38_tiny_cell_refuted` |
| C39 | Recovery scan covers every bin | induction over bins and cells | partial | `C39_free_cells_partial`, `C39_last_bin_refuted` |
| C40 | Transaction analysis classifies each change once | comparison of item maps before and after each log | partial | `C40_build`, `C40_next`, `C40_entries`, `C40_modified_keys`, `C40_modified_values`, `C40_deleted_values`, `C40_deleted_keys_partial`, `C40_items`, `C40_root_items_refuted`, `C40_lost_children_refuted` |
| C41 | Deleted/modified stores return what was stored under a path | stores against a list of entries; induction on the history | partial | `C41_deleted_values`, `C41_added_keys`, `C41_added_values`, `C41_deleted_keys_partial`, `C41_deleted_keys_refuted` |
| C42 | reg_compare partitions the two hives | comparison loops against a partition of items; invariant on the map | proved | `C42_hives`, `C42_same`, `C42_duplicate_refuted`, `C42_case_refuted` |
| C43 | Unified diff hunks carry the right line counts | diff and report writers against a grammar of hunks and sections | proved | `C43_hunks`, `C43_readable`, `C43_report`, `C43_newline_refuted`, `C43_forged_refuted`, `C43_empty_range_refuted` |
| C44 | Text export totals equal what was written | export writer against a reader of comments and rows | proved | `C44_export_read`, `C44_one_reading`, `C44_written`, `C44_hive`, `C44_part`, `C44_odd_file_refuted` |
| C45 | TSV rows are numbered 1..n and recovered-only keeps exactly recovered rows | TSV writer against a reader of rows | proved | `C45_rows` |
| C46 | Full field info agrees with light parsing and points at the data | field positions against byte positions | partial | `C46_key_cells`, `C46_value_cells`, `C46_data_place_refuted` |
| C47 | Bad values or sub-keys do not hide their siblings | loops over items with bad entries | partial | `C47_sub_keys`, `C47_sub_keys_returned`, `C47_values_partial`, `C47_values_good`, `C47_values_refuted` |
| C48 | Iterators are pure views of the parser | state after look-ups differs only in a cache | proved | `C48_look_ups_change_nothing`, `C48_interleaved`, `C48_filtered` |
| C49 | Decode formats compose as documented | decode chain | partial | `C49_utf16`, `C49_utf16_never_aborts`, `C49_lznt1`, `C49_utf16_multiple_refuted`, `C49_lznt1_aborts_refuted` |
| C50 | Warnings are append-only | message collections under any history | proved | `C50_messages_kept`, `C50_prefixes`, `C50_has_logs`, `C50_option`, `C50_written`, `C50_shown`, `C50_lines`, `C50_empty_merge_refuted` |
| C51 | Turning on recovery never makes a hive unreadable | build with recovery on stored hives | partial | `C51_opens_with_recovery_partial`, `C51_not_rejected_partial`, `C51_opens_with_logs_partial`, `C51_notes_end_partial`, `C51_replayed_notes_end`, `C51_notes_never_end`, `C51_unfilled_bin_refuted`, `C51_two_roots_refuted`, `C51_torn_root_refuted` |
| C52 | Nothing in a transaction log is left out silently | diagnostics of log handling | partial | `C52_skips_reported`, `C52_clean_reported`, `C52_unread_logs`, `C52_damaged_signature_refuted` |
| C53 | Moving through a hive with keys in hand shows the stored tree | inductive set of keys obtained by any calls; each call against the tree | partial | `C53_shown`, `C53_sub_keys`, `C53_by_index`, `C53_next`, `C53_by_name_partial`, `C53_by_path`, `C53_parent`, `C53_root_parent`, `C53_values`, `C53_by_name_on_root_refuted`, `C53_root_parent_refuted` |
| C54 | Dates in exports say when a key was written | the calendar of chrono against counting days from 1601-01-01; digits against a reader; lexicographic order field by field | partial | `C54_denotes`, `C54_one_meaning`, `C54_sorted`, `C54_plain`, `C54_hive`, `C54_zero_refuted` |
| C55 | Keys show all of their recorded past, newest version first | inductive relation between a key and the four stores; invariant of reading and of both iterations | partial | `C55_iteration`, `C55_reads`, `C55_by_path`, `C55_by_path_refuted`, `C55_security_refuted` |
| C56 | Contents and flags in the tab-separated export say what is stored | a reader of quoted lists, numerals and flag names, inverse to the writer; rows of a hive against the tree | proved | `C56_content`, `C56_one_meaning`, `C56_flags`, `C56_flags_one_meaning`, `C56_rows`, `C56_hive`, `C56_part`, `C56_text_alone_refuted`, `C56_unnamed_bits_refuted` |
| C57 | The spreadsheet export holds every item and every message, long texts included | a reader of cells, links and parts; an invariant that links the writes so far to a table of expected cells; a bound on links for success | partial | `C57_sheets`, `C57_one_reading`, `C57_cells`, `C57_succeeds`, `C57_hive`, `C57_part`, `C57_log_text_refuted` |
| C58 | A run over a folder gives each hive its own output, read with the logs beside it | a folder is a list of paths with bytes; the names of outputs are injective on plain folders (splitting at underscores; the stems of the eight names differ); a fold that writes under different names keeps all | partial | `C58_outputs`, `C58_distinct`, `C58_logs`, `C58_compare`, `C58_underscore_refuted`, `C58_dot_refuted`, `C58_log_case_refuted` |
| C59 | A list of paths is taken apart into the hive and its logs | splitting undoes joining; trimming undoes blanks and quotes; case folding of extensions | proved | `C59_paths`, `C59_only_logs`, `C59_comma_refuted` |
| C60 | The JSON export is one readable document per key that determines the key and its values | the model writes bytes; a reader after RFC 8259 is the specification; the bytes are those of a document (text_of), reading gives the document back (induction over documents), and its members say what the key holds; nested induction over versions | proved | `C60_lines`, `C60_one_reading`, `C60_one_meaning`, `C60_hive`, `C60_part`, `C60_versions_refuted` |
| C61 | A Python program sees each stored time as the nearest microsecond | date_to_pyobject computes fields; the specification counts days from 1601 with the calendar of C54 and microseconds; rounding by linear arithmetic over the remainders | proved | `C61_dates`, `C61_one_meaning`, `C61_order`, `C61_exact_refuted`, `C61_zero_refuted` |
| C62 | A Python program sees the keys and values that the hive stores | invariant over the calls of a program (py_session): the parser is in use and each key was obtained as in C53, with the date of its time; then C53, C33 and C31 carry over, and the getters are read off | partial | `C62_held`, `C62_iteration`, `C62_root`, `C62_open`, `C62_sub_keys`, `C62_find`, `C62_parent`, `C62_versions`, `C62_after_iteration_refuted` |
| C63 | What recovery finds in unused space stays visible when logs are applied | counterexample computed from a hive with two free keys and a log that changes nothing; for values, invariant over the comparisons of a build | partial | `C63_values`, `C63_free_values`, `C63_keys_refuted` |
| C64 | No file aborts the program that opens, iterates or looks up | An explicit outcome stands for every abort in the code (a slice out of range, an unwrap of nothing, a subtraction below zero). Proved by going through the functions: every read is bounded; keys and values that are compared have their hashes; a path is at least as long as the cached length of its root, by an invariant over the iteration and over histories of calls. Histories with keys in hand: one induction over the calls with the invariant that every key held lies under the root by its path (HandFacts.v). | partial | `C64_opening`, `C64_first_call`, `C64_calls_without_a_filter`, `C64_any_history`, `C64_in_hand`, `C64_other_root_refuted`, `C64_odd_parent_refuted` |
| C65 | Decoders applied one after another give back what was packed | The formats are inductive relations between bytes and contents (DecodeSpec.v); each decoder is shown to invert its relation, by induction over texts, lists and chunks; chains by induction. | proved | `C65_decoders`, `C65_chain`, `C65_hive` |
| C66 | Writing a hive out never aborts | Proved with an invariant over everything that makes a key (reading a cell, the scan for free cells, the comparison by log entries, the iteration): its path is the UTF-8 of a text that begins with a backslash, and so are those of its versions and of the deleted keys below it. Cutting such a text after its root ends on a character. The writers are gone through by induction over keys, versions and values. | partial | `C66_paths`, `C66_exports`, `C66_complete` |
| C67 | A dump of a folder goes through, and holds every hive of it | Dump.v models bin/reg_dump/main.rs from the choices of the command line to the output folder, with the exports of Export.v, Json.v and Xlsx.v in it and the outcomes of one hive told apart (not opened, written, given up, aborted, endless). A run that goes through is a run of the folder model of C58 with the export as its parameter, by induction over the files; that no hive aborts is C64 and C66 for each; that each ends is C30 with the bound of its size and C68. Reading the output back is C60, C44, C56 and C57, for the keys that the filter selects (PartSpec.v: the keys whose names begin with those of the path). | partial | `C67_outputs`, `C67_never_stopped`, `C67_complete_partial`, `C67_complete_replayed`, `C67_written`, `C67_json`, `C67_common`, `C67_tsv`, `C67_xlsx`, `C67_odd_type_refuted`, `C67_short_entry_refuted`, `C67_cycle_refuted` |
| C68 | Opening a file ends | The fuel of opening is used only by what recovery does; that nothing else asks for it is shown function by function (entries, logs, applying, root), so the result is that with fuel 0, and out of fuel is not among the results. | proved | `C68_opening_ends`, `C68_recovery_ends`, `C68_opened_or_not` |
| C69 | A comparison of two folders goes through, and tells the changes of every hive | CompareRun.v models bin/reg_compare.rs from the choices of the command line to the output folder, with the comparison of Compare.v in it and the outcomes of one pair told apart (reported, failed, aborted, endless). By induction over the files of the base the run is a sequence of jobs, each writing one name; names do not clash (C58). A pair of hives is C42, its outputs are read with C43. | partial | `C69_outputs`, `C69_complete`, `C69_report`, `C69_diff`, `C69_part`, `C69_backslash_refuted` |
| C70 | A run leaves the evidence as it was | Disk.v models both tools on one disk from which they read and to which they write, in the order of the code (the dump creates its output after reading, the comparison before). That files without the extension of the outputs are kept is an induction over the walk, for any list of walked paths; no name of a hive or log ends in such an extension. With that, the run on the disk is step by step the run of Dump.v or CompareRun.v over the files as they were (the assumption of Folder.v that outputs lie elsewhere is thereby discharged), and C67 and C69 carry over. | proved | `C70_dump_keeps`, `C70_compare_keeps`, `C70_evidence`, `C70_dump_outputs`, `C70_compare_outputs`, `C70_dump_as`, `C70_compare_as`, `C70_one_keeps`, `C70_dump_one`, `C70_compare_one`, `C70_compare_over`, `C70_over_refuted` |
| C71 | An output on a failing disk is a beginning of the export, and success means all of it | Sink.v models BufWriter over a file whose transfers may take fewer bytes than given, by any schedule, and an export as a list of texts and console messages, each of which may end it; dropping the writer flushes and forgets the result. Invariant: file and buffer together are the text handed over so far; a failed step leaves them a beginning of it. The exports of Dump.v and CompareRun.v are put through it with any cutting into pieces. | partial | `C71_beginning`, `C71_killed`, `C71_success_partial`, `C71_sound`, `C71_dump`, `C71_compare`, `C71_json`, `C71_silent_refuted` |
| C72 | How a hive is handed over does not matter | Source.v models a reader as its bytes before and after its position and a list of what its next calls of `read` do (give up to k bytes, be interrupted, fail); `read_to_end` is its loop. The builders are records changed by calls; Python's objects are a store of readers shared between builds. By induction over the turns all bytes are read or there is an error; the last call of a kind decides a setting. The refutations follow from the position being left at the end. | partial | `C72_file`, `C72_path`, `C72_python`, `C72_python_calls`, `C72_python_new`, `C72_same`, `C72_file_whole`, `C72_path_whole`, `C72_python_whole`, `C72_missing`, `C72_filter_ignored`, `C72_again_partial`, `C72_again_refuted`, `C72_log_again_refuted`, `C72_midway_refuted` |
| C73 | Opening with recovery and logs comes to an end | ReplaySpec.v defines the files that a replay goes through by the specification of replay alone (TxSpec.v), without the analysis. A computation ends if above some fuel its result is the same and is not lack of fuel. By induction over the entries of the logs: the recorded state holds no deleted root (a root that is the same key in all files is never recorded as deleted), so iterating it ends, so the items before and after an entry are found, and the state after it is such again. The scan of the free space is treated with the lemmas of C19. | proved | `C73_replay_ends`, `C30_replayed_iteration_ends`, `C37_replayed_views_agree`, `C51_replayed_notes_end`, `C67_complete_replayed` |
| C74 | A filter is what was put together | FilterBuild.v models the builder as a fold over calls, with the library of regular expressions as a parameter. FilterSpec.v says what the calls ask for without the filter's data structure. By induction over the calls the components correspond to the pieces asked for; the selection of TreeSpec.v, to which C35 leads iteration back, is then the choice of the specification by cases on the lengths. | partial | `C74_filter`, `C74_refused`, `C74_classes_refuted` |
| C75 | The end of a run tells whether the job was done | Exit.v models `main` of both tools with a disk and a console that may fail (Sink.v) and with the status at the end. The success of a single run is traced back to the writer by the invariant of C71; the runs of Disk.v are shown to be these runs without their status (C75_as_dump, C75_as_compare), so that C70 applies to them. Folder runs: induction over the files walked; the failures by computed witnesses. | partial | `C75_dump_success`, `C75_compare_success`, `C75_compare_missing`, `C75_dump_tells`, `C75_dump_missing`, `C75_compare_tells`, `C75_as_dump`, `C75_as_compare`, `C75_dump_folder_partial`, `C75_compare_folder_partial`, `C75_folder_always`, `C75_folder_refuted` |
| C76 | The looks of the spreadsheet tell the state of each item | XlsxLook.v models the formats that the export sets, apart from the cells it writes (Xlsx.v). The rows are shown to be a fold over the same items as in C57, then induction over the items from the end, with the state of the sheet as the invariant. | proved | `C76_looks`, `C76_plain` |
| C77 | Two runs over the same evidence show the same | The walk is the parameter `order` of the model; two runs are two values of it. OrderPlain.v: without a comparison no step depends on it. The keys in use: C37 for both runs. Earlier versions and deleted values: OrderFacts.v carries an invariant over the replay of two runs side by side: all but the deleted keys and values is equal, the deleted values of every path are equal up to the order of names, and all deleted keys are keys of an earlier state (`seated`), so that what the walk removes is the same in both; OrderRuns.v takes it through opening and reading a key. Refutations: a hive of five keys whose log deletes two keys (DemoOrder.v), walked forwards and backwards. | partial | `C77_unrecovered`, `C77_unreplayed`, `C77_live`, `C77_replayed_partial`, `C77_order_refuted`, `C77_lost_refuted` |
| C78 | A file of an unknown type shows one blank key but answers look-ups | The model has the early return for an unsupported type and the default key that stands in for the missing root. OddSpec.v says what a blank key is, field by field. Iteration: evaluated for every filter and mode. Look-ups do not use the root read at opening (`get_key_root`), so the proof of C33 is taken over with a root put in. | proved | `C78_opens`, `C78_iterated`, `C78_counted`, `C78_looked_up`, `C78_agree_refuted` |
| C79 | No reported change means nothing has changed | From C42: no key or value is added, deleted or changed iff the contents of both iterations have the same elements. Refutations: two hives of one key with other security cells, and a log entry that changes where the security cell of a key is. | partial | `C79_no_change_iff`, `C79_security_refuted`, `C79_versions_refuted` |
| C80 | Look-ups come to an end | A look-up filters from the root on, and each level adds a backslash to the path of a key: no key deeper than the filter passes. Lists end as in C27, recorded deleted keys as in C30. | partial | `C80_look_up_ends`, `C80_recovered`, `C80_first_cell`, `C80_from_a_key`, `C80_steps_end`, `C80_list_cycle_refuted` |
| C81 | A value tells where its bytes lie | The three ways of reading data are followed in an arbitrary file; what holds of each value when it is read is carried through the iteration as an invariant of the stack. | partial | `C81_where`, `C81_recovered`, `C81_pieces_refuted`, `C81_versions_refuted` |
| C82 | What the console says is what happens | The functions that write on the console are modelled again with their text; that they give the same as those without is proved by induction on logs and entries, and so is the text. | proved | `C82_same`, `C82_logs`, `C82_clean`, `C82_right`, `C82_any`, `C82_no_logs`, `C82_export` |
| C83 | A hive that was cut off shows nothing that the whole hive does not | What is read from the first bytes of a file is read in the same way when more follows, cell by cell; an invariant of the iteration says which key of the whole hive each key is. | partial | `C83_cut`, `C83_found`, `C83_path`, `C83_warned`, `C83_lost_keys`, `C83_nothing_lost`, `C83_silent_refuted` |
| C84 | Bytes that belong to nothing do not change what is shown | A layout may leave bytes open (a mark that is no byte stands for any). Each part of the layout - cells, lists, data, trees by induction - is shown to survive any filling of the open bytes, so that what is proved of hives holds of each filling. | proved | `C84_hive`, `C84_same`, `C84_fields`, `C84_found`, `C84_live` |
| C85 | A look-up by path finds a key with the path asked for | Every key a look-up returns passed the filter, which compares segments of paths; so its path is the path asked for up to some segment. When names have no backslash, all sub keys of a key have paths of the same number of segments, and the one that matched to the end fixes that number. By induction over the steps of the look-up, with no assumption on the file. | partial | `C85_found`, `C85_exact`, `C85_get_key`, `C85_stored`, `C85_all`, `C85_get_key_all`, `C85_by_name`, `C85_backslash_refuted`, `C85_root_flag_refuted` |

Every property of the list is expressed in the model. What the list leaves out because
no model here can express it: durability of written files, behaviour under a file that
changes while it is read, and the lifetime of Python objects.

## 4. Trusted base

* Coq 8.16.1's kernel (and `coqchk`, which re-checks the compiled files). `vm_compute`
  is used for concrete cases, so the kernel's virtual machine is included.
* `Print Assumptions` under every property theorem prints "Closed under the global
  context": no axiom is used, neither our own nor the standard library's. `coqchk`
  lists seven names `Coq.ssr.ssrunder.Under_rel.*`: they are the fields of a module type
  of the standard library that is loaded with `lia`'s dependencies, and no theorem
  depends on them.
* The faithfulness of the hand-written model, which the citations let a reader check,
  and the specifications.
* Nothing is said about the compiler, about dependencies (nom, chrono, blake3, regex,
  winstructs, enum/bitflags crates) beyond what the model assumes of them, nor about
  debug builds (where overflow panics instead of wrapping).

## 5. Findings

Facts about the code that contradict what a user would expect. Each one with a theorem
is proved of the model on a concrete file or for a class of files.

| finding | theorem |
|---------|---------|
| MULTI_SZ strings with characters above U+FFFF, and blank strings, are lost or split | `C02_multi_sz_surrogate_refuted`, `C02_multi_sz_blank_refuted` |
| dates outside the range of 64-bit nanoseconds wrap to other dates | `C04_filetime_zero_refuted` |
| LZNT1 decoding of damaged data aborts | `C09_lznt1_total_refuted`, `C49_lznt1_aborts_refuted` |
| the checksum remapping makes different headers collide | `C11_remapped_values_collide` |
| a log entry with a short size aborts the log parser | `C15_short_entry_refuted` |
| a gap between two logs is not noticed; a damaged log restarts the chain | `C16_gap_between_logs_refuted`, `C16_damaged_log_restarts_refuted` |
| the growth of the file is added for every entry | `C17_growth_refuted` |
| two logs with equal numbers are order-dependent | `C18_equal_numbers_refuted` |
| after recovery the header can name sequence number 0 | `C20_nothing_applied_refuted`, `C20_number_lost_refuted` |
| a value cell with an unknown flag bit is read as UTF-16 although its name is compressed | `C23_unknown_flag_refuted` |
| data over 16344 bytes in one cell that begins with `db` is read as big data; fixed-width types are truncated | `C24_db_prefix_refuted`, `C24_fixed_width_refuted` |
| an index root that reaches itself recurses without end | `C27_index_root_cycle_refuted`, `C30_list_cycle_refuted` |
| a cycle of security cells that avoids its start loops without end | `C28_inner_cycle_refuted` |
| the recorded place of value data is not its place | `C46_data_place_refuted` |
| one bad value hides all values after it | `C47_values_refuted` |
| decoding Utf16Multiple at an offset aborts | `C49_utf16_multiple_refuted` |
| `get_key` with the root name does not compare that name; a second trailing backslash hides the root | `C33_root_name_refuted` |
| a filter in post-order without ancestors shows other keys than in pre-order | `C35_postorder_refuted` |
| recovery: an allocated cell after a cell of less than six bytes is reported deleted | `C38_tiny_cell_refuted` |
| recovery: the last bin is never scanned | `C39_last_bin_refuted` |
| recovery: the post-order of allocated keys changes | `C37_postorder_refuted` |
| recovery: a bin that ends in zeros makes the hive unreadable | `C51_unfilled_bin_refuted` |
| removing a deleted key forgets deleted keys below it | `C41_deleted_keys_refuted` |
| items removed right below the root are never shown; children of a re-created key are lost | `C40_root_items_refuted`, `C40_lost_children_refuted` |
| merging messages with nothing leaves a present, empty collection | `C50_empty_merge_refuted` |
| a damaged signature ends a log without a diagnostic | `C52_damaged_signature_refuted` |
| the export of a file of unknown type panics | `C44_odd_file_refuted` |
| a value listed twice makes a hive differ from itself; values whose names differ in case show the wrong old value | `C42_duplicate_refuted`, `C42_case_refuted` |
| a key name with a line feed breaks a diff hunk | `C43_newline_refuted` |
| `get_sub_key` on the root finds nothing in a fresh parser and panics after another look-up | `C53_by_name_on_root_refuted` |
| a key time before 1677-09-21 (also the usual 0) or after 2262-04-11 is shown as a wrong date with nine digits after the point | `C54_zero_refuted` |
| a key looked up by path or by name (`get_key`, `get_sub_key_by_path`, `get_sub_key`) shows no earlier versions and no deleted items, while the iteration shows them with the same key | `C55_by_path_refuted` |
| the text of a value in the TSV export does not tell a number from the string of its digits; only the type column does | `C56_text_alone_refuted` |
| flag bits without a name are not shown in the TSV export | `C56_unnamed_bits_refuted` |
| the texts of messages are written to the spreadsheet without replacing characters that XML forbids; messages quote key paths | `C57_log_text_refuted` |
| folders with an underscore or a dot in their names: hives of a folder run overwrite each other's output | `C58_underscore_refuted`, `C58_dot_refuted` |
| a folder run takes hives by name in any case, but their logs in one spelling only | `C58_log_case_refuted` |
| a path with a comma cannot be given in the list of paths | `C59_comma_refuted` |
| the earlier versions of a key are left out of the JSON export; those of its values are not | `C60_versions_refuted` |
| a Python datetime does not tell apart times that differ by less than a microsecond | `C61_exact_refuted` |
| after `reg_keys` a Python parser answers `None` to every look-up | `C62_after_iteration_refuted` |
| keys recovered from free cells vanish after an odd number of applied log entries, and are shown as deleted by the log after an even number | `C63_keys_refuted` |
| opening with recovery and a log never ends when two free keys have the flag of a root | `C51_two_roots_refuted` |
| in a hive whose header names another root than the first cell, a look-up by path makes the next iteration with a filter abort | `C64_other_root_refuted` |
| one file that aborts or does not end keeps every later hive of a folder from being dumped: a file of an unknown type (common format), a log with an entry shorter than its header, an index root inside itself | `C67_odd_type_refuted`, `C67_short_entry_refuted`, `C67_cycle_refuted` |
| a key whose name ends in a backslash, gone from the other hive, aborts the comparison, and with it the run over the folder | `C69_backslash_refuted` |
| a filter path that begins with a backslash, as look-up by path takes it, selects nothing | `C35_leading_backslash_refuted` |
| told to write over one of its own inputs, the compare tool empties that hive before reading it and gives no report; the dump tool replaces the hive by its export | `C70_compare_over`, `C70_over_refuted` |
| no writer of the tools is flushed: when the disk is full at the end, up to 8 KiB of an export (all of a small one) are missing and the tool reports success | `C71_silent_refuted` |
| a Python builder that was given a file-like object cannot build a second time; one that was given file-like logs builds a second time without them and without saying so: readers are read from where they are and never set back | `C72_again_refuted`, `C72_log_again_refuted`, `C72_midway_refuted` |
| `ParserBuilderFromFile::with_filter` has no effect | `C72_filter_ignored` |
| `FilterBuilder::add_regex_segment` lower-cases the expression itself: `\D`, `\W`, `\S` become `\d`, `\w`, `\s` and select the opposite | `C74_classes_refuted` |
| A run over a folder ends with status 0 whatever happened to its hives: one that cannot be opened leaves the export of an earlier run in place, a comparison that fails leaves an empty report, and the status does not tell | C75_folder_refuted, C75_folder_always |
| The root of a hive may name any key as its parent; after a look-up below that key the cached length of the root's name is wrong and the next filtered iteration aborts | `C64_odd_parent_refuted` |
| a filter without components that requests child keys selects no key at all | `C35_no_component_refuted` |
| asking for the parent of the root gives whatever key the root's cell names as its parent, shown at a path that no key of the hive has | `C53_root_parent_refuted` |
| opening with recovery reads the root before the logs are applied, so a hive whose damaged root the log restores opens only without recovery | `C51_torn_root_refuted` |
| two runs over the same hive and logs can show deleted keys in another order | `C77_order_refuted` |
| two runs over the same hive and logs can differ in whether deleted keys are shown at all | `C77_lost_refuted` |
| a file whose header names an unknown type is opened without an error; iterating shows one blank key, while look-ups by path read the tree in it | `C78_agree_refuted` |
| a change of the security descriptors of a key is not reported by a comparison, and a log entry that makes one leaves no earlier version | `C79_security_refuted`, `C79_versions_refuted` |
| a look-up does not end in a hive whose list of sub keys contains itself | `C80_list_cycle_refuted` |
| an earlier version of a key gives the security descriptors that are stored now where its own were | `C55_security_refuted` |
| a deleted key whose name holds a line feed is written as the diff of other changes | `C43_forged_refuted` |
| empty ranges in diff hunks are numbered one higher than the usual convention | `C43_empty_range_refuted` |
| the positions of a value in pieces are not absolute, although the field says so | `C81_pieces_refuted` |
| an earlier version of a value has a position at which the file now has other bytes | `C81_versions_refuted` |
| a key of a hive that was cut off loses all its values without a warning when its value list lies at an offset beyond the length of the file (src/cell_key_node.rs:655-657) | `C83_silent_refuted` |
| a look-up of `a\bcd` among the sub keys `a` and `a\bcd` finds `a`: the first sub key is returned when any of them matches to the end (src/cell_key_node.rs:635-639) | `C85_backslash_refuted` |
| a sub key that is flagged as a root, in a damaged file, is found by any name (src/filter.rs:49-51) | `C85_root_flag_refuted` |

Seen while modelling, without a theorem:

* After a log makes the root unreadable, the next comparison reads old items from the
  wrong buffer; values recovered for the root keep the offsets of the earlier file.
* Offsets are added to the start of the bins with wrapping; `lh` lists check, `lf` and
  `li` lists wrap (see `C26_far_items_lh`, `C26_far_items_lf`).
* A filter that names the root, starts with a backslash or is empty selects nothing; with
  `key_path_has_root` the path must start with a backslash.
* The recovery scan compares an absolute offset with the size of the bins.
* Bytes after the last complete log entry are ignored without a message; with a bad
  header checksum the first log is dropped with a general warning only.

## 6. Wrong programs

`seeded/LOG.jsonl` records edits of the model that a realistic bug would make, the claim
each breaks and the theorems that failed to build. Edits that no theorem noticed led to
tighter theorems, named in the same line, or are noted there as equivalent.
