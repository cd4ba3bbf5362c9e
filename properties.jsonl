{"id": "C01", "title": "UTF-16LE names and strings decode to what was written", "statement": "For every text without U+0000, decoding its UTF-16LE encoding (optionally followed by a NUL unit and anything after it) with the library's single-string decoder returns exactly that text, with no conversion warning; every odd or lone-surrogate input still returns a string, with a warning exactly when a unit before the terminator is an unpaired surrogate.", "quantifier": "all texts (sequences of Unicode scalar values of any length, BMP or not), all trailing bytes", "why_tests_cant": "unbounded strings; the surrogate-pair and terminator boundary cases form an infinite family", "anchors": ["src/util.rs:from_utf16_le_string_single", "src/util.rs:from_utf16_le_string", "src/util.rs:string_from_bytes"]}
{"id": "C02", "title": "REG_MULTI_SZ decoding returns the stored list", "statement": "Decoding the standard encoding of a list of strings (each NUL-terminated, list terminated by an empty string) returns exactly that list. This is claimed for every list of non-blank strings of BMP characters; the unrestricted claim is investigated and its failing inputs characterised.", "quantifier": "all lists of strings of any length and count", "why_tests_cant": "the loop's byte-offset arithmetic must be right for every combination of lengths", "anchors": ["src/util.rs:from_utf16_le_strings", "src/cell_key_value.rs:get_value_content"]}
{"id": "C03", "title": "ASCII-compressed names decode as Latin-1", "statement": "A name stored in compressed form decodes to the string whose characters are the stored bytes read as Latin-1, one character per byte including NUL bytes; the decoder never fails, and distinct byte strings give distinct names.", "quantifier": "all byte strings", "why_tests_cant": "infinite input set; injectivity is a statement about pairs", "anchors": ["src/util.rs:from_ascii", "src/util.rs:string_from_bytes"]}
{"id": "C04", "title": "FILETIME conversion is exact", "statement": "Converting a 64-bit FILETIME gives the instant 1601-01-01 + filetime*100ns exactly, for every filetime whose instant is representable as 64-bit nanoseconds since 1970; the set of filetimes for which this fails is characterised.", "quantifier": "all 2^64 filetimes", "why_tests_cant": "the 64-bit space cannot be enumerated; the failure is wrap-around at the edges", "anchors": ["src/util.rs:get_date_time_from_filetime"]}
{"id": "C05", "title": "Hex rendering of binary data is lossless", "statement": "The hex text printed for binary data determines the data: parsing the text back gives the original bytes, and the text length is a fixed function of the data length.", "quantifier": "all byte strings", "why_tests_cant": "unbounded inputs; losslessness is injectivity over pairs", "anchors": ["src/util.rs:to_hex_string"]}
{"id": "C06", "title": "TSV field escaping is lossless and keeps rows intact", "statement": "An escaped field, read by a standard quoted-field reader, gives back the original text; an escaped field never contains a tab, CR or LF outside quotes, so a written row splits into exactly the fields written.", "quantifier": "all strings and all rows of strings", "why_tests_cant": "unbounded strings; includes every placement of quotes/newlines", "anchors": ["src/util.rs:escape_string", "bin/reg_dump/tsv_writer.rs"]}
{"id": "C07", "title": "ROT13 decoding is an involution that touches only ASCII letters", "statement": "Decoding twice returns the original; non-letters are unchanged; letters move 13 places with case kept.", "quantifier": "all strings", "why_tests_cant": "unbounded strings", "anchors": ["src/util.rs:decode_rot13"]}
{"id": "C08", "title": "LZNT1 decompression inverts compression", "statement": "For every well-formed LZNT1 stream (any sequence of raw and compressed chunks, any mix of literals and back references valid at their position) decompression returns the bytes the stream denotes by the published format, for every length of stream.", "quantifier": "all well-formed token/chunk sequences", "why_tests_cant": "unbounded streams; bit-width split depends on position in every way up to 4096", "anchors": ["src/util.rs:decode_lznt1", "src/util.rs:calc_compression_bits"]}
{"id": "C09", "title": "LZNT1 decompression is total on arbitrary bytes", "statement": "Decompressing arbitrary bytes returns a result or an error value; it does not abort the program.", "quantifier": "all byte strings and source offsets", "why_tests_cant": "must hold on every malformed input; fuzzing only samples", "anchors": ["src/util.rs:decode_lznt1"]}
{"id": "C10", "title": "Root-less path is the path minus its first component", "statement": "For a path \\Root\\a\\b the root-less form is a\\b; for the root itself it is the path as stored; it never cuts inside a component or character.", "quantifier": "all root names and component lists", "why_tests_cant": "unbounded strings", "anchors": ["src/util.rs:get_root_path_offset", "src/cell_key_node.rs:get_pretty_path"]}
{"id": "C11", "title": "Base-block checksum is the format's checksum", "statement": "The computed checksum is the XOR of the first 127 little-endian dwords of the header with the two reserved results remapped, is never 0 or 0xFFFFFFFF, and a change of any single one of those dwords that does not hit a remapped value changes it.", "quantifier": "all 4096-byte headers (all byte strings)", "why_tests_cant": "2^4064 headers; detection is a statement about pairs of headers", "anchors": ["src/base_block.rs:calculate_checksum"]}
{"id": "C12", "title": "Hive header fields are read from their on-disk positions", "statement": "Parsing a header written field by field by the published layout returns exactly those field values, and no header shorter than the layout or without the signature parses.", "quantifier": "all field values, all trailing data", "why_tests_cant": "all values of all fields", "anchors": ["src/base_block.rs:BaseBlockBase::from_bytes", "src/base_block.rs:BaseBlock::from_bytes", "src/hive_bin_header.rs:from_bytes"]}
{"id": "C13", "title": "Marvin32 hash equals its mathematical definition", "statement": "The hash of any data equals the fold of the Marvin block function over the data's little-endian words with the 0x80-terminated final word and a zero word, from the seed's two halves.", "quantifier": "all seeds and byte strings of any length", "why_tests_cant": "unbounded data; tail cases mod 4", "anchors": ["src/marvin32.rs:calculate_hash"]}
{"id": "C14", "title": "Transaction-log entries parse to what was written", "statement": "Serialising any list of log entries (any number of dirty pages of any sizes) and parsing the bytes returns the same entries in order with both hash checks passing.", "quantifier": "all entry lists", "why_tests_cant": "unbounded entry and page counts", "anchors": ["src/transaction_log.rs:LogEntry::from_bytes_internal", "src/transaction_log.rs:TransactionLog::from_bytes"]}
{"id": "C15", "title": "A torn log contributes exactly its complete leading entries", "statement": "If a log is cut at an arbitrary byte (crash during append), parsing yields exactly the entries wholly contained before the cut, never a partial or invented one, and never aborts.", "quantifier": "all entry lists and all cut points (crash points)", "why_tests_cant": "every crash point of every log", "anchors": ["src/transaction_log.rs:TransactionLog::from_bytes", "src/transaction_log.rs:LogEntry::from_bytes"]}
{"id": "C16", "title": "Only hash-valid, in-sequence entries are applied", "statement": "The entries that change the hive are exactly a specified subsequence: skip entries older than the hive, stop at the first entry whose hashes or size are invalid or whose sequence number is not one more than the previous applied one.", "quantifier": "all logs and hives", "why_tests_cant": "all interleavings of good, stale, corrupt and gapped entries", "anchors": ["src/transaction_log.rs:update_parser", "src/transaction_log.rs:has_valid_hashes"]}
{"id": "C17", "title": "Applying a log overlays its dirty pages and nothing else", "statement": "After log application each byte of the hive data is the byte of the last applied dirty page covering it, or the original byte (or zero in newly grown space) if none covers it; the length grows as specified.", "quantifier": "all hives and logs, all byte positions", "why_tests_cant": "unbounded histories of overlapping pages", "anchors": ["src/transaction_log.rs:update_parser"]}
{"id": "C18", "title": "Transaction logs may be supplied in any order", "statement": "Supplying the two logs in either order, or any permutation of logs with distinct header sequence numbers, builds the same hive.", "quantifier": "all permutations of all logs", "why_tests_cant": "all orders", "anchors": ["src/transaction_log.rs:parse", "src/parser.rs:prepare_transaction_logs"]}
{"id": "C19", "title": "A consistent hive is not changed by logs", "statement": "If the primary file is marked clean (sequence numbers equal, checksum right), supplying any logs leaves the hive bytes untouched.", "quantifier": "all clean hives, all logs (also garbage logs)", "why_tests_cant": "all logs", "anchors": ["src/parser.rs:check_base_block", "src/parser.rs:init", "src/parser.rs:apply_transaction_logs"]}
{"id": "C20", "title": "After recovery the header describes the recovered hive", "statement": "When at least one log entry is applied, the in-memory header ends with equal primary and secondary sequence numbers naming the last applied entry, the checksum matches the header bytes, and parsing that header again gives the parser's own base block. When no entry is applicable the header should keep its sequence numbers; whether it does is settled.", "quantifier": "all hives and logs", "why_tests_cant": "all histories", "anchors": ["src/parser.rs:update_header_after_transaction_logs", "src/parser.rs:apply_transaction_logs"]}
{"id": "C21", "title": "Parsing a key or value cell never aborts and never reads outside the file", "statement": "For every file content and offset, reading a key node or a key value returns a result or error value; it does not abort.", "quantifier": "all byte strings, all offsets, all options", "why_tests_cant": "all malformed inputs", "anchors": ["src/cell_key_node.rs:from_bytes", "src/cell_key_node.rs:read", "src/cell_key_value.rs:from_bytes", "src/cell_key_value.rs:read_value_bytes"]}
{"id": "C22", "title": "Key node cells round-trip", "statement": "A key cell laid out by the format with any field values, any name (compressed or UTF-16) and any slack parses to those values; size = fixed part + name + slack.", "quantifier": "all field values, names, slack", "why_tests_cant": "all values", "anchors": ["src/cell_key_node.rs:from_bytes"]}
{"id": "C23", "title": "Key value cells round-trip", "statement": "A value cell laid out by the format with any field values and name parses to those values.", "quantifier": "all field values, names, slack", "why_tests_cant": "all values", "anchors": ["src/cell_key_value.rs:from_bytes"]}
{"id": "C24", "title": "Value data is the stored data, wherever it is stored", "statement": "For resident data (<=4 bytes), a data cell, and big-data (segments list) of any length, the value's bytes equal the stored data exactly, in order.", "quantifier": "all data, all lengths, all segmentations", "why_tests_cant": "unbounded lengths; segment-boundary arithmetic", "anchors": ["src/cell_key_value.rs:read_value_bytes_direct", "src/cell_big_data.rs:get_big_data_bytes"]}
{"id": "C25", "title": "Typed content inverts the value encoding", "statement": "REG_DWORD / BE / QWORD / SZ / EXPAND_SZ / MULTI_SZ / BINARY content decoded from stored bytes equals the value written.", "quantifier": "all values of each type", "why_tests_cant": "2^32/2^64 integers, unbounded strings", "anchors": ["src/cell_key_value.rs:get_value_content", "src/cell_key_value.rs:get_content"]}
{"id": "C26", "title": "Sub-key lists enumerate exactly the listed keys", "statement": "For lf, lh, li and (nested) ri lists the offsets returned are exactly the listed offsets, in order, shifted to absolute.", "quantifier": "all lists of any length and ri nesting", "why_tests_cant": "unbounded nesting", "anchors": ["src/sub_key_list_lf.rs", "src/sub_key_list_lh.rs", "src/sub_key_list_li.rs", "src/sub_key_list_ri.rs", "src/cell_key_node.rs:parse_sub_key_list"]}
{"id": "C27", "title": "Sub-key list parsing terminates on every file", "statement": "Parsing the sub-key list at any offset of any file returns; in particular an index root that refers to itself does not loop.", "quantifier": "all files and offsets", "why_tests_cant": "termination on cyclic data", "anchors": ["src/sub_key_list_ri.rs:parse_offsets"]}
{"id": "C28", "title": "Security descriptor traversal terminates", "statement": "Reading security descriptors follows the circular list once and returns, for every file.", "quantifier": "all files", "why_tests_cant": "termination on malformed circular lists", "anchors": ["src/cell_key_security.rs:read_cell_key_security"]}
{"id": "C29", "title": "Iteration visits every key exactly once, parents first", "statement": "On a well-formed hive of any shape, forward iteration yields exactly the pre-order listing of its key tree, each key once, with its full path and values.", "quantifier": "all well-formed hives (trees of any depth and breadth)", "why_tests_cant": "unbounded trees", "anchors": ["src/parser.rs:next_key_preorder", "src/parser.rs:ParserIterator"]}
{"id": "C30", "title": "Iteration terminates without repeats on every file", "statement": "On arbitrary (also cyclic or corrupt) file contents iteration ends after finitely many keys and never yields two live keys from the same file position.", "quantifier": "all files, all states", "why_tests_cant": "termination on every malformed graph", "anchors": ["src/parser.rs:next_key_preorder", "src/parser.rs:push_check_stack_to_traverse"]}
{"id": "C31", "title": "Post-order iteration visits children before parents", "statement": "On a well-formed hive, reverse iteration yields exactly the post-order listing: the same keys as forward iteration, each once, every key after all its descendants.", "quantifier": "all well-formed hives", "why_tests_cant": "unbounded trees", "anchors": ["src/parser.rs:next_key_postorder"]}
{"id": "C32", "title": "A key's path spells its position", "statement": "The path of every key yielded is the backslash-joined list of the names of its ancestors from the root and its own name.", "quantifier": "all hives (also malformed), all keys yielded", "why_tests_cant": "every traversal history", "anchors": ["src/cell_key_node.rs:from_bytes", "src/cell_key_node.rs:read_sub_keys_internal"]}
{"id": "C33", "title": "Lookup by path finds a key iff it exists", "statement": "get_key(path) returns the key with that path (ASCII case-insensitively) when the hive has one and None otherwise, with or without the root name in the path.", "quantifier": "all well-formed hives, all paths", "why_tests_cant": "all paths and trees", "anchors": ["src/parser.rs:get_key", "src/cell_key_node.rs:get_sub_key_by_path", "src/cell_key_node.rs:get_sub_key_internal"]}
{"id": "C34", "title": "Value lookup by name is ASCII case-insensitive and complete", "statement": "get_value(name) returns the first value whose name equals the given one ignoring ASCII case, and None iff there is none.", "quantifier": "all keys and names", "why_tests_cant": "all names", "anchors": ["src/cell_key_node.rs:get_value"]}
{"id": "C35", "title": "A filter selects exactly the matching keys", "statement": "Filtered iteration yields exactly the keys whose root-less path matches the filter segment by segment (literals ignoring ASCII case, regexes by their match), plus descendants iff child keys are requested, plus ancestors iff requested, in pre-order.", "quantifier": "all well-formed hives, all filters, all regex meanings", "why_tests_cant": "unbounded trees x filters", "anchors": ["src/filter.rs", "src/parser.rs:next_key_preorder", "src/cell_key_node.rs:read_sub_keys_internal"]}
{"id": "C36", "title": "Counts equal what iteration yields", "statement": "count_all_keys_and_values returns the number of keys iteration yields and the total of their values, under the same filter.", "quantifier": "all hives and filters", "why_tests_cant": "all hives", "anchors": ["src/parser.rs:count_all_keys_and_values"]}
{"id": "C37", "title": "Turning on recovery does not change the live view", "statement": "Building with deleted-item recovery leaves the hive bytes, header and the allocated keys yielded by iteration the same as without recovery.", "quantifier": "all hives and logs for which both builds succeed", "why_tests_cant": "2-safety over builds", "anchors": ["src/parser.rs:init", "src/transaction_log.rs:update_parser"]}
{"id": "C38", "title": "Recovery scan reports only free cells from the file", "statement": "Every item recovered from unused space is a free cell (or a cell found in slack) present at the reported offset of the file and parses there; allocated keys and values are never reported deleted by the scan.", "quantifier": "all files", "why_tests_cant": "all free-space layouts", "anchors": ["src/parser_recover_deleted.rs"]}
{"id": "C39", "title": "Recovery scan covers every bin", "statement": "Every free key/value cell in every bin of a well-formed hive is examined by the recovery scan.", "quantifier": "all well-formed hives", "why_tests_cant": "all layouts; boundary of the scan", "anchors": ["src/parser.rs:find_free_keys_and_values", "src/parser_recover_deleted.rs"]}
{"id": "C40", "title": "Transaction analysis classifies each change once", "statement": "Comparing the items before and after an applied log entry reports a key or value as modified iff present in both with different content, deleted iff present only before, and reports nothing for unchanged items.", "quantifier": "all before/after item sets", "why_tests_cant": "all pairs of sets", "anchors": ["src/transaction_log.rs:get_latest_reg_items", "src/transaction_log.rs:handle_new_item"]}
{"id": "C41", "title": "Deleted/modified stores return what was stored under a path", "statement": "After any sequence of add/remove operations, a lookup by path returns exactly the items added under it and not removed, in order.", "quantifier": "all operation histories", "why_tests_cant": "unbounded histories", "anchors": ["src/state.rs"]}
{"id": "C42", "title": "reg_compare partitions the two hives", "statement": "Each (path, value-name) item present in only the comparison is reported added, only in base deleted, in both with different content modified, and nothing else is reported; comparing a hive with itself reports no change.", "quantifier": "all pairs of hives with unique paths", "why_tests_cant": "pairs of unbounded hives", "anchors": ["bin/reg_compare.rs:reg_compare"]}
{"id": "C43", "title": "Unified diff hunks carry the right line counts", "statement": "In --diff output every hunk header's start lines and lengths describe the lines that follow it and successive hunks do not overlap.", "quantifier": "all change sets", "why_tests_cant": "all sizes of change sets", "anchors": ["bin/reg_compare.rs:write_diff_section", "bin/reg_compare.rs:write_diff"]}
{"id": "C44", "title": "Text export totals equal what was written", "statement": "The totals in the common-format export equal the number of key and value lines by state.", "quantifier": "all hives", "why_tests_cant": "all hives", "anchors": ["bin/reg_dump/common_writer.rs:write"]}
{"id": "C45", "title": "TSV rows are numbered 1..n and recovered-only keeps exactly recovered rows", "statement": "The index column counts rows consecutively from 1; with recovered-only exactly the rows of items that are, or contain, recovered items are written.", "quantifier": "all key sequences", "why_tests_cant": "all sequences", "anchors": ["bin/reg_dump/tsv_writer.rs", "src/cell_key_node.rs:has_or_is_recovered", "src/cell_key_value.rs:has_or_is_recovered"]}
{"id": "C46", "title": "Full field info agrees with light parsing and points at the data", "statement": "Parsing with full field info gives the same values as without, and each reported (offset,length) locates the bytes that encode the value.", "quantifier": "all cells", "why_tests_cant": "all inputs; 2-safety", "anchors": ["src/field_offset_len.rs", "src/cell_key_node.rs:from_bytes", "src/cell_key_value.rs:from_bytes"]}
{"id": "C47", "title": "Bad values or sub-keys do not hide their siblings", "statement": "A corrupt value or sub-key is reported as a warning and the remaining values/sub-keys of the key are still returned; settled for values and for sub-keys separately.", "quantifier": "all keys with any subset of corrupt members", "why_tests_cant": "all subsets", "anchors": ["src/cell_key_node.rs:read_values", "src/cell_key_node.rs:read_sub_keys_internal"]}
{"id": "C48", "title": "Iterators are pure views of the parser", "statement": "Two iterations of the same parser yield the same sequence; iterating, counting and looking up do not change the hive bytes, and an iterator is unaffected by interleaving with another.", "quantifier": "all parsers and interleavings of next() calls", "why_tests_cant": "all schedules", "anchors": ["src/parser.rs:ParserIterator", "src/parser.rs:ParserIteratorContext"]}
{"id": "C49", "title": "Decode formats compose as documented", "statement": "Decoding a value with an offset and a format equals decoding the bytes from that offset on; no offset or input aborts the program.", "quantifier": "all byte strings, offsets and formats", "why_tests_cant": "all inputs", "anchors": ["src/cell_value.rs:DecodeFormat::decode", "src/cell_value.rs:decode_bytes"]}
{"id": "C50", "title": "Warnings are append-only", "statement": "Diagnostics are never lost: adding or merging logs keeps all earlier entries in order.", "quantifier": "all histories of log operations", "why_tests_cant": "unbounded histories", "anchors": ["src/log.rs"]}
{"id": "C51", "title": "Turning on recovery never makes a hive unreadable", "statement": "A hive that opens without deleted-item recovery also opens with it.", "quantifier": "all hives", "why_tests_cant": "all hives, including damaged ones", "anchors": ["src/parser.rs:find_free_keys_and_values", "src/parser_recover_deleted.rs:find_unused_cells_in_hbin"]}
{"id": "C52", "title": "Nothing in a transaction log is left out silently", "statement": "When a build does not apply an entry of the supplied logs, or cannot read a log, or does not need the logs, the parser's diagnostics say so.", "quantifier": "all hives and logs", "why_tests_cant": "all ways in which logs can be old, torn, out of order or damaged", "anchors": ["src/parser.rs:apply_transaction_logs", "src/transaction_log.rs:update_parser", "src/parser_builder.rs"]}
{"id": "C53", "title": "Moving through a hive with keys in hand shows the stored tree", "statement": "A key returned by any call shows one stored key; from it, its sub keys (all, by index, one after the other), a sub key by name, a key below it by path, its parent and its values are those of the stored tree, whatever was looked up before.", "quantifier": "all well-formed hives, all keys obtained by any history of calls, all names, paths and indexes", "why_tests_cant": "unbounded histories of calls over all trees", "anchors": ["src/parser.rs:get_sub_key", "src/parser.rs:get_parent_key", "src/cell_key_node.rs:read_sub_keys", "src/cell_key_node.rs:get_sub_key_by_path", "src/cell_key_node.rs:get_sub_key_by_index", "src/cell_key_node.rs:next_sub_key", "src/cell_key_node.rs:value_iter"]}
{"id": "C54", "title": "Dates in exports say when a key was written", "statement": "The date shown for a key is an ISO 8601 text in UTC that denotes exactly, to 100 nanoseconds, the FILETIME stored in the key; different times have different texts, and sorting the texts sorts the times.", "quantifier": "all FILETIMEs, all keys of all well-formed hives", "why_tests_cant": "2^64 times over the calendar with its leap years", "anchors": ["src/util.rs:get_date_time_from_filetime", "src/util.rs:format_date_time", "src/cell_key_node.rs:last_key_written_date_and_time", "bin/reg_dump/common_writer.rs:write_key"]}
{"id": "C55", "title": "Keys show all of their recorded past, newest version first", "statement": "After logs were applied or free space was searched, a key shown by an iteration with modified items, or read as root, sub key, next sub key or parent, carries all earlier versions recorded for it with the newest first, each of its values carries its earlier versions newest first, the deleted values follow the present ones by name, and its deleted sub keys carry theirs; the same key looked up by path shows the same.", "quantifier": "all hives, logs, filters, orders of iteration and histories of look-ups", "why_tests_cant": "all histories of log entries and all orders in which the versions were recorded", "anchors": ["src/cell_key_node.rs:update_modified_lists", "src/parser.rs:next_key_preorder", "src/parser.rs:get_key", "src/cell_key_node.rs:get_sub_key_internal"]}
{"id": "C56", "title": "Contents and flags in the tab-separated export say what is stored", "statement": "The type and the text in a row of the tab-separated export determine the content of the value (string, list of strings, number or bytes) that the stored bytes stand for, also for lists whose strings contain quotes, line breaks or unprintable characters; the flag columns determine every flag bit that has a name; no two different contents of the same type, and no two sets of named bits, look alike.", "quantifier": "all contents of all types, all flag words, all hives", "why_tests_cant": "all strings of all lengths and all lists of them; 2^16 and 2^32 flag words", "anchors": ["bin/reg_dump/tsv_writer.rs", "src/cell_value.rs:CellValue", "src/cell_key_node.rs:KeyNodeFlags", "src/cell_key_node.rs:AccessFlags"]}
{"id": "C57", "title": "The spreadsheet export holds every item and every message, long texts included", "statement": "A successful spreadsheet export has one row per exported key, value and version, with its path, name, content, type, date, state, sequence numbers, flags and messages, one row per parse message, and no other rows; a text too long for a cell is found whole behind its link; characters that XML forbids are replaced by U+FFFD and no other character changes; the export fails only when a limit of the file format is met.", "quantifier": "all lists of keys, values and versions, all texts, all messages, all hives", "why_tests_cant": "texts of every length and any mix of characters, any number of rows", "anchors": ["bin/reg_dump/xlsx_writer.rs"]}
{"id": "C58", "title": "A run over a folder gives each hive its own output, read with the logs beside it", "statement": "Of the files below a folder, exactly the non-empty ones named like a hive, in any case, give output; each under a name made from its path, no two under the same name, each from the file's bytes and the LOG1 and LOG2 beside it; a hive that cannot be read stops nothing. Comparing two folders compares the hives at the same place in both.", "quantifier": "all folders of files of any depth, all behaviours of the reading of one hive", "why_tests_cant": "all shapes and namings of folders", "anchors": ["src/cli_util.rs:get_log_files", "src/cli_util.rs:get_log_name", "src/cli_util.rs:file_has_size", "bin/reg_dump/main.rs:process_folder", "bin/reg_dump/main.rs:get_outpath", "bin/reg_compare.rs:process_folders"]}
{"id": "C59", "title": "A list of paths is taken apart into the hive and its logs", "statement": "A list with one path of a hive and any number of paths of logs, in any order and any case of their extensions, separated by commas and with blanks and quotes around them, is split into exactly that hive and those logs in their order.", "quantifier": "all lists of paths without commas", "why_tests_cant": "all texts", "anchors": ["src/cli_util.rs:parse_paths"]}
{"id": "C60", "title": "The JSON export is one readable document per key that determines the key and its values", "statement": "Every line of the JSON export is one document that any JSON reader reads, one for each iterated key, in order; it tells the key's name, path, place, state, sequence numbers, stored fields (with their places when asked for), dates, flags and messages, and for every value its name, type, content, messages and earlier versions; equal lines come from equal keys.", "quantifier": "all keys and values with all texts, bytes, messages and versions nested to any depth, all hives", "why_tests_cant": "all texts, including quotes, line breaks and control characters, all nestings of versions, all numbers of keys", "anchors": ["bin/reg_dump/json_writer.rs", "src/field_serializers.rs", "src/cell_key_node.rs:CellKeyNode", "src/cell_key_value.rs:CellKeyValue", "src/field_offset_len.rs"]}
{"id": "C61", "title": "A Python program sees each stored time as the nearest microsecond", "statement": "For every stored time the key's datetime exists and no call raises for it; if the time lies between 1677 and 2262, the datetime is the microsecond nearest to it (of two equally near ones the even); comparing datetimes never contradicts the order of the times.", "quantifier": "all 64-bit stored times", "why_tests_cant": "all times, including the last moments of days, months and years", "anchors": ["pynotatin/src/util.rs:date_to_pyobject", "pynotatin/src/util.rs:round_to_usec_half_even", "pynotatin/src/py_notatin_key.rs:from_cell_key_node"]}
{"id": "C62", "title": "A Python program sees the keys and values that the hive stores", "statement": "Whatever calls were made, every key object in hand shows the name, path, counts, date, values and contents of one stored key; iterating gives every key once in order; opening by path, the root, the sub keys, finding below a key and the parent give exactly the stored keys, or None when there is none.", "quantifier": "all hives, with any logs, all sequences of calls, all keys in hand", "why_tests_cant": "all sequences of calls with all keys in hand", "anchors": ["pynotatin/src/py_notatin_parser.rs", "pynotatin/src/py_notatin_key.rs", "pynotatin/src/py_notatin_value.rs"]}
{"id": "C63", "title": "What recovery finds in unused space stays visible when logs are applied", "statement": "A deleted key or value that recovery finds in a free cell of the hive is still shown, as found in the file, when the hive is opened with transaction logs that leave that cell alone.", "quantifier": "all hives, all lists of log files", "why_tests_cant": "all log files with all numbers of entries and all dirty pages", "anchors": ["src/parser_builder.rs", "src/transaction_log.rs:TransactionLog", "src/state.rs:ModifiedDeletedKeyMap", "src/cell_key_node.rs:update_modified_lists"]}
{"id": "C64", "title": "No file aborts the program that opens, iterates or looks up", "statement": "Opening any bytes as a hive with any files as logs, with any options, and then iterating with any filter in any order, or looking up the root, a path, a parent or sub keys, in any sequence of calls, gives a result or an error and never aborts the program.", "quantifier": "all byte strings as hive and logs, all options, filters, paths and sequences of calls", "why_tests_cant": "all byte strings: any wrong length, offset, count or name in a hive or log", "anchors": ["src/parser_builder.rs", "src/parser.rs", "src/parser_recover_deleted.rs", "src/transaction_log.rs", "src/cell_key_node.rs", "src/filter.rs"]}
{"id": "C65", "title": "Decoders applied one after another give back what was packed", "statement": "Bytes that hold a UTF-16 text, a list of UTF-16 texts ended by an empty one, or an LZNT1 stream at an offset decode, with that format and offset, to exactly that text, list or unpacked bytes, without warnings; texts and lists turned by 13 letters turn back; any such decoders chained give the innermost content, from the library and from Python, also on the values of a hive.", "quantifier": "all texts, lists, streams, offsets, surrounding bytes and chains of decoders of any length", "why_tests_cant": "all texts and streams at all offsets and all chains of decoders", "anchors": ["src/cell_value.rs:DecodeFormat", "src/util.rs:from_utf16_le_strings", "src/util.rs:decode_lznt1", "pynotatin/src/py_notatin_value.rs:decode", "pynotatin/src/py_notatin_content.rs"]}
{"id": "C66", "title": "Writing a hive out never aborts", "statement": "The path of every key an iteration returns, live, deleted, recovered or an earlier version, begins with a backslash and the root can be cut off it; so the common, TSV, JSON and XLSX exports of an opened file of a known type, with any filter, never abort: they return a text or an error, and whenever the iteration itself returns keys the first three return a text.", "quantifier": "all bytes as hive and logs whose header names a known file type, all options, filters, orders of the hash map, texts of messages, answers of the spreadsheet library", "why_tests_cant": "all files, damaged or hostile, with all recovery results", "anchors": ["bin/reg_dump/common_writer.rs:write_key", "bin/reg_dump/tsv_writer.rs", "bin/reg_dump/json_writer.rs", "bin/reg_dump/xlsx_writer.rs:write", "src/cell_key_node.rs:get_pretty_path", "src/parser.rs:get_root_path_offset"]}
{"id": "C67", "title": "A dump of a folder goes through, and holds every hive of it", "statement": "A run of the dump tool over a folder leaves, for every hive, the export of that hive under its own name, made from the file and the logs beside it as if it were the only one, and changes nothing else; a hive that cannot be opened gets no output and stops nothing; unless a file aborts or never ends the run goes through; a well-formed hive is read back from its output, in any of the formats, as the tree it holds, whatever other files are there, or as the part of the tree at and below the path given on the command line.", "quantifier": "all folders of files of any depth and any bytes, all choices of the command line, all orders of the hash map and texts of the renderers", "why_tests_cant": "all folders of damaged or hostile files around the hive one wants", "anchors": ["bin/reg_dump/main.rs:main", "bin/reg_dump/main.rs:process_file", "bin/reg_dump/main.rs:process_folder", "bin/reg_dump/main.rs:get_outpath", "bin/reg_dump/main.rs:reg_dump", "src/cli_util.rs:get_log_files"]}
{"id": "C68", "title": "Opening a file ends", "statement": "Opening any bytes as a hive, with any files as logs and without recovery, ends: with a parser or with an error; so does opening with recovery when there are no logs or the header says that the hive needs none.", "quantifier": "all byte strings as hive and logs", "why_tests_cant": "all byte strings: log entries, pages and index lists of any count and size", "anchors": ["src/parser_builder.rs:build", "src/parser.rs:init_root", "src/transaction_log.rs:TransactionLog"]}
{"id": "C69", "title": "A comparison of two folders goes through, and tells the changes of every hive", "statement": "A run of the compare tool over two folders leaves, for every hive that is at the same place in both, the report or diff of the two, made from the files and the logs beside them as if they were the only ones, under the name of that place, and changes nothing else; a file that cannot be opened leaves an empty output and stops nothing; the output of two well-formed hives reads back as exactly the changes between their trees under the filter.", "quantifier": "all pairs of folders of files of any depth and any bytes, all choices of the command line, all orders of the hash maps and texts of the renderers", "why_tests_cant": "all folders of other files around the hives one wants to compare, all pairs of trees", "anchors": ["bin/reg_compare.rs:main", "bin/reg_compare.rs:process_folders", "bin/reg_compare.rs:get_outpath", "bin/reg_compare.rs:reg_compare", "bin/reg_compare.rs:get_parser", "src/cli_util.rs:get_log_files"]}
{"id": "C70", "title": "A run leaves the evidence as it was", "statement": "A run of the dump or compare tool over folders, however it ends, changes no file but the outputs in its output folder: every hive and every log is byte for byte what it was, even when the outputs go into a folder that is walked and the run meets its own outputs; each output is made of what the hives and logs held before the run. A run over single files changes only the file named as output, which holds the export of the hive, or the report of the two hives unless it is one of their files.", "quantifier": "all disks, paths, choices of the command line, orders of the walk and ways a run can end", "why_tests_cant": "all layouts of folders and outputs, all orders of reading and writing, all points at which a run can abort", "anchors": ["bin/reg_dump/main.rs:process_file", "bin/reg_dump/main.rs:process_folder", "bin/reg_compare.rs:process_files", "bin/reg_compare.rs:process_folders", "bin/reg_compare.rs:reg_compare", "src/cli_util.rs:get_log_files"]}
{"id": "C71", "title": "An output on a failing disk is a beginning of the export, and success means all of it", "statement": "Whatever fails while an export or a report is written, and whenever the tool is killed, the file is a beginning of the text it would have held (of a JSON export the whole lines are the documents of the first keys); when nothing fails it is the whole text and the tool tells of success; when the tool tells of success the file is the whole text.", "quantifier": "all exports and reports, all ways they are cut into writes, all patterns of failing, short and full writes, all failures of the console, all moments", "why_tests_cant": "all combinations of sizes of writes, buffer and moments of failure", "anchors": ["bin/reg_dump/common_writer.rs:WriteCommon", "bin/reg_dump/tsv_writer.rs:WriteTsv", "bin/reg_dump/json_writer.rs:WriteJson", "bin/reg_dump/main.rs:reg_dump", "bin/reg_compare.rs:reg_compare", "src/progress.rs"]}
{"id": "C72", "title": "How a hive is handed over does not matter", "statement": "Opening a hive gives a parser of exactly the bytes of the hive and of the logs with the last settings made: the same for paths, for readers at their beginning, for paths and file-like objects from Python, however few bytes each read gives and however often it is interrupted, and in whatever order the settings are made; a file that is not there or a read that fails is an error and never a parser of a part of the bytes; and building again gives the same.", "quantifier": "all hives, logs, settings and orders of settings, all patterns of short, interrupted and failing reads, all mixtures of paths and objects", "why_tests_cant": "all schedules of reads, all orders of calls, all histories of a builder", "anchors": ["src/file_info.rs:FileInfo::from_read_seek", "src/parser_builder.rs:ParserBuilderFromPath", "src/parser_builder.rs:ParserBuilderFromFile", "src/transaction_log.rs:TransactionLog::parse", "pynotatin/src/util.rs:FileOrFileLike", "pynotatin/src/py_notatin_parser.rs:PyNotatinParserBuilder"]}
{"id": "C73", "title": "Opening with recovery and logs comes to an end", "statement": "Opening a hive with recovery of deleted items and transaction logs to be replayed comes to an end, in a parser or an error, if in every state of the file during the replay there is one cell with the flag of a root, its name is the same in all of them, and no list of lists contains itself. The parser can then be iterated to the end with any filter, its view without recovered items is that of opening without recovery, and a dump run over a folder of such hives ends.", "quantifier": "all hives of bytes, all logs, header checksums right or wrong, all orders of the tables of items, all filters", "why_tests_cant": "all histories of changes by log entries of any number, growing the file or not", "anchors": ["src/parser.rs:Parser::init", "src/parser.rs:apply_transaction_logs", "src/transaction_log.rs:update_parser_with_transaction_log", "src/reg_item_map.rs:get_latest_reg_items"]}
{"id": "C74", "title": "A filter is what was put together", "statement": "Whatever calls a program makes on the filter builder, in whatever order: if every regular expression is valid a filter is built, and a filtered pre-order iteration of a well-formed hive yields exactly the keys whose names, one by one, are those given (ignoring ASCII case) or match the expressions given; keys below them iff child keys were last asked for; the ancestors iff asked for, without their values. Otherwise the build fails with an error that tells every complaint. A regular expression selects the names it matches.", "quantifier": "all histories of builder calls, all regular expression libraries (what compiles and what matches), all well-formed hives", "why_tests_cant": "unbounded sequences of calls x trees x meanings of expressions", "anchors": ["src/filter.rs:FilterBuilder", "src/filter.rs:check_key_match", "src/parser.rs:next_key_preorder"]}
{"id": "C75", "title": "The end of a run tells whether the job was done", "statement": "A run of the dump or compare tool that ends with success has left, for every hive or pair of hives it was given, the output made of it by this run; one that could not make it ends with an error. This holds whatever fails around it: a missing or damaged hive, an output that cannot be made, a full disk, a closed console.", "quantifier": "all disks, hives, logs, choices of the command line, failures of disk and console", "why_tests_cant": "all combinations of damaged files and failures, in folders of any size", "anchors": ["bin/reg_dump/main.rs:main", "bin/reg_dump/main.rs:process_file", "bin/reg_dump/main.rs:process_folder", "bin/reg_dump/main.rs:reg_dump", "bin/reg_compare.rs:main", "bin/reg_compare.rs:process_files", "bin/reg_compare.rs:process_folders", "src/cli_util.rs:file_has_size"]}
{"id": "C76", "title": "The looks of the spreadsheet tell the state of each item", "statement": "In the spreadsheet the font of a row is dark red iff its item was deleted, dark grey iff it was replaced by a log, and otherwise plain; in particular nothing is coloured if recovery was not asked for. A row has a line above it and another background than the row before iff it begins something new: another key or value, or one found in unused space; the versions of an item are not set apart from it. Texts too long for a cell look like the rest of their row, underlined.", "quantifier": "all keys with all states, versions and values, in any order, with or without the choice to write recovered items only", "why_tests_cant": "unbounded sequences of items; the look of a row depends on all rows before it", "anchors": ["bin/reg_dump/xlsx_writer.rs:WorksheetState::set_shading", "bin/reg_dump/xlsx_writer.rs:WriteXlsx::get_formatters", "bin/reg_dump/xlsx_writer.rs:WriteXlsx::write_key", "bin/reg_dump/xlsx_writer.rs:WriteXlsx::write_value"]}
{"id": "C77", "title": "Two runs over the same evidence show the same", "statement": "Opening the same hive with the same logs and settings again gives the same: the same bytes, warnings and keys, the same earlier versions of keys and values, the same deleted keys and values, in the same order. (The tables in which the replay keeps the items of the hive are walked in another order in every run of the program.)", "quantifier": "all hives, logs, settings, and all orders in which the tables are walked in the two runs", "why_tests_cant": "all histories of log entries and all orders of tables of any size", "anchors": ["src/transaction_log.rs:get_latest_reg_items", "src/state.rs:ModifiedDeletedKeyMap", "src/state.rs:ModifiedDeletedValueMap", "src/cell_key_node.rs:update_modified_lists"]}
{"id": "C78", "title": "A file of an unknown type shows one blank key but answers look-ups", "statement": "A file whose header names no known file type opens without an error. It is left as it is: no log is applied and nothing is recovered, whatever was asked for. Iterating over it gives a single key without place, name, path, time, values or sub keys - none at all with a filter in pre-order without ancestors - and it counts one key and no values. Asking for keys by path finds every key stored in it, as in a hive of a known type.", "quantifier": "all bytes whose header names an unknown type, all logs, options, filters and modes of iteration, all trees stored in such a file and all paths", "why_tests_cant": "all contents of such files; a test has one file of one unknown type", "anchors": ["src/parser.rs:init", "src/parser.rs:check_base_block", "src/parser.rs:is_supported_file_type", "src/parser.rs:from_parser", "src/parser.rs:get_root_key", "src/parser.rs:get_key", "src/cell_key_node.rs:CellKeyNode"]}
{"id": "C79", "title": "No reported change means nothing has changed", "statement": "A comparison of two hives reports nothing if and only if they have the same keys and the same values, with all that the library shows of each: times, flags, access bits and security descriptors of keys, types, flags and data of values. Likewise a log entry that changes any of these leaves the earlier version of the key.", "quantifier": "all pairs of hives, filters, orders of hash maps; all log entries", "why_tests_cant": "all pairs of trees and all fields in which two keys can differ", "anchors": ["bin/reg_compare.rs:reg_compare", "src/cell_key_node.rs:hash", "src/cell_key_value.rs:hash", "src/transaction_log.rs:get_latest_reg_items", "src/cell_key_node.rs:get_security_descriptors"]}
{"id": "C80", "title": "Look-ups come to an end", "statement": "Looking up any path, from the root or from any key in hand, comes to an end in every file that could be opened, after any calls made before, and nests no more calls than the path has parts. So do the calls that go one step: the root, the parent, the sub keys one by one, all of them, or by name.", "quantifier": "all files, logs, paths, keys and histories of calls", "why_tests_cant": "all files, including those whose keys are their own descendants, and all paths", "anchors": ["src/parser.rs:get_key", "src/parser.rs:get_sub_key", "src/parser.rs:get_parent_key", "src/cell_key_node.rs:get_sub_key_by_path", "src/cell_key_node.rs:get_sub_key_internal", "src/cell_key_node.rs:read_sub_keys_internal"]}
{"id": "C81", "title": "A value tells where its bytes lie", "statement": "The positions that a value gives for its data are those of the file where the bytes of the value are: one position, at which the bytes follow one another, or one for each piece of a value of more than 16344 bytes.", "quantifier": "all files and logs, all filters and orders of iteration, all values in use and all recovered from free space", "why_tests_cant": "all layouts of values and all offsets", "anchors": ["src/cell_key_value.rs:read_value_bytes_direct", "src/cell_big_data.rs:get_big_data_bytes"]}
{"id": "C82", "title": "What the console says is what happens", "statement": "With console output asked for, opening a hive gives the same as without. It says nothing for a clean hive; for a dirty one it names each log that is applied by its place among all logs, and counts the entries looked at, and nothing else. An export in a text format shows a dot for every thousand keys begun, and then the path of the output.", "quantifier": "all files, logs, choices and orders of iteration; all exports that go through", "why_tests_cant": "all histories of logs and all sizes of hives", "anchors": ["src/progress.rs:update_progress", "src/progress.rs:update", "src/parser.rs:apply_transaction_logs", "src/transaction_log.rs:update_parser", "bin/reg_dump/main.rs:reg_dump"]}
{"id": "C83", "title": "A hive that was cut off shows nothing that the whole hive does not", "statement": "When the end of a hive file is missing, every key shown or looked up is a key of the whole hive, at its position, under its name and path, with the first ones of its own values in their order; each value has the data of the whole hive, or no data and a warning. What a look-up finds has the path that was asked for. A key that lost values, or whose sub keys are not shown, carries a warning.", "quantifier": "all well-formed hives, all places where the file may end, all filters and both orders", "why_tests_cant": "every crash point or interrupted copy is another place", "anchors": ["src/parser.rs:next_key_preorder", "src/parser.rs:next_key_postorder", "src/cell_key_node.rs:read_values", "src/cell_key_node.rs:read_sub_keys_internal", "src/cell_key_value.rs:read_value_bytes_direct"]}
{"id": "C84", "title": "Bytes that belong to nothing do not change what is shown", "statement": "Free space, the slack behind the names in key and value cells, the sizes of data cells and lists, the name hints and hashes in sub-key lists, the header but for the file type and the root, and whatever follows the end of the file may hold any bytes: two files that differ only there list the same keys with the same values, in the same order, and look-ups give the same in both. With recovery of deleted items this holds of the keys in use.", "quantifier": "all layouts of all trees of keys, all ways to fill the bytes they leave open, all paths", "why_tests_cant": "there are endlessly many ways to fill the unused bytes of a hive, and one that happens to look like a cell is the one that matters", "anchors": ["src/parser.rs:next_key_preorder", "src/parser.rs:next_key_postorder", "src/parser.rs:get_key", "src/cell_key_node.rs:from_bytes", "src/cell_key_value.rs:from_bytes", "src/sub_key_list_lf.rs:from_bytes", "src/sub_key_list_lh.rs:from_bytes", "src/cell_big_data.rs:get_big_data_bytes"]}
{"id": "C85", "title": "A look-up by path finds a key with the path asked for", "statement": "In every file, with any logs, with or without recovery: if a look-up by path, from the root or from a key, finds a key, the path of this key is the one that was asked for (in any case of its ASCII letters, without backslashes at the ends). It never finds a key somewhere else: there is a way to what is found through the lists of sub keys, and the names on this way make up its path. If readable keys lead down to a key, a look-up of its path that comes to an end does not come back empty. A look-up of a sub key by name finds a sub key of that name.", "quantifier": "all file contents, all log contents, all parser states, all keys to start from, all paths", "why_tests_cant": "a wrong key is found only in files with particular names or damage, and there are endlessly many of both", "anchors": ["src/parser.rs:get_key", "src/parser.rs:get_sub_key", "src/cell_key_node.rs:get_sub_key_by_path", "src/cell_key_node.rs:get_sub_key_internal", "src/filter.rs:check_cell"]}
