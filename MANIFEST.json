{
 "claims": [
  {
   "property": "C01",
   "status": "proved",
   "theorems": [
    "C01_reachable",
    "C01_read_object",
    "C01_read_array",
    "C01_read_dictionary",
    "C01_read_command"
   ],
   "note": "All four readers return on every well-formed reader state for every total decryptor; progress and the exact meaning of ReadError are proved for ReadObject."
  },
  {
   "property": "C02",
   "status": "proved",
   "theorems": [
    "C02_gap_insignificant"
   ],
   "note": "Same object, error and messages for any gap inserted before the object, for every file and position."
  },
  {
   "property": "C03",
   "status": "proved",
   "theorems": [
    "C03_string",
    "C03_string_object",
    "C03_every_string_writable"
   ],
   "note": "Stated over an inductive relation between string bodies and values; every byte string is shown to have a body."
  },
  {
   "property": "C04",
   "status": "proved",
   "theorems": [
    "C04_hex_string",
    "C04_hex_string_object",
    "C04_every_string_writable"
   ],
   "note": "Stated over an inductive relation for digits, skipped characters and the odd final digit."
  },
  {
   "property": "C05",
   "status": "proved",
   "theorems": [
    "C05_name",
    "C05_name_object",
    "C05_every_name_writable"
   ],
   "note": "Stated over an inductive relation for names with #xx codes."
  },
  {
   "property": "C06",
   "status": "proved",
   "theorems": [
    "C06_read_number",
    "C06_read_object"
   ],
   "note": "Integers of magnitude up to 2^53, through read_number and through ReadObject."
  },
  {
   "property": "C07",
   "status": "partial",
   "theorems": [
    "C07_real_value_refuted",
    "C07_zero_fraction_partial",
    "C07_sum_partial",
    "C07_one_decimal_partial",
    "C07_classified_partial"
   ],
   "note": "The code is wrong: the i-th decimal digit is divided by 10*i, so 1.25 is read as 1.45 (refuted). Proved instead: what every literal is read as (integer part + d1/10 + d2/20 + d3/30 + ..., with a bound on the rounding error), that literals with one decimal are read right up to rounding, that for numbers up to 2^20 with up to 1000 decimals exactly those are read right, and that fractions of zeros are exact."
  },
  {
   "property": "C08",
   "status": "proved",
   "theorems": [
    "C08_read_text",
    "C08_read_text_plain",
    "C08_every_tree_writable"
   ],
   "note": "Every text denoting an object tree is read back as that tree; every writable tree has a text."
  },
  {
   "property": "C09",
   "status": "proved",
   "theorems": [
    "C09_last_value_wins"
   ],
   "note": "Last value wins, keys are exactly the keys given."
  },
  {
   "property": "C10",
   "status": "proved",
   "theorems": [
    "C10_truncated_containers"
   ],
   "note": "Truncation at any nesting depth returns what was read, with one message per unclosed container."
  },
  {
   "property": "C11",
   "status": "proved",
   "theorems": [
    "C11_unclosed_string",
    "C11_invalid_octal",
    "C11_unclosed_hex_string",
    "C11_invalid_name_escape",
    "C11_invalid_key"
   ],
   "note": "Positive direction for every kind of anomaly; silence on canonical text is C08; the exact messages for every text are C86."
  },
  {
   "property": "C12",
   "status": "proved",
   "theorems": [
    "C12_reference_lookahead"
   ],
   "note": "Both directions: a reference exactly when the look-ahead is a reference tail, otherwise nothing beyond the number is consumed."
  },
  {
   "property": "C13",
   "status": "proved",
   "theorems": [
    "C13_resolve_stays",
    "C13_getters_stay"
   ],
   "note": "Resolve (value and stream) and all 18 getters leave position, unread bytes, cross-reference table, trailer and security handler unchanged; only messages may be added."
  },
  {
   "property": "C14",
   "status": "proved",
   "theorems": [
    "C14_circle_is_null",
    "C14_first_value"
   ],
   "note": "Chains and cycles of any length; the objects on the way must be fetchable and the offsets in the table non-negative (see C58)."
  },
  {
   "property": "C15",
   "status": "partial",
   "theorems": [
    "C15_get_object_refuted",
    "C15_get_object_partial",
    "C15_resolve_partial"
   ],
   "note": "The code is wrong: a stream whose Filter entry is a reference to itself makes GetObject recurse for ever (refuted for every fuel and environment, on a file that loads). Proved part: GetObject and Resolve terminate when no stream object is reachable from itself through references."
  },
  {
   "property": "C16",
   "status": "proved",
   "theorems": [
    "C16_absent_is_null"
   ],
   "note": "Also shows the parser state is unchanged."
  },
  {
   "property": "C17",
   "status": "proved",
   "theorems": [
    "C17_dictionary_getters",
    "C17_array_getters"
   ],
   "note": "All dictionary and array getters, including indices out of range; relative to an arbitrary implementation of Resolve."
  },
  {
   "property": "C18",
   "status": "proved",
   "theorems": [
    "C18_loading_ends",
    "C18_load_ends",
    "C18_load_ends_no_streams"
   ],
   "note": "load_xref and load do not run out of fuel for any Prev graph, given that every object can be fetched (GetObject terminates); that hypothesis is discharged for files without the word 'stream'. Other hangs of GetObject (Filter arrays with self references etc.) are outside C18 and described in DESIGN.md."
  },
  {
   "property": "C19",
   "status": "proved",
   "theorems": [
    "C19_newer_sections_win"
   ],
   "note": "For a chain of well-formed sections (tables and cross-reference streams), ending at a section without Prev, at an offset already visited or where neither a table nor an object is."
  },
  {
   "property": "C20",
   "status": "proved",
   "theorems": [
    "C20_table"
   ],
   "note": "Any number of subsections of any length; white space and comments between the numbers."
  },
  {
   "property": "C21",
   "status": "proved",
   "theorems": [
    "C21_stream"
   ],
   "note": "All widths up to 2^48, any Index array of numbers, direct entries W/Index/Size/Prev; incomplete data ends the decoding. The stream's own entry is inserted first (and again at the end if complete), which is part of the statement. Index pairs that are not numbers and missing widths end the reading."
  },
  {
   "property": "C22",
   "status": "proved",
   "theorems": [
    "C22_scan",
    "C22_all_found"
   ],
   "note": "Markers are found left to right without overlap; C22_all_found says that any other marker begins inside a found one (a later digit of its number, or behind a comment within it)."
  },
  {
   "property": "C23",
   "status": "proved",
   "theorems": [
    "C23_repair_completes",
    "C23_load_completes",
    "C23_every_marker_has_an_entry"
   ],
   "note": "For every iteration order of the Go map (ord any permutation)."
  },
  {
   "property": "C24",
   "status": "partial",
   "theorems": [
    "C24_right_entry_refuted",
    "C24_wrong_entry_refuted",
    "C24_repair_partial"
   ],
   "note": "Refuted in both directions by the code's condition ok || n != object_number; C24_repair_partial says exactly which entries are redirected."
  },
  {
   "property": "C25",
   "status": "proved",
   "theorems": [
    "C25_last_startxref",
    "C25_xref_keywords"
   ],
   "note": "Also proved: where the xref keywords are found."
  },
  {
   "property": "C26",
   "status": "proved",
   "theorems": [
    "C26_ascii_hex",
    "C26_every_data_encodable"
   ],
   "note": "Decoding of every spaced hex text, terminated or not, with arbitrary bytes after the terminator; every data has such a text."
  },
  {
   "property": "C27",
   "status": "proved",
   "theorems": [
    "C27_ascii85",
    "C27_every_data_encodable"
   ],
   "note": "Whole groups and z, whitespace anywhere, '~' or end of data; every data of length 4k has an encoding."
  },
  {
   "property": "C28",
   "status": "partial",
   "theorems": [
    "C28_partial_group_refuted",
    "C28_partial_group_partial",
    "C28_off_by_one_partial"
   ],
   "note": "The code is wrong: it completes a partial final group with zero digits rather than the largest digit (refuted: E+K). Proved part: exact iff the dropped digits are all zero, otherwise the final bytes are one too small."
  },
  {
   "property": "C29",
   "status": "proved",
   "theorems": [
    "C29_run_length",
    "C29_truncated",
    "C29_every_data_encodable"
   ],
   "note": "Literal and repeat runs, EOD and garbage after it; truncated final runs keep what is present; every data has an encoding."
  },
  {
   "property": "C30",
   "status": "partial",
   "theorems": [
    "C30_pixel_size_refuted",
    "C30_row_types_refuted",
    "C30_png_partial"
   ],
   "note": "The code is wrong for pixels of more than one byte and for row tags that differ from the Predictor value 10-14 (both refuted). Proved part: all filter types with one-byte pixels and types None and Up with any pixel size, with tags admitted by the Predictor value."
  },
  {
   "property": "C31",
   "status": "proved",
   "theorems": [
    "C31_tiff",
    "C31_rows_determine_data"
   ],
   "note": "Stated over bit lists of the samples; holds for 1..16 bits per component, any Colors and Columns, including row padding bits."
  },
  {
   "property": "C32",
   "status": "partial",
   "theorems": [
    "C32_predictor_refuted",
    "C32_no_overflow_partial",
    "C32_other_predictors_partial"
   ],
   "note": "The code is wrong: Colors = 2^60+256 overflows and the loop indexes a negative position (refuted at the level of the decode parameter dictionary). Proved part: no crash whenever the products do not overflow int64 (Predictor 2), and always for every other predictor."
  },
  {
   "property": "C33",
   "status": "proved",
   "theorems": [
    "C33_stream_pipeline"
   ],
   "note": "For a stream object as it stands in the file, with direct Filter and DecodeParms entries: decryption, then every filter with the parameters of its index; unknown filters and empty data unchanged. zlib and lzw are parameters of the model; the object must satisfy C34's window condition."
  },
  {
   "property": "C34",
   "status": "partial",
   "theorems": [
    "C34_stream_data_refuted",
    "C34_stream_data_partial",
    "C34_unclosed_partial"
   ],
   "note": "The code is wrong: if the data starts less than nine bytes before the end of the 4096 byte read buffer the marker is never found (refuted). Proved part: every data without the marker, every EOL style, when the first nine bytes are buffered; also the unclosed case with its message."
  },
  {
   "property": "C35",
   "status": "partial",
   "theorems": [
    "C35_buffering_refuted",
    "C35_buffering_partial"
   ],
   "note": "Refuted by two reader states at the same place of one file. Proved part: independence when neither buffer ends within the first nine data bytes."
  },
  {
   "property": "C36",
   "status": "partial",
   "theorems": [
    "C36_read_object_unbuffered",
    "C36_read_dictionary_refuted",
    "C36_read_dictionary_partial"
   ],
   "note": "Holds for ReadObject. Refuted for ReadDictionary called directly when the buffer ends between the two '<' bytes; proved when the marker is not split."
  },
  {
   "property": "C37",
   "status": "proved",
   "theorems": [
    "C37_rc4_inverts",
    "C37_rc4_length",
    "C37_rc4_cipher_exists"
   ],
   "note": "Through NewDecryptor for any object, for every hash function with 16 byte results; RC4 is specified on its own (SpecCrypt.v) and agrees with a published test vector."
  },
  {
   "property": "C38",
   "status": "partial",
   "theorems": [
    "C38_aes_refuted",
    "C38_aes_always_refuted",
    "C38_aes_partial"
   ],
   "note": "False: DecryptorAES.Decrypt leaves the initialisation vector and the padding in the data (pdf/encryption.go:76-97). Proved instead: the blocks are decrypted correctly, so the result is the vector followed by the padded plaintext; and it never is the plaintext."
  },
  {
   "property": "C39",
   "status": "partial",
   "theorems": [
    "C39_object_key_partial",
    "C39_file_key_partial",
    "C39_key_length_refuted"
   ],
   "note": "Object keys and file keys follow Algorithms 1 and 2. False: for revision 2 with V=2 the code takes the key length from Length instead of 5 bytes, so a correct document is rejected."
  },
  {
   "property": "C40",
   "status": "partial",
   "theorems": [
    "C40_accepts_partial",
    "C40_rejects_partial",
    "C40_only_partial",
    "C40_error_installs_nothing",
    "C40_unsupported",
    "C40_short_u_refuted"
   ],
   "note": "Accepts and rejects by Algorithm 6 when U has its 16 significant bytes; errors install nothing; unsupported handlers are reported. False: a U entry of 9 to 15 bytes is compared as if zeros followed."
  },
  {
   "property": "C41",
   "status": "partial",
   "theorems": [
    "C41_no_crash_refuted",
    "C41_returns_partial"
   ],
   "note": "False: revision 3 or 4 with a U entry of at most 8 bytes panics. Proved instead: SetPassword returns when the objects it looks up can be fetched, U has at least 9 bytes (R3, R4) and the Length entries of crypt filters are in 0..16."
  },
  {
   "property": "C42",
   "status": "partial",
   "theorems": [
    "C42_strings",
    "C42_streams",
    "C42_encryption_dictionary",
    "C42_xref_stream_refuted"
   ],
   "note": "Strings, streams (by the dictionary's Type and Crypt filter) and the encryption dictionary are as claimed. False: a cross-reference stream that lists itself and has incomplete data stays marked as encrypted and is decrypted when fetched after Load."
  },
  {
   "property": "C43",
   "status": "proved",
   "theorems": [
    "C43_decoded",
    "C43_default_is_identity",
    "C43_built_fonts_decode"
   ],
   "note": "For every font of positive width, in particular every font NewFont returns; the decoding is unique."
  },
  {
   "property": "C44",
   "status": "partial",
   "theorems": [
    "C44_character_map_partial",
    "C44_ranges_refuted"
   ],
   "note": "Refuted: all codes of a bfrange are mapped to the first value. C44_character_map_partial: exactly what is stored for any number of bfchar/bfrange sections (the last line about a code counts), for ranges not ending at 2^63-1."
  },
  {
   "property": "C45",
   "status": "partial",
   "theorems": [
    "C45_load_returns_partial",
    "C45_load_returns_refuted"
   ],
   "note": "Refuted by a range up to 7FFFFFFFFFFFFFFF (int overflow, endless loop). C45_load_returns_partial: returns for every stream no hex string of which has that value."
  },
  {
   "property": "C46",
   "status": "proved",
   "theorems": [
    "C46_page_tree",
    "C46_no_page_tree"
   ],
   "note": "For every page tree, cyclic or not: the pages are the first visits of the preorder walk. That every reference met can be followed is a hypothesis; whether it holds is C15's subject."
  },
  {
   "property": "C47",
   "status": "partial",
   "theorems": [
    "C47_name_tree_ends_partial",
    "C47_name_tree_ends_refuted"
   ],
   "note": "Refuted: a Kids array reached through a reference that directly holds a dictionary pointing back to that array never ends. C47_name_tree_ends_partial: the walk ends on every document, cyclic or not, in which no such array occurs."
  },
  {
   "property": "C48",
   "status": "proved",
   "theorems": [
    "C48_text_lines",
    "C48_every_stream",
    "C48_wellformed_stream",
    "C48_loaded_fonts"
   ],
   "note": "Every content stream, also malformed ones: C48_every_stream reads it as objects in order (a stray closing delimiter as null); for well-formed ones these are the objects of the grammar. References among operands lead nowhere (the page parser has no cross-reference table)."
  },
  {
   "property": "C49",
   "status": "partial",
   "theorems": [
    "C49_all_strings_partial",
    "C49_all_strings_refuted"
   ],
   "note": "Refuted: strings at odd positions of the array are dropped. C49_all_strings_partial: complete when strings and other operands alternate."
  },
  {
   "property": "C50",
   "status": "proved",
   "theorems": [
    "C50_inside",
    "C50_inside_library"
   ],
   "note": "File operations of Parse and main, for every document, password, environment and outcome (error, panic or fuel exhausted alike). Names are relative to the output directory; that path.Join of the directory and such a name stays inside is trusted. Needs that md5 sums have 16 bytes and that map iteration visits each key once."
  },
  {
   "property": "C51",
   "status": "proved",
   "theorems": [
    "C51_spares",
    "C51_runs"
   ],
   "note": "Both directions: nothing is touched without -f when the directory exists; with -f or a fresh directory it is recreated."
  },
  {
   "property": "C52",
   "status": "partial",
   "theorems": [
    "C52_closed_refuted",
    "C52_closed_partial"
   ],
   "note": "Refuted: errors.txt is created but never closed. C52_closed_partial: every other created file is closed, after the last write, on every outcome including panics."
  },
  {
   "property": "C53",
   "status": "partial",
   "theorems": [
    "C53_extracted_refuted",
    "C53_extracted_partial"
   ],
   "note": "Refuted: an indirect object that is an array is not walked. C53_extracted_partial: complete for every dictionary reachable by direct containment in a top-level dictionary object."
  },
  {
   "property": "C54",
   "status": "partial",
   "theorems": [
    "C54_commands_refuted",
    "C54_commands_partial"
   ],
   "note": "Refuted: a launch action whose F is a plain string is not reported in commands.txt. C54_commands_partial: complete for Win dictionaries and F given as a file specification dictionary."
  },
  {
   "property": "C55",
   "status": "proved",
   "theorems": [
    "C55_raw",
    "C55_nothing_on_error"
   ],
   "note": "For every document that parses without error, each object in use is printed exactly once; on errors nothing is written."
  },
  {
   "property": "C56",
   "status": "partial",
   "theorems": [
    "C56_library_refuted",
    "C56_always_refuted",
    "C56_verbose_partial"
   ],
   "note": "Refuted for the library entry point: Debug dereferences the nil Verbose flag, on every document (C56_always_refuted). C56_verbose_partial locates every remaining panic."
  },
  {
   "property": "C57",
   "status": "proved",
   "theorems": [
    "C57_manifest"
   ],
   "note": "Every dumped file is named by the md5 sum of its contents, and its manifest line is written. Names with newlines are outside this statement."
  },
  {
   "property": "C58",
   "status": "partial",
   "theorems": [
    "C58_history_refuted",
    "C58_history_partial"
   ],
   "note": "The code is wrong for entries with a negative offset, which a 20-digit offset in a cross-reference table produces (refuted on a file that loads). Proved part: same object and same messages for every other entry, whatever was read before."
  },
  {
   "property": "C59",
   "status": "proved",
   "theorems": [
    "C59_bytes_to_int",
    "C59_read_int64",
    "C59_read_int64_short"
   ],
   "note": "BytesToInt for any length; ReadInt64 for full and short reads."
  },
  {
   "property": "C60",
   "status": "partial",
   "theorems": [
    "C60_type_refuted",
    "C60_generation_partial"
   ],
   "note": "Refuted: type 0 is recorded. C60_generation_partial: the third field's default is right."
  },
  {
   "property": "C61",
   "status": "proved",
   "theorems": [
    "C61_names_in_order",
    "C61_no_name_tree"
   ],
   "note": "Proved for trees whose unfolding is finite with each reference met once."
  },
  {
   "property": "C62",
   "status": "proved",
   "theorems": [
    "C62_urls_sound"
   ],
   "note": "For every file whose cross-reference data loads with non-negative offsets; covers runs that end in a crash."
  },
  {
   "property": "C63",
   "status": "partial",
   "theorems": [
    "C63_commands_sound_refuted",
    "C63_commands_sound_partial"
   ],
   "note": "Refuted: a file specification with a P entry is reported whatever it is used for (witness: a GoToR action, no launch action in the file). C63_commands_sound_partial: every line is the command of a launch action or a file specification with parameters."
  },
  {
   "property": "C64",
   "status": "proved",
   "theorems": [
    "C64_scripts_sound"
   ],
   "note": "Same hypotheses as C62."
  },
  {
   "property": "C65",
   "status": "proved",
   "theorems": [
    "C65_dumps_sound",
    "C65_manifest_sound"
   ],
   "note": "Same hypotheses as C62."
  },
  {
   "property": "C66",
   "status": "partial",
   "theorems": [
    "C66_embedded_refuted",
    "C66_embedded_partial"
   ],
   "note": "Refuted: the file of a file attachment annotation is not dumped. C66_embedded_partial: those of actions and of the EmbeddedFiles name tree, for finite trees in which no node is referred to twice."
  },
  {
   "property": "C67",
   "status": "proved",
   "theorems": [
    "C67_forms"
   ],
   "note": "XFA entries that are references to a stream, or direct arrays."
  },
  {
   "property": "C68",
   "status": "partial",
   "theorems": [
    "C68_urls_refuted",
    "C68_urls_partial"
   ],
   "note": "Refuted: FS is read as a string although the format makes it a name. C68_urls_partial: with FS a string; keys of finite URLS trees."
  },
  {
   "property": "C69",
   "status": "proved",
   "theorems": [
    "C69_outside"
   ],
   "note": "For finite trees of embedded files."
  },
  {
   "property": "C70",
   "status": "partial",
   "theorems": [
    "C70_scripts_partial",
    "C70_chained_refuted"
   ],
   "note": "Refuted: the command of the second of two chained launch actions is not written. Proved for the scripts and addresses of chained actions (C70_scripts_partial). Missing: their commands."
  },
  {
   "property": "C71",
   "status": "partial",
   "theorems": [
    "C71_exit_refuted",
    "C71_exit_partial",
    "C71_crash_partial"
   ],
   "note": "Refuted: errors of Parse leave the exit code 0. C71_exit_partial: the code is 1 for a wrong number of arguments and 0 otherwise. C71_crash_partial: the program crashes exactly if Parse is run and crashes."
  },
  {
   "property": "C72",
   "status": "partial",
   "theorems": [
    "C72_lines_refuted",
    "C72_lines_partial",
    "C72_unique_partial"
   ],
   "note": "Refuted: a name with a line break makes a line about a file that does not exist. C72_lines_partial and C72_unique_partial: the content is a sequence of lines about files of the document, and determines it if no name has a line break."
  },
  {
   "property": "C73",
   "status": "proved",
   "theorems": [
    "C73_pages",
    "C73_page"
   ],
   "note": "Fonts are those whose ToUnicode map is well-formed and lists single codes (see C44 for ranges); strings and numbers alternate in TJ arrays (C49). The root of the page tree and inner nodes count as pages, as they do in the code."
  },
  {
   "property": "C74",
   "status": "partial",
   "theorems": [
    "C74_font_refuted",
    "C74_font_partial"
   ],
   "note": "Refuted: every text object starts with the default font, Tf outside of text objects is ignored. C74_font_partial: pages on which every text object selects a font before it shows text."
  },
  {
   "property": "C75",
   "status": "partial",
   "theorems": [
    "C75_joint_refuted",
    "C75_joint_partial"
   ],
   "note": "Refuted: a text object in two streams is cut off at the end of the first. C75_joint_partial: well-formed streams of complete text objects."
  },
  {
   "property": "C76",
   "status": "partial",
   "theorems": [
    "C76_inherited_refuted",
    "C76_own_partial"
   ],
   "note": "Refuted: only the page's own resources are used. Proved for pages with resources of their own, and for pages that inherit fonts without character maps (C76_own_partial)."
  },
  {
   "property": "C77",
   "status": "partial",
   "theorems": [
    "C77_contents_refuted",
    "C77_direct_partial"
   ],
   "note": "Refuted: a reference under Contents is taken for a stream, an array it leads to is ignored. Proved for arrays in the page itself (C77_direct_partial)."
  },
  {
   "property": "C78",
   "status": "partial",
   "theorems": [
    "C78_unicode_refuted",
    "C78_same_partial"
   ],
   "note": "Refuted: only F is looked at, and an empty file is dumped. Proved where F leads to the same data (C78_same_partial)."
  },
  {
   "property": "C79",
   "status": "partial",
   "theorems": [
    "C79_form_refuted",
    "C79_direct_partial"
   ],
   "note": "Refuted: a reference under XFA is taken for a stream, and an empty form is dumped. Proved for arrays in the dictionary itself (C79_direct_partial)."
  },
  {
   "property": "C80",
   "status": "partial",
   "theorems": [
    "C80_string_refuted",
    "C80_stream_refuted",
    "C80_raw_partial"
   ],
   "note": "Refuted: strings and names are printed without escapes, and streams are printed decoded while the dictionary keeps its Filter entry. Proved for objects that need no escapes and streams without filters."
  },
  {
   "property": "C81",
   "status": "partial",
   "theorems": [
    "C81_recovery_refuted",
    "C81_recovery_partial"
   ],
   "note": "Refuted: text in strings or streams that looks like the start of an object hides the object of that number. Proved if nothing else looks like the start of an object and the heads of the objects fit the read buffer."
  },
  {
   "property": "C82",
   "status": "partial",
   "theorems": [
    "C82_sections_refuted",
    "C82_sections_partial"
   ],
   "note": "Refuted: correct offsets in the table are replaced by those of the search for object markers, which also finds text in strings, so the object is not found. Proved if all texts that look like the start of an object are known and none of the same number follows the object."
  },
  {
   "property": "C83",
   "status": "partial",
   "theorems": [
    "C83_aes_refuted",
    "C83_default_refuted",
    "C83_rc4_partial"
   ],
   "note": "C83_aes_refuted: with AES the initialisation vector and padding are left in the data; C83_default_refuted: without StmF, StrF or EEF the data is taken to be encrypted with RC4. Proved (C83_rc4_partial) for all documents whose data is encrypted with RC4 or not at all, with V 1, 2 and 4 and any crypt filters, under the conditions of C82. Missing: revision 2 with key lengths other than 5 bytes (C39_key_length_refuted), indirect entries of the encryption dictionary."
  },
  {
   "property": "C84",
   "status": "proved",
   "theorems": [
    "C84_text_sound",
    "C84_lines_sound"
   ],
   "note": "For runs that return without error. Streams that are not well formed (unbalanced brackets, two strings in a row inside TJ, fonts with ranges) may write any text; that it is from a content stream of a page holds for them too."
  },
  {
   "property": "C85",
   "status": "partial",
   "theorems": [
    "C85_order_refuted",
    "C85_order_partial",
    "C85_files_partial",
    "C85_messages_partial"
   ],
   "note": "Refuted: for an object whose cross-reference entry has an offset of 2^63 or more, what is read depends on the object read before, so on the order of iteration. Proved if the cross-reference sections give no negative offset."
  },
  {
   "property": "C86",
   "status": "proved",
   "theorems": [
    "C86_every_text"
   ],
   "note": "The grammar also records what is not reported: a stray closing delimiter inside an array or dictionary counts as null, an escape cut off at the end of the file in a name and a number token without digits give no message."
  },
  {
   "property": "C87",
   "status": "proved",
   "theorems": [
    "C87_accounted",
    "C87_reported",
    "C87_clean"
   ],
   "note": "For runs that return without error; messages logged while loading (repair reads dictionaries) come before and are not broken down. A fault is listed once for each time its object is read."
  },
  {
   "property": "C88",
   "status": "partial",
   "theorems": [
    "C88_unclosed_refuted",
    "C88_unclosed_partial"
   ],
   "note": "Refuted when no data follows the keyword's line, or the line does not end. Proved when there is a byte of data."
  },
  {
   "property": "C89",
   "status": "partial",
   "theorems": [
    "C89_parse_returns_refuted",
    "C89_parse_returns_partial",
    "C89_ranked_partial",
    "C89_streamless_partial"
   ],
   "note": "Refuted for a stream that is its own filter. Proved for loaded documents whose references can be followed (or whose streams are not reached from themselves), whose name trees satisfy C47's condition and whose character maps satisfy C45's; and for files without streams. Missing: documents that fail to load or panic."
  },
  {
   "property": "C90",
   "status": "proved",
   "theorems": [
    "C90_round_trip"
   ],
   "note": "For the writer of SpecWrite.v. The stream dictionary read back has the entry Filter that the writer adds (as_written)."
  },
  {
   "property": "C91",
   "status": "proved",
   "theorems": [
    "C91_raw",
    "C91_no_errors",
    "C91_silent"
   ],
   "note": "For runs that return without error; C92 says when they do."
  },
  {
   "property": "C92",
   "status": "proved",
   "theorems": [
    "C92_returns"
   ],
   "note": "The two conditions are those of C47 and C45, where the unconditional claims are refuted. The output files must be creatable."
  },
  {
   "property": "C93",
   "status": "partial",
   "theorems": [
    "C93_trailer_refuted",
    "C93_trailer_partial",
    "C93_updates_partial"
   ],
   "note": "Refuted: the dictionary of the object behind an old startxref is merged into the trailer; with an entry Encrypt there an unencrypted document is refused. Proved if xref occurs only at sections and in the last startxref and the objects found are well formed. For documents with updates C93_updates_partial shows that the only other source is the object behind an older startxref."
  },
  {
   "property": "C94",
   "status": "proved",
   "theorems": [
    "C94_password",
    "C94_unknown"
   ],
   "note": "Messages in errors.txt from loading the cross-reference data are not counted as output. Documents with a U entry that is too short are C40_short_u_refuted."
  },
  {
   "property": "C95",
   "status": "proved",
   "theorems": [
    "C95_updates",
    "C95_single"
   ],
   "note": "For the writer of SpecUpdate.v. The entry Prev of the trailer is not described. The first object of an update must not have Prev or Encrypt in its dictionary, because Load takes it for a trailer (C93)."
  },
  {
   "property": "C96",
   "status": "proved",
   "theorems": [
    "C96_raw",
    "C96_no_errors",
    "C96_returns"
   ],
   "note": "C96_raw and C96_no_errors are for runs that return without error; C96_returns says when they do."
  },
  {
   "property": "C97",
   "status": "proved",
   "theorems": [
    "C97_sealed",
    "C97_locked"
   ],
   "note": "AES and the default crypt filters are left out, as C83 shows that the code gets them wrong."
  },
  {
   "property": "C98",
   "status": "proved",
   "theorems": [
    "C98_raw",
    "C98_no_errors",
    "C98_returns"
   ],
   "note": "C98_raw and C98_no_errors are for runs that return without error; C98_returns says when they do."
  },
  {
   "property": "C99",
   "status": "proved",
   "theorems": [
    "C99_scripts",
    "C99_urls",
    "C99_files",
    "C99_text",
    "C99_one_text"
   ],
   "note": "For runs that return without error (C92, C96 and C98 say when they do). commands.txt is left out: C54 and C63 show what is wrong with it. Quirks of the code that other properties refute (URLs given as names, C68; forms that are references to arrays, C79) are in the specification as the code treats them."
  },
  {
   "property": "C100",
   "status": "proved",
   "theorems": [
    "C100_scripts",
    "C100_urls",
    "C100_files",
    "C100_text",
    "C100_references",
    "C100_followed",
    "C100_returns",
    "C100_raw",
    "C100_no_errors"
   ],
   "note": "For runs that return without error (C100_returns says when they do); commands.txt is left out as in C99. The functions give no list (None) for trees deeper than the given k, for name trees that reach an object twice and for those with a key but no value at the end."
  },
  {
   "property": "C101",
   "status": "proved",
   "theorems": [
    "C101_round_trip",
    "C101_raw",
    "C101_no_errors",
    "C101_written"
   ],
   "note": "One cross-reference stream and no Prev; entries of type 2 (compressed objects) are not in use for the parser. The dictionary of the stream must fit into the read buffer (C34)."
  },
  {
   "property": "C102",
   "status": "proved",
   "theorems": [
    "C102_commands",
    "C102_list"
   ],
   "note": "Which file specifications count as commands is stated as the code has it; C54 and C63 show where this differs from what the output should be (plain strings are left out, parameters outside of launch actions are reported)."
  },
  {
   "property": "C103",
   "status": "partial",
   "theorems": [
    "C103_lines_refuted",
    "C103_octal_refuted",
    "C103_strings_partial"
   ],
   "note": "Refuted: line ends are not normalised and octal codes above 255 give two characters (with the message InvalidOctal). Partial: these are the only differences, for every text of the standard's grammar."
  },
  {
   "property": "C104",
   "status": "partial",
   "theorems": [
    "C104_compressed_refuted",
    "C104_always_null",
    "C104_printed_partial"
   ],
   "note": "Refuted: an open action with a script, kept in an object stream, is fetched as null and javascript.js stays empty. C104_always_null: so for every compressed object. Partial: the text of every such object is in raw.pdf inside the printed stream."
  },
  {
   "property": "C105",
   "status": "partial",
   "theorems": [
    "C105_lists_refuted",
    "C105_lists_partial"
   ],
   "note": "Refuted: the first array of values ends its section. Partial: what stands in front of it and all other sections are read, and the width is that of the last code listed."
  },
  {
   "property": "C106",
   "status": "partial",
   "theorems": [
    "C106_forms_refuted",
    "C106_forms_partial"
   ],
   "note": "Refuted: a page whose content is a form with text. Partial: pages whose forms show no text."
  },
  {
   "property": "C107",
   "status": "partial",
   "theorems": [
    "C107_images_refuted",
    "C107_images_partial"
   ],
   "note": "Refuted: an image with a parenthesis in its data hides the text behind it. Partial: data that is a sequence of objects without BT and TJ."
  },
  {
   "property": "C108",
   "status": "partial",
   "theorems": [
    "C108_encoding_refuted",
    "C108_unmapped_partial"
   ],
   "note": "Refuted: the code 1 mapped to <0041> is written as the bytes 00 41. Proved for fonts that map no code (C108_unmapped_partial); C73 says what is written for the others."
  },
  {
   "property": "C109",
   "status": "proved",
   "theorems": [
    "C109_sealed",
    "C109_locked",
    "C109_raw",
    "C109_no_errors",
    "C109_written"
   ],
   "note": "As in C97 and C101: RC4 and Identity schemes, one cross-reference stream and no Prev."
  },
  {
   "property": "C110",
   "status": "partial",
   "theorems": [
    "C110_owner_refuted",
    "C110_same_partial",
    "C110_block_partial"
   ],
   "note": "Refuted: a document of 128-bit RC4 (revision 3) with the owner password owner is refused with every amount of fuel, since the code takes every password for a user password. Proved: it opens if the owner password, padded, is the user password, and with the block that Algorithm 7 makes of O, given as the password."
  },
  {
   "property": "C111",
   "status": "proved",
   "theorems": [
    "C111_updates",
    "C111_raw",
    "C111_no_errors",
    "C111_returns",
    "C111_written",
    "C111_trailer"
   ],
   "note": "As in C95 and C101: the first object of an update must not have Prev or Encrypt in its dictionary, because Load takes it for a trailer (C93), so each update behind the first has an object; the dictionary of each stream must fit into the read buffer (C34). All revisions have streams; files that have tables in one revision and streams in another are not covered."
  },
  {
   "property": "C112",
   "status": "proved",
   "theorems": [
    "C112_updates",
    "C112_locked",
    "C112_raw",
    "C112_no_errors",
    "C112_returns"
   ],
   "note": "As in C95 and C97: RC4 and Identity schemes; the first object of an update must not have Prev or Encrypt in its dictionary (C93)."
  },
  {
   "property": "C113",
   "status": "proved",
   "theorems": [
    "C113_updates",
    "C113_locked",
    "C113_raw",
    "C113_no_errors",
    "C113_returns",
    "C113_written"
   ],
   "note": "As in C97 and C111: RC4 and Identity schemes; the first object of an update must not have Prev or Encrypt in its dictionary (C93); all revisions have streams."
  },
  {
   "property": "C114",
   "status": "partial",
   "theorems": [
    "C114_front_refuted",
    "C114_trailer_refuted",
    "C114_offsets_partial",
    "C114_front_partial",
    "C114_mark_partial",
    "C114_raw_partial",
    "C114_no_errors_partial",
    "C114_returns_partial"
   ],
   "note": "Refuted by two documents: HTTP headers in front of a document so that the recorded offset of object 2 leads to a 2 inside of a string (C114_front_refuted), and 7 bytes in front so that startxref leads to the last object, whose dictionary gets into the trailer (C114_trailer_refuted). The partial theorems hold for every table of wrong or missing offsets under the condition that an offset is harmless, and for 3, 5 or 6 bytes in front without a condition."
  },
  {
   "property": "C115",
   "status": "partial",
   "theorems": [
    "C115_number_refuted",
    "C115_trailer_refuted",
    "C115_behind_partial",
    "C115_raw_partial",
    "C115_no_errors_partial",
    "C115_returns_partial"
   ],
   "note": "Refuted by two documents: 1 9 0 n behind the end makes a second copy of object 1 under a number that no object has (C115_number_refuted); a dictionary with Encrypt behind the end makes Load refuse the document (C115_trailer_refuted). The partial theorems hold for all bytes behind the end that do not begin with a number and have no obj, xref and <<."
  },
  {
   "property": "C116",
   "status": "partial",
   "theorems": [
    "C116_kept_refuted",
    "C116_missing_partial",
    "C116_lost_partial"
   ],
   "note": "Refuted by the encrypted document of C83 with a wrong password and -f. Proved: kept if and only if the input file cannot be opened; otherwise only empty files remain."
  },
  {
   "property": "C117",
   "status": "proved",
   "theorems": [
    "C117_directory",
    "C117_fresh"
   ],
   "note": "Writing to a file that was created is taken to succeed, as in the rest of the model (DESIGN.md, section 3)."
  },
  {
   "property": "C118",
   "status": "proved",
   "theorems": [
    "C118_linear",
    "C118_raw",
    "C118_no_errors",
    "C118_returns"
   ],
   "note": "For the documents of SpecLinear.v; the entry Prev of the trailer is not described. The offsets in the two tables and in Prev must be right; wrong ones are in C114. The first object behind the first table must not have Prev or Encrypt in its dictionary, because Load takes it for a trailer (C93)."
  },
  {
   "property": "C119",
   "status": "partial",
   "theorems": [
    "C119_hidden_refuted",
    "C119_hybrid_partial"
   ],
   "note": "Refuted: an object that the table marks as free and the stream has is null. Proved for objects that the table does not mark as free (C119_hybrid_partial)."
  },
  {
   "property": "C120",
   "status": "partial",
   "theorems": [
    "C120_twice_refuted",
    "C120_again_partial"
   ],
   "note": "Refuted: a stream with a filter is decoded a second time. Proved for documents whose objects need no escapes and name no filters and in which no text looks like the start of an object or of a table (C120_again_partial)."
  },
  {
   "property": "C121",
   "status": "partial",
   "theorems": [
    "C121_generation_refuted",
    "C121_current_partial"
   ],
   "note": "Refuted: a reference to the deleted generation 0 of an object is followed to generation 1, and its URL is put out. Proved for references with current generations (C121_current_partial)."
  },
  {
   "property": "C122",
   "status": "partial",
   "theorems": [
    "C122_length_refuted",
    "C122_length_partial",
    "C122_cut_partial"
   ],
   "note": "Refuted: an embedded file of 17 bytes with the word endstream in it is dumped as 4 bytes. Proved for data without the word (C122_length_partial), and what is read otherwise (C122_cut_partial). Missing in both: heads that do not leave 9 bytes in the read buffer (C34)."
  },
  {
   "property": "C123",
   "status": "proved",
   "theorems": [
    "C123_indirect"
   ],
   "note": "Values inside of parameter dictionaries are direct numbers (as in C33). Streams whose dictionary has neither Filter nor DecodeParms as a reference: C33, C34."
  },
  {
   "property": "C124",
   "status": "partial",
   "theorems": [
    "C124_scripts_refuted",
    "C124_scripts_partial"
   ],
   "note": "Refuted: a script in UTF-16BE is written as it stands. Proved for ASCII (C124_scripts_partial). PDFDocEncoding outside of ASCII is not described."
  },
  {
   "property": "C125",
   "status": "proved",
   "theorems": [
    "C125_hex",
    "C125_ascii85",
    "C125_run_length",
    "C125_predictors",
    "C125_tiff"
   ],
   "note": "FlateDecode and LZWDecode are functions of the environment (zlib, lzw) and not covered. C125_tiff: 1 to 16 bits, at least one color and column, fewer than 2^62 bits in a row and 2^58 bytes."
  },
  {
   "property": "C126",
   "status": "proved",
   "theorems": [
    "C126_first_bytes",
    "C126_unused"
   ],
   "note": "C126_unused speaks of the trailer as Load leaves it (which trailers count: C19, C82, C93)."
  },
  {
   "property": "C127",
   "status": "partial",
   "theorems": [
    "C127_rc4",
    "C127_aes_refuted",
    "C127_inside_partial",
    "C127_aes_partial"
   ],
   "note": "RC4 in full (C127_rc4). AES refuted; proved for cuts between blocks (C127_aes_partial), and what happens otherwise (C127_inside_partial). AES itself is a function of the environment."
  }
 ]
}
