# Formal model of KarmaPenny/pdfparser in Rocq (Coq 8.16.1)

## 1. Approach

The Go code in /repo is transcribed function by function into executable
Gallina, and theorems are proved about the transcription.  In `rocq/theories`

* `Base Msg Reader Num Lexer Obj ReadObj Stream Bits Filters Env Getters Crypt
  Rc4 Md5 GetObj Regex Xref Security Load Font Page Tree Output Render Extract
  Errors Parse Plain` hold definitions, each with the file and lines of /repo it models;
* `Spec*.v` hold specifications that do not mention the model's algorithms
  (grammars, encoders, decimal notation, reachability, the standard's key
  derivation, ...);
* `*P.v` hold proofs, `*Ex.v` concrete documents and witnesses;
* `Prop*.v` hold only the property theorems (`exact lemma`), `Print Assumptions`
  beneath each, and an `Example` showing that a concrete case meets the hypotheses.

How Go is represented:

* A **byte** is `Coq.Init.Byte.byte`; a Go `[]byte`/`string` is `list byte`.
* The **reader** (`bufio.Reader` over an `io.ReadSeeker`) is a record: logical
  offset, number of bytes buffered, the byte `UnreadByte` would put back, the
  bytes from the offset to the end of the file, and the list of messages
  logged.  `ReadByte`, `UnreadByte`, `Peek`, `Read`, `Seek`, `Reset`,
  `Buffered` follow the Go sources, including *short reads at the end of the
  4096 byte buffer*, `UnreadByte` after a failed `ReadByte`, and failing seeks
  to negative offsets.
* **Loops that always terminate** (scanning bytes) recurse on a fuel computed
  from the remaining input; for each a lemma proves the Go loop's unfolding
  equation without any fuel, so that exhausted fuel is provably never seen.
* **Recursion that may not terminate** (object resolution, name trees, CMap
  ranges, predictors) takes an explicit fuel and returns `OutOfFuel`, which no
  theorem treats as a normal result; "terminates" means there is a fuel with
  another result, "diverges" means `OutOfFuel` for every fuel.  Monotonicity
  in the fuel is proved (`get_object_mono`, `Resolve_mono`, ...).
* **Panics** (index out of range, nil dereference, slice bounds, `make` of a
  negative or absurd size) are the explicit result `Panic`.
* **Go map iteration order** is an oracle `order` that theorems quantify over;
  the only assumption (`order_ok`) is that it permutes the entries.
* **float64** is `SpecFloat.spec_float` with precision 53, emax 1024 (the
  executable IEEE-754 specification of the Coq standard library).
* **int/int64** are `Z` with explicit wrap-around `mod 2^64` wherever Go code
  adds or multiplies values that a document controls.
* **External code** is the record `env` of functions that theorems quantify
  over: MD5 and the AES block function (abstract; executable MD5 in Md5.v is
  used in witnesses), zlib, both LZW decoders, `%g`-style number formatting,
  and the verbosity flag.

## 2. Trusted base

1. Coq 8.16.1's kernel and its `vm_compute` machine (used for witnesses and
   examples), and coqchk's agreement with it.
2. **Axioms.**  `Print Assumptions` says "Closed under the global context" for
   every property theorem: no theorem of this development rests on an axiom.
   `coqchk -o` / vcheck list seven constants of the standard library module
   `Coq.ssr.ssrunder` (`Under_rel.Over_rel`, `.Under_rel_from_rel`, `.over_rel`,
   `.over_rel_done`, `.Under_rel`, `.Under_relE`, `.under_rel_done`): they are
   fields of a module type of the library that gets loaded with it; nothing
   here uses them.  There are no axioms, parameters, section-less variables,
   admitted proofs, functors or module types in /verif, and no kernel check is
   switched off.
3. The transcription from Go to Gallina, by hand, function by function.  As a
   check of it, the project's own unit tests hold of the model (UnitTests.v).
4. What is said about Go's library and the platform: `bufio.Reader` as in
   Reader.v; `regexp`'s leftmost-first semantics for the three fixed
   expressions as the backtracking matcher of Regex.v; `strconv.ParseUint/ParseInt`
   on digits; `encoding/hex`; `crypto/rc4` (Rc4.v) and `cipher.NewCBCDecrypter`
   (Crypt.v); float64 to int conversion as on amd64; 64-bit int; no fused
   multiply-add; `make([]byte, n)` panics above 2^48; capacity rounding of
   `[]byte(string)` to 8 or 16 bytes for short strings.

## 3. What is modelled

All of pdf/parser.go, filters.go, encryption.go, font.go, page.go, object.go,
action.go, file.go, array.go, dictionary.go, reference.go, output.go, pdf.go,
utility.go, xref.go, keyword.go, name.go, number.go, string.go, errors.go and
main.go, with these exceptions and simplifications:

* zlib, the LZW decoders, AES, MD5 and `fmt`'s float formatting are functions of
  `env`; their errors are modelled as far as the callers look at them.
* `logger.go`: only the nil dereference of `Debug` is observable; its output on
  standard error is not.  Likewise the texts `main` prints.
* The file system is: the input's content or failure to open, success or
  failure of each `os.Create`, `os.Stat`'s answer.  Failing writes, `RemoveAll`
  and `MkdirAll` errors (which the code ignores or returns) are not modelled.
  Names are relative to the output directory (`path.Join(directory, name)`).
* Messages to errors.txt are the reader's `log` (`Errors` turns it into lines); all other output is the trace
  of effects of `Parse`.  The order between the two is not represented.
* Parsers created for CMaps and content streams have no output; their log is dropped.
* Memory exhaustion, stack overflow and time are not modelled; input files are
  regular files read by one process.
* `GetBytes`/`GetInt64` are the same functions as `GetString`/`GetInt` on amd64.
* Go slices are values (no aliasing).  The one place that mutates shared data,
  in-place decryption and predictor reversal, works on slices with one owner.
* pdf/unit_test.go is not modelled but carried out: `UnitData.v` holds the files of
  pdf/test, `UnitTests.v` loads them with the model (and `Inflate.v`, executable
  zlib and LZW readers) and compares with what the tests expect of the program.
  All agree; TestMaxCmapSize, which measures time, is left out.

## 4. Defects of the code the model exposes

Each is a `..._refuted` theorem or an example in the file of its property.

| where | defect | property |
|---|---|---|
| parser.go:890 | the i-th digit behind the decimal point is divided by 10 i | C07 |
| parser.go:402-420 | fetching a stream whose Filter entry refers to the stream itself never ends, and neither does Parse | C15, C89 |
| parser.go:65 | the repair condition is `ok` where it should be `!ok` | C24, C82 |
| filters.go:111-113 | a partial last ASCII85 group is completed with zero digits | C28 |
| filters.go:330-396 | PNG predictors treat every pixel as one byte; predictors 10-14 ignore the row's tag | C30 |
| filters.go:295-309 | the TIFF predictor crashes on parameters whose product overflows | C32 |
| parser.go:939-943 | a short read at a buffer boundary makes a stream run past its end | C34, C35 |
| parser.go:626 | a short read at a buffer boundary makes ReadDictionary return nothing | C36 |
| encryption.go:76-97 | AES: initialisation vector and padding stay in the data | C38, C83 |
| encryption.go:280-328 | without StmF, StrF or EEF data is decrypted with RC4 instead of left as it is | C83 |
| encryption.go:196-210 | revision 2 with V 2 takes the key length from Length | C39 |
| encryption.go:277 | a short U entry is compared with zeros appended, or crashes | C40, C41 |
| parser.go:366 | an incomplete cross-reference stream stays marked as encrypted | C42 |
| font.go:53-55 | bfrange maps all codes to the first value; endless loop for a range up to 2^63-1 | C44, C45 |
| dictionary.go:91-103 | name trees with a direct kid pointing back never end | C47 |
| page.go:75-78 | every other element of a TJ array is dropped | C49 |
| output.go:73-75 | errors.txt is never closed | C52 |
| object.go:33-38 | objects that are arrays are not searched | C53 |
| action.go:16-20 | Launch with a plain file name is not reported as a command | C54 |
| logger.go:10-11 | Parse called as a library dereferences a nil flag | C56 |
| parser.go:462-465 | seeking to a negative offset leaves the reader anywhere | C58 |
| parser.go:342-362 | a type field of width 0 is read as type 0 instead of 1 | C60 |
| file.go:31-35 | a file specification with parameters is reported as a command whatever it is used for | C63 |
| object.go:74-82 | the files of file attachment annotations are not dumped | C66 |
| file.go:13 | FS is read as a string, so URL file specifications are not recognised | C68 |
| action.go:9-26 | Next actions are not followed | C70 |
| main.go:52-54 | the exit code is 0 when parsing failed | C71 |
| output.go:100 | line breaks in file names forge lines of files.txt | C72 |
| page.go:46-48 | every text object starts with the default font | C74 |
| page.go:27-31 | content streams are read one by one | C75 |
| page.go:16-17 | inherited resources are not used | C76 |
| dictionary.go:166-173 | any reference counts as a stream, so arrays behind references in Contents and XFA are ignored | C77, C79 |
| file.go:22 | embedded files only under UF are dumped as empty files | C78 |
| string.go:5-7, name.go:5-7 | strings and names are printed without escapes | C80 |
| object.go:23-28 | streams are printed decoded with the filters still in the dictionary | C80, C120 |
| parser.go:119-152 | the search for objects also finds text in strings and streams | C81 |
| parser.go:379 | errors of Seek are ignored, so negative offsets read whatever follows the last read; results then depend on map order | C85 |
| parser.go:939-943 | ReadStream returns without a message if no byte follows the line of the keyword stream | C88 |
| parser.go:95-117, 211-276 | the end of every startxref is taken for the start of a table, and the next object's dictionary for a trailer | C93 |
| parser.go:1013-1106 | line ends in literal strings are not turned into line feeds; octal codes above 255 are read as two characters | C103 |
| parser.go:373-374 | entries of type 2 are ignored: objects kept in object streams are null, scripts and addresses in them are not reported | C104 |
| font.go:48-51 | a range with an array of values ends its section: the list and all lines behind it are lost | C105 |
| page.go:39-46 | text in form XObjects (operator Do) is not extracted | C106 |
| page.go:39-46 | the data of inline images is read as objects and operators | C107 |
| font.go:80-92 | UTF-16BE values of character maps are written as they are, between unmapped one-byte characters | C108 |
| encryption.go:248-284 | the password is only tried as a user password; the owner password is refused | C110 |
| parser.go:57-70 and 187-207 | an offset at which only the number of the object stands is kept although no object is there; any object at the startxref offset is taken for a cross-reference stream | C114 |
| parser.go:94-117 | the xref in startxref is taken for a table: numbers and dictionaries behind the end of the document get into the cross-reference map and the trailer | C115 |
| output.go:29 and pdf.go:17-30 | the output directory is emptied before the document is loaded: a failed run destroys the earlier output | C116 |
| parser.go:257-276 | XRefStm is not looked at, objects that the table of a hybrid-reference file hides are lost | C119 |
| reference.go:50-68 | the generation of a reference is not looked at, outdated references lead to the object that took the number over | C121 |
| parser.go:907-977 | Length is not looked at, the data of a stream ends at the first endstream in it | C122 |
| object.go:85-89 | scripts in UTF-16BE are written byte by byte beside scripts in ASCII | C124 |
| encryption.go:76-97 | AES data that ends inside of a block is given out as it is, with the complete blocks in front still encrypted | C127 |

## 5. Testing the theorems

`seeded/LOG.jsonl` records edits of the model that mimic realistic bugs.  In a
scratch copy the edit is made, every proof that no longer goes through is
replaced by an admission, and the theorems whose `Print Assumptions` then
mention an admission are those that failed.  A theorem that survives although
its English claim has become false was tightened.

`seeded/SWEEP.jsonl` is a sweep over the definitions of the model: 575 edits of
one token each (comparisons, constants, branches), each with the first lemma
whose proof fails, or a remark where none does.  Of the 13 without a failing
proof two led to tighter theorems (C21, C24); the others touch definitions
that were not used, labels without a meaning, or do not change what is computed.
A failing lemma is weaker evidence than a failing theorem: these lines complement
the log, they do not replace it.

## 6. Properties


### C01 -- Reading an object terminates and makes progress
Modelled and proved: the ReadObject family with fuel; a consumption lemma for each token reader, then induction on the number of bytes left.
Status: **proved**.  Theorems (PropRead.v): `C01_reachable`, `C01_read_object`, `C01_read_array`, `C01_read_dictionary`, `C01_read_command`.  Print Assumptions: closed under the global context for each.
All four readers return on every well-formed reader state for every total decryptor; progress and the exact meaning of ReadError are proved for ReadObject.

### C02 -- Whitespace and comments before a token are insignificant
Modelled and proved: consumeWhitespace/consumeComment; induction on the filler, described by an independent grammar.
Status: **proved**.  Theorems (PropRead.v): `C02_gap_insignificant`.  Print Assumptions: closed under the global context for each.
Same object, error and messages for any gap inserted before the object, for every file and position.

### C03 -- Literal strings denote the bytes the PDF syntax assigns to them
Modelled and proved: ReadString against a grammar of string items (plain, escape, octal, line continuation, nested parentheses) with separate rendering and denotation.
Status: **proved**.  Theorems (PropRead.v): `C03_string`, `C03_string_object`, `C03_every_string_writable`.  Print Assumptions: closed under the global context for each.
Stated over an inductive relation between string bodies and values; every byte string is shown to have a body.

### C04 -- Hexadecimal strings denote their digit pairs
Modelled and proved: ReadHexString against digit pairs with interspersed white space.
Status: **proved**.  Theorems (PropRead.v): `C04_hex_string`, `C04_hex_string_object`, `C04_every_string_writable`.  Print Assumptions: closed under the global context for each.
Stated over an inductive relation for digits, skipped characters and the odd final digit.

### C05 -- Names denote their bytes, #xx escapes included
Modelled and proved: ReadName against a grammar of plain characters and #xx escapes.
Status: **proved**.  Theorems (PropRead.v): `C05_name`, `C05_name_object`, `C05_every_name_writable`.  Print Assumptions: closed under the global context for each.
Stated over an inductive relation for names with #xx codes.

### C06 -- Integer literals are read exactly
Modelled and proved: ReadNumber over spec_float; exactness of SFmul/SFadd on integers up to 2^53.
Status: **proved**.  Theorems (PropRead.v): `C06_read_number`, `C06_read_object`.  Print Assumptions: closed under the global context for each.
Integers of magnitude up to 2^53, through read_number and through ReadObject.

### C07 -- Real literals have their decimal value
Modelled and proved: as C06; a computed witness (1.25) refutes the general claim. RealP.v bounds the rounding error of float64 addition and division (shift, round to nearest even, location of the quotient's remainder) over the rationals; RealReadP.v adds the bounds up along the digits and compares d/(10 i) with d/10^i, which gives the exact class of literals that are read right.
Status: **partial**.  Theorems (PropRead.v, PropReal.v): `C07_real_value_refuted`, `C07_zero_fraction_partial`, `C07_sum_partial`, `C07_one_decimal_partial`, `C07_classified_partial`.  Print Assumptions: closed under the global context for each.
The code is wrong: the i-th decimal digit is divided by 10*i, so 1.25 is read as 1.45 (refuted). Proved instead: what every literal is read as (integer part + d1/10 + d2/20 + d3/30 + ..., with a bound on the rounding error), that literals with one decimal are read right up to rounding, that for numbers up to 2^20 with up to 1000 decimals exactly those are read right, and that fractions of zeros are exact.

### C08 -- Written objects are read back
Modelled and proved: ReadObject on an independent rendering of object trees; induction on trees.
Status: **proved**.  Theorems (PropRead.v): `C08_read_text`, `C08_read_text_plain`, `C08_every_tree_writable`.  Print Assumptions: closed under the global context for each.
Every text denoting an object tree is read back as that tree; every writable tree has a text.

### C09 -- A dictionary maps each key to the last value given for it
Modelled and proved: ReadDictionary on written dictionaries; independent last-value lookup.
Status: **proved**.  Theorems (PropRead.v): `C09_last_value_wins`.  Print Assumptions: closed under the global context for each.
Last value wins, keys are exactly the keys given.

### C10 -- Truncated containers keep what was read
Modelled and proved: ReadArray/ReadDictionary at end of input; prefix relation.
Status: **proved**.  Theorems (PropRead.v): `C10_truncated_containers`.  Print Assumptions: closed under the global context for each.
Truncation at any nesting depth returns what was read, with one message per unclosed container.

### C11 -- errors.txt reports anomalies and only anomalies
Modelled and proved: the reader's log against an inductive description of anomalies.
Status: **proved**.  Theorems (PropRead.v): `C11_unclosed_string`, `C11_invalid_octal`, `C11_unclosed_hex_string`, `C11_invalid_name_escape`, `C11_invalid_key`.  Print Assumptions: closed under the global context for each.
Positive direction for every kind of anomaly; silence on canonical text is C08; the exact messages for every text are C86.

### C12 -- Reference look-ahead never consumes foreign input
Modelled and proved: ReadObject on numbers followed by anything; position after reading.
Status: **proved**.  Theorems (PropRead.v): `C12_reference_lookahead`.  Print Assumptions: closed under the global context for each.
Both directions: a reference exactly when the look-ahead is a reference tail, otherwise nothing beyond the number is consumed.

### C13 -- Looking an object up does not move the reader
Modelled and proved: Resolve; the reader state before and after.
Status: **proved**.  Theorems (PropFetch.v): `C13_resolve_stays`, `C13_getters_stay`.  Print Assumptions: closed under the global context for each.
Resolve (value and stream) and all 18 getters leave position, unread bytes, cross-reference table, trailer and security handler unchanged; only messages may be added.

### C14 -- Circular references resolve to null
Modelled and proved: resolve; chains of references that come back.
Status: **proved**.  Theorems (PropFetch.v): `C14_circle_is_null`, `C14_first_value`.  Print Assumptions: closed under the global context for each.
Chains and cycles of any length; the objects on the way must be fetchable and the offsets in the table non-negative (see C58).

### C15 -- Fetching an object always terminates
Modelled and proved: GetObject/resolve with fuel; divergence for every fuel (refuted), termination measure otherwise.
Status: **partial**.  Theorems (PropFetch.v): `C15_get_object_refuted`, `C15_get_object_partial`, `C15_resolve_partial`.  Print Assumptions: closed under the global context for each.
The code is wrong: a stream whose Filter entry is a reference to itself makes GetObject recurse for ever (refuted for every fuel and environment, on a file that loads). Proved part: GetObject and Resolve terminate when no stream object is reachable from itself through references.

### C16 -- Unknown, free and compressed objects read as null
Modelled and proved: GetObject on entries that are missing, free or of type 2.
Status: **proved**.  Theorems (PropFetch.v): `C16_absent_is_null`.  Print Assumptions: closed under the global context for each.
Also shows the parser state is unchanged.

### C17 -- Typed getters report exactly what is there
Modelled and proved: getters of Array and Dictionary against an inductive lookup.
Status: **proved**.  Theorems (PropFetch.v): `C17_dictionary_getters`, `C17_array_getters`.  Print Assumptions: closed under the global context for each.
All dictionary and array getters, including indices out of range; relative to an arbitrary implementation of Resolve.

### C18 -- Loading cross-reference sections terminates on any Prev chain
Modelled and proved: loadXref; measure on the offsets not yet visited.
Status: **proved**.  Theorems (PropXref.v): `C18_loading_ends`, `C18_load_ends`, `C18_load_ends_no_streams`.  Print Assumptions: closed under the global context for each.
load_xref and load do not run out of fuel for any Prev graph, given that every object can be fetched (GetObject terminates); that hypothesis is discharged for files without the word 'stream'. Other hangs of GetObject (Filter arrays with self references etc.) are outside C18 and described in DESIGN.md.

### C19 -- Newer cross-reference sections override older ones
Modelled and proved: loadXref on a chain of sections; map algebra.
Status: **proved**.  Theorems (PropXref.v): `C19_newer_sections_win`.  Print Assumptions: closed under the global context for each.
For a chain of well-formed sections (tables and cross-reference streams), ending at a section without Prev, at an offset already visited or where neither a table nor an object is.

### C20 -- Cross-reference tables are decoded entry by entry
Modelled and proved: loadXrefTable against written tables.
Status: **proved**.  Theorems (PropXref.v): `C20_table`.  Print Assumptions: closed under the global context for each.
Any number of subsections of any length; white space and comments between the numbers.

### C21 -- Cross-reference streams are decoded entry by entry
Modelled and proved: loadXrefStream against written binary entries. The relation `stream_says` also covers dictionaries whose Index or W is not as it should be: reading stops at the first pair that is not two numbers, and nothing is read without three widths.
Status: **proved**.  Theorems (PropXref.v): `C21_stream`.  Print Assumptions: closed under the global context for each.
All widths up to 2^48, any Index array of numbers, direct entries W/Index/Size/Prev; incomplete data ends the decoding. The stream's own entry is inserted first (and again at the end if complete), which is part of the statement. Index pairs that are not numbers and missing widths end the reading.

### C22 -- The object scan finds every object header
Modelled and proved: findObjects; the regular expression matcher is proved sound and complete for an inductive language.
Status: **proved**.  Theorems (PropXref.v): `C22_scan`, `C22_all_found`.  Print Assumptions: closed under the global context for each.
Markers are found left to right without overlap; C22_all_found says that any other marker begins inside a found one (a later digit of its number, or behind a comment within it).

### C23 -- Objects missing from the cross-reference table are recovered
Modelled and proved: Load's recovery step; induction over any permutation.
Status: **proved**.  Theorems (PropXref.v): `C23_repair_completes`, `C23_load_completes`, `C23_every_marker_has_an_entry`.  Print Assumptions: closed under the global context for each.
For every iteration order of the Go map (ord any permutation).

### C24 -- Wrong cross-reference offsets are repaired and right ones kept
Modelled and proved: Load's repair step; witnesses, and an exact description of which entries are redirected (repaired, SpecScan.v): ReadObjectHeader succeeds iff a complete header is there (header_whole, header_whole_back), and its number is the one at the offset, 0 if there is none (header_taken).
Status: **partial**.  Theorems (PropXref.v): `C24_right_entry_refuted`, `C24_wrong_entry_refuted`, `C24_repair_partial`.  Print Assumptions: closed under the global context for each.
Refuted in both directions by the code's condition ok || n != object_number; C24_repair_partial says exactly which entries are redirected.

### C25 -- The last startxref wins
Modelled and proved: getStartXrefOffset and findXrefOffsets against the inductive language.
Status: **proved**.  Theorems (PropXref.v): `C25_last_startxref`, `C25_xref_keywords`.  Print Assumptions: closed under the global context for each.
Also proved: where the xref keywords are found.

### C26 -- ASCIIHexDecode inverts hex encoding
Modelled and proved: ASCIIHexDecode against an independent encoder with white space.
Status: **proved**.  Theorems (PropFilters.v): `C26_ascii_hex`, `C26_every_data_encodable`.  Print Assumptions: closed under the global context for each.
Decoding of every spaced hex text, terminated or not, with arbitrary bytes after the terminator; every data has such a text.

### C27 -- ASCII85Decode inverts ASCII85 encoding (whole groups)
Modelled and proved: ASCII85Decode against an independent base-85 encoder.
Status: **proved**.  Theorems (PropFilters.v): `C27_ascii85`, `C27_every_data_encodable`.  Print Assumptions: closed under the global context for each.
Whole groups and z, whitespace anywhere, '~' or end of data; every data of length 4k has an encoding.

### C28 -- ASCII85Decode inverts ASCII85 encoding (final partial group)
Modelled and proved: the final partial group; witness and the true part.
Status: **partial**.  Theorems (PropFilters.v): `C28_partial_group_refuted`, `C28_partial_group_partial`, `C28_off_by_one_partial`.  Print Assumptions: closed under the global context for each.
The code is wrong: it completes a partial final group with zero digits rather than the largest digit (refuted: E+K). Proved part: exact iff the dropped digits are all zero, otherwise the final bytes are one too small.

### C29 -- RunLengthDecode inverts run length encoding
Modelled and proved: RunLengthDecode against an encoder given by any segmentation.
Status: **proved**.  Theorems (PropFilters.v): `C29_run_length`, `C29_truncated`, `C29_every_data_encodable`.  Print Assumptions: closed under the global context for each.
Literal and repeat runs, EOD and garbage after it; truncated final runs keep what is present; every data has an encoding.

### C30 -- PNG predictors are reversed
Modelled and proved: ReversePredictor 10-15 against the PNG specification's filters.
Status: **partial**.  Theorems (PropFilters.v): `C30_pixel_size_refuted`, `C30_row_types_refuted`, `C30_png_partial`.  Print Assumptions: closed under the global context for each.
The code is wrong for pixels of more than one byte and for row tags that differ from the Predictor value 10-14 (both refuted). Proved part: all filter types with one-byte pixels and types None and Up with any pixel size, with tags admitted by the Predictor value.

### C31 -- The TIFF predictor is reversed
Modelled and proved: ReversePredictor 2 with GetBits/SetBits against component-wise differencing for every bit depth.
Status: **proved**.  Theorems (PropFilters.v): `C31_tiff`, `C31_rows_determine_data`.  Print Assumptions: closed under the global context for each.
Stated over bit lists of the samples; holds for 1..16 bits per component, any Colors and Columns, including row padding bits.

### C32 -- Reversing a predictor never crashes
Modelled and proved: ReversePredictor; absence of Panic/OutOfFuel.
Status: **partial**.  Theorems (PropFilters.v): `C32_predictor_refuted`, `C32_no_overflow_partial`, `C32_other_predictors_partial`.  Print Assumptions: closed under the global context for each.
The code is wrong: Colors = 2^60+256 overflows and the loop indexes a negative position (refuted at the level of the decode parameter dictionary). Proved part: no crash whenever the products do not overflow int64 (Predictor 2), and always for every other predictor.

### C33 -- Stream filters are applied in order after decryption
Modelled and proved: GetObject's filter list, decode parameters and decryption against a relational pipeline.
Status: **proved**.  Theorems (PropStream.v): `C33_stream_pipeline`.  Print Assumptions: closed under the global context for each.
For a stream object as it stands in the file, with direct Filter and DecodeParms entries: decryption, then every filter with the parameters of its index; unknown filters and empty data unchanged. zlib and lzw are parameters of the model; the object must satisfy C34's window condition.

### C34 -- A stream extends exactly to its endstream marker
Modelled and proved: ReadStream against the first endstream marker.
Status: **partial**.  Theorems (PropStream.v): `C34_stream_data_refuted`, `C34_stream_data_partial`, `C34_unclosed_partial`.  Print Assumptions: closed under the global context for each.
The code is wrong: if the data starts less than nine bytes before the end of the 4096 byte read buffer the marker is never found (refuted). Proved part: every data without the marker, every EOL style, when the first nine bytes are buffered; also the unclosed case with its message.

### C35 -- Where a stream ends does not depend on I/O buffering
Modelled and proved: ReadStream for any buffer state.
Status: **partial**.  Theorems (PropStream.v): `C35_buffering_refuted`, `C35_buffering_partial`.  Print Assumptions: closed under the global context for each.
Refuted by two reader states at the same place of one file. Proved part: independence when neither buffer ends within the first nine data bytes.

### C36 -- Reading a dictionary does not depend on I/O buffering
Modelled and proved: ReadDictionary and ReadObject for any buffer state.
Status: **partial**.  Theorems (PropRead.v): `C36_read_object_unbuffered`, `C36_read_dictionary_refuted`, `C36_read_dictionary_partial`.  Print Assumptions: closed under the global context for each.
Holds for ReadObject. Refuted for ReadDictionary called directly when the buffer ends between the two '<' bytes; proved when the marker is not split.

### C37 -- RC4 decryption inverts RC4 encryption
Modelled and proved: crypto/rc4 and the decryptors; involution, and RC4 against its specification.
Status: **proved**.  Theorems (PropCrypt.v): `C37_rc4_inverts`, `C37_rc4_length`, `C37_rc4_cipher_exists`.  Print Assumptions: closed under the global context for each.
Through NewDecryptor for any object, for every hash function with 16 byte results; RC4 is specified on its own (SpecCrypt.v) and agrees with a published test vector.

### C38 -- AES decryption inverts AES-CBC encryption
Modelled and proved: AES-CBC with any invertible block function.
Status: **partial**.  Theorems (PropCrypt.v): `C38_aes_refuted`, `C38_aes_always_refuted`, `C38_aes_partial`.  Print Assumptions: closed under the global context for each.
False: DecryptorAES.Decrypt leaves the initialisation vector and the padding in the data (pdf/encryption.go:76-97). Proved instead: the blocks are decrypted correctly, so the result is the vector followed by the padded plaintext; and it never is the plaintext.

### C39 -- Keys are derived as the standard security handler prescribes
Modelled and proved: key derivation against the algorithms of ISO 32000.
Status: **partial**.  Theorems (PropCrypt.v): `C39_object_key_partial`, `C39_file_key_partial`, `C39_key_length_refuted`.  Print Assumptions: closed under the global context for each.
Object keys and file keys follow Algorithms 1 and 2. False: for revision 2 with V=2 the code takes the key length from Length instead of 5 bytes, so a correct document is rejected.

### C40 -- The password check accepts exactly the user password
Modelled and proved: the password check against algorithms 4 and 5.
Status: **partial**.  Theorems (PropCrypt.v): `C40_accepts_partial`, `C40_rejects_partial`, `C40_only_partial`, `C40_error_installs_nothing`, `C40_unsupported`, `C40_short_u_refuted`.  Print Assumptions: closed under the global context for each.
Accepts and rejects by Algorithm 6 when U has its 16 significant bytes; errors install nothing; unsupported handlers are reported. False: a U entry of 9 to 15 bytes is compared as if zeros followed.

### C41 -- Opening an encrypted document never crashes
Modelled and proved: SecurityHandler.Init; absence of Panic.
Status: **partial**.  Theorems (PropCrypt.v): `C41_no_crash_refuted`, `C41_returns_partial`.  Print Assumptions: closed under the global context for each.
False: revision 3 or 4 with a U entry of at most 8 bytes panics. Proved instead: SetPassword returns when the objects it looks up can be fetched, U has at least 9 bytes (R3, R4) and the Length entries of crypt filters are in 0..16.

### C42 -- The right crypt filter is applied to the right data
Modelled and proved: the choice of crypt filters and its application to strings and streams.
Status: **partial**.  Theorems (PropCrypt.v): `C42_strings`, `C42_streams`, `C42_encryption_dictionary`, `C42_xref_stream_refuted`.  Print Assumptions: closed under the global context for each.
Strings, streams (by the dictionary's Type and Crypt filter) and the encryption dictionary are as claimed. False: a cross-reference stream that lists itself and has incomplete data stays marked as encrypted and is decrypted when fetched after Load.

### C43 -- Text is decoded code by code
Modelled and proved: Font.Decode against a relational code-by-code reading.
Status: **proved**.  Theorems (PropText.v): `C43_decoded`, `C43_default_is_identity`, `C43_built_fonts_decode`.  Print Assumptions: closed under the global context for each.
For every font of positive width, in particular every font NewFont returns; the decoding is unique.

### C44 -- Character maps map codes as the CMap says
Modelled and proved: NewFont on character maps given by their lines.
Status: **partial**.  Theorems (PropText.v): `C44_character_map_partial`, `C44_ranges_refuted`.  Print Assumptions: closed under the global context for each.
Refuted: all codes of a bfrange are mapped to the first value. C44_character_map_partial: exactly what is stored for any number of bfchar/bfrange sections (the last line about a code counts), for ranges not ending at 2^63-1.

### C45 -- Loading a character map terminates
Modelled and proved: NewFont; termination.
Status: **partial**.  Theorems (PropText.v): `C45_load_returns_partial`, `C45_load_returns_refuted`.  Print Assumptions: closed under the global context for each.
Refuted by a range up to 7FFFFFFFFFFFFFFF (int overflow, endless loop). C45_load_returns_partial: returns for every stream no hex string of which has that value.

### C46 -- Page tree traversal terminates and visits each page once
Modelled and proved: GetPageTree/ResolveKids against first visits of a preorder walk.
Status: **proved**.  Theorems (PropTree.v): `C46_page_tree`, `C46_no_page_tree`.  Print Assumptions: closed under the global context for each.
For every page tree, cyclic or not: the pages are the first visits of the preorder walk. That every reference met can be followed is a hypothesis; whether it holds is C15's subject.

### C47 -- Name tree traversal terminates
Modelled and proved: GetNameTreeMap; measure on the references not yet visited.
Status: **partial**.  Theorems (PropTree.v): `C47_name_tree_ends_partial`, `C47_name_tree_ends_refuted`.  Print Assumptions: closed under the global context for each.
Refuted: a Kids array reached through a reference that directly holds a dictionary pointing back to that array never ends. C47_name_tree_ends_partial: the walk ends on every document, cyclic or not, in which no such array occurs.

### C48 -- Shown text is extracted in order
Modelled and proved: Page.extract against operator sequences.
Status: **proved**.  Theorems (PropText.v): `C48_text_lines`, `C48_every_stream`, `C48_wellformed_stream`, `C48_loaded_fonts`.  Print Assumptions: closed under the global context for each.
Every content stream, also malformed ones: C48_every_stream reads it as objects in order (a stray closing delimiter as null); for well-formed ones these are the objects of the grammar. References among operands lead nowhere (the page parser has no cross-reference table).

### C49 -- Positioned text is extracted completely
Modelled and proved: as C48 for TJ arrays.
Status: **partial**.  Theorems (PropText.v): `C49_all_strings_partial`, `C49_all_strings_refuted`.  Print Assumptions: closed under the global context for each.
Refuted: strings at odd positions of the array are dropped. C49_all_strings_partial: complete when strings and other operands alternate.

### C50 -- Only files inside the output directory are written
Modelled and proved: effect traces of Parse and main; invariant over all effects.
Status: **proved**.  Theorems (PropOut.v): `C50_inside`, `C50_inside_library`.  Print Assumptions: closed under the global context for each.
File operations of Parse and main, for every document, password, environment and outcome (error, panic or fuel exhausted alike). Names are relative to the output directory; that path.Join of the directory and such a name stays inside is trusted. Needs that md5 sums have 16 bytes and that map iteration visits each key once.

### C51 -- An existing output directory is not destroyed without -f
Modelled and proved: main.
Status: **proved**.  Theorems (PropOut.v): `C51_spares`, `C51_runs`.  Print Assumptions: closed under the global context for each.
Both directions: nothing is touched without -f when the directory exists; with -f or a fresh directory it is recreated.

### C52 -- All output files are closed
Modelled and proved: NewOutput/Close in the trace of Parse.
Status: **partial**.  Theorems (PropOut.v): `C52_closed_refuted`, `C52_closed_partial`.  Print Assumptions: closed under the global context for each.
Refuted: errors.txt is created but never closed. C52_closed_partial: every other created file is closed, after the last write, on every outcome including panics.

### C53 -- All URIs and scripts in direct dictionaries are extracted
Modelled and proved: extract over all objects; inclusion of required lines in the trace.
Status: **partial**.  Theorems (PropOut.v): `C53_extracted_refuted`, `C53_extracted_partial`.  Print Assumptions: closed under the global context for each.
Refuted: an indirect object that is an array is not walked. C53_extracted_partial: complete for every dictionary reachable by direct containment in a top-level dictionary object.

### C54 -- Launch actions are reported in commands.txt
Modelled and proved: Action.Extract/File.Extract; as C53.
Status: **partial**.  Theorems (PropOut.v): `C54_commands_refuted`, `C54_commands_partial`.  Print Assumptions: closed under the global context for each.
Refuted: a launch action whose F is a plain string is not reported in commands.txt. C54_commands_partial: complete for Win dictionaries and F given as a file specification dictionary.

### C55 -- raw.pdf holds every in-use object exactly once
Modelled and proved: IndirectObject.String and the loop of Parse against an independent notation of objects.
Status: **proved**.  Theorems (PropOut.v): `C55_raw`, `C55_nothing_on_error`.  Print Assumptions: closed under the global context for each.
For every document that parses without error, each object in use is printed exactly once; on errors nothing is written.

### C56 -- The library entry point works without the command line front end
Modelled and proved: Parse with Verbose nil.
Status: **partial**.  Theorems (PropOut.v): `C56_library_refuted`, `C56_always_refuted`, `C56_verbose_partial`.  Print Assumptions: closed under the global context for each.
Refuted for the library entry point: Debug dereferences the nil Verbose flag, on every document (C56_always_refuted). C56_verbose_partial locates every remaining panic.

### C57 -- Manifest lines describe the dumped files
Modelled and proved: DumpFile; invariant over the trace.
Status: **proved**.  Theorems (PropOut.v): `C57_manifest`.  Print Assumptions: closed under the global context for each.
Every dumped file is named by the md5 sum of its contents, and its manifest line is written. Names with newlines are outside this statement.

### C58 -- Fetching an object does not depend on earlier reads
Modelled and proved: GetObject from two reader states of the same document.
Status: **partial**.  Theorems (PropFetch.v): `C58_history_refuted`, `C58_history_partial`.  Print Assumptions: closed under the global context for each.
The code is wrong for entries with a negative offset, which a 20-digit offset in a cross-reference table produces (refuted on a file that loads). Proved part: same object and same messages for every other entry, whatever was read before.

### C59 -- Multi-byte integers are big-endian
Modelled and proved: BytesToInt/ReadInt64 against positional value.
Status: **proved**.  Theorems (PropFilters.v): `C59_bytes_to_int`, `C59_read_int64`, `C59_read_int64_short`.  Print Assumptions: closed under the global context for each.
BytesToInt for any length; ReadInt64 for full and short reads.

### C60 -- Cross-reference stream fields of width 0 take their defaults
Modelled and proved: loadXrefStream with W entries of 0.
Status: **partial**.  Theorems (PropXref.v): `C60_type_refuted`, `C60_generation_partial`.  Print Assumptions: closed under the global context for each.
Refuted: type 0 is recorded. C60_generation_partial: the third field's default is right.

### C61 -- Names of a finite name tree are collected in order
Modelled and proved: GetNameTreeMap against an inductive finite tree.
Status: **proved**.  Theorems (PropTree.v): `C61_names_in_order`, `C61_no_name_tree`.  Print Assumptions: closed under the global context for each.
Proved for trees whose unfolding is finite with each reference met once.

### C62 -- urls.txt holds only addresses of the document
Modelled and proved: extract and everything below it, Parse; SpecSource says what an address of a document is, without reference to extract. Each step of extract is shown to write only such lines, however it ends (SourceP), by following which getter answers led to the write.
Status: **proved**.  Theorems (PropSource.v): `C62_urls_sound`.  Print Assumptions: closed under the global context for each.
For every file whose cross-reference data loads with non-negative offsets; covers runs that end in a crash.

### C63 -- commands.txt holds only commands of launch actions
Modelled and proved: as C62, for commands; the witness is a one-object file.
Status: **partial**.  Theorems (PropSource.v): `C63_commands_sound_refuted`, `C63_commands_sound_partial`.  Print Assumptions: closed under the global context for each.
Refuted: a file specification with a P entry is reported whatever it is used for (witness: a GoToR action, no launch action in the file). C63_commands_sound_partial: every line is the command of a launch action or a file specification with parameters.

### C64 -- javascript.js holds only scripts of the document
Modelled and proved: as C62, for scripts.
Status: **proved**.  Theorems (PropSource.v): `C64_scripts_sound`.  Print Assumptions: closed under the global context for each.
Same hypotheses as C62.

### C65 -- Dumped files and the lines of files.txt come from the document
Modelled and proved: as C62, for DumpFile and the manifest lines.
Status: **proved**.  Theorems (PropSource.v): `C65_dumps_sound`, `C65_manifest_sound`.  Print Assumptions: closed under the global context for each.
Same hypotheses as C62.

### C66 -- Embedded files are dumped
Modelled and proved: the converse of C65: on a run that ends normally the write is in the trace (AttachP); the name tree is a relation on the document graph (SpecTree), its list of pairs is shown to be what the loops walk over.
Status: **partial**.  Theorems (PropSource.v): `C66_embedded_refuted`, `C66_embedded_partial`.  Print Assumptions: closed under the global context for each.
Refuted: the file of a file attachment annotation is not dumped. C66_embedded_partial: those of actions and of the EmbeddedFiles name tree, for finite trees in which no node is referred to twice.

### C67 -- Forms are dumped
Modelled and proved: as C66, for forms; the loop over the XFA array against the relation joined.
Status: **proved**.  Theorems (PropSource.v): `C67_forms`.  Print Assumptions: closed under the global context for each.
XFA entries that are references to a stream, or direct arrays.

### C68 -- Addresses in name trees and file specifications are listed
Modelled and proved: as C66, for the URLS tree and URL file specifications.
Status: **partial**.  Theorems (PropSource.v): `C68_urls_refuted`, `C68_urls_partial`.  Print Assumptions: closed under the global context for each.
Refuted: FS is read as a string although the format makes it a name. C68_urls_partial: with FS a string; keys of finite URLS trees.

### C69 -- Files outside of the document are listed
Modelled and proved: as C66, for file names.
Status: **proved**.  Theorems (PropSource.v): `C69_outside`.  Print Assumptions: closed under the global context for each.
For finite trees of embedded files.

### C70 -- Commands of chained launch actions are reported
Modelled and proved: witness file. What is true (SpecChain.v, ChainP.v): dictionaries that references lead to are in objects in use (`target_in_use`), so that every chained action is a dictionary of the document and C53 applies.
Status: **partial**.  Theorems (PropChain.v, PropSource.v): `C70_scripts_partial`, `C70_chained_refuted`.  Print Assumptions: closed under the global context for each.
Refuted: the command of the second of two chained launch actions is not written. Proved for the scripts and addresses of chained actions (C70_scripts_partial). Missing: their commands.

### C71 -- The exit code tells whether the file was parsed
Modelled and proved: main, with the result of Parse.
Status: **partial**.  Theorems (PropSource.v): `C71_exit_refuted`, `C71_exit_partial`, `C71_crash_partial`.  Print Assumptions: closed under the global context for each.
Refuted: errors of Parse leave the exit code 0. C71_exit_partial: the code is 1 for a wrong number of arguments and 0 otherwise. C71_crash_partial: the program crashes exactly if Parse is run and crashes.

### C72 -- files.txt can be read line by line
Modelled and proved: the content of files.txt as a concatenation of lines; unique reading of such concatenations; witness file.
Status: **partial**.  Theorems (PropSource.v): `C72_lines_refuted`, `C72_lines_partial`, `C72_unique_partial`.  Print Assumptions: closed under the global context for each.
Refuted: a name with a line break makes a line about a file that does not exist. C72_lines_partial and C72_unique_partial: the content is a sequence of lines about files of the document, and determines it if no name has a line break.

### C73 -- The text of every page is extracted, in the order of the pages
Modelled and proved: SpecPages: pages, their fonts and content streams as relations on the document, their lines with the relations of C44 and C48. PagesP: what a run that ends normally writes for a page is exactly that (just), what it writes for the document has it as a block; FuelP: more fuel does not change a result, so the lines for some fuel are the lines of the run.
Status: **proved**.  Theorems (PropPages.v): `C73_pages`, `C73_page`.  Print Assumptions: closed under the global context for each.
Fonts are those whose ToUnicode map is well-formed and lists single codes (see C44 for ranges); strings and numbers alternate in TJ arrays (C49). The root of the page tree and inner nodes count as pages, as they do in the code.

### C74 -- A selected font stays selected
Modelled and proved: SpecPages has the text of a page with the font as part of the graphics state; where every text object selects a font first it is shown to be the text of C73; witness document.
Status: **partial**.  Theorems (PropPages.v): `C74_font_refuted`, `C74_font_partial`.  Print Assumptions: closed under the global context for each.
Refuted: every text object starts with the default font, Tf outside of text objects is ignored. C74_font_partial: pages on which every text object selects a font before it shows text.

### C75 -- The content streams of a page are read as one
Modelled and proved: joint is the concatenation of the streams; for streams of complete text objects the objects, commands and lines of the concatenation are shown to be those of the streams; witness document.
Status: **partial**.  Theorems (PropPages.v): `C75_joint_refuted`, `C75_joint_partial`.  Print Assumptions: closed under the global context for each.
Refuted: a text object in two streams is cut off at the end of the first. C75_joint_partial: well-formed streams of complete text objects.

### C76 -- Pages inherit resources
Modelled and proved: witness document with the fonts in the root of the page tree. RestP.v: text is the same with fonts that map the same codes (`text_same`).
Status: **partial**.  Theorems (PropPages.v, PropRest.v): `C76_inherited_refuted`, `C76_own_partial`.  Print Assumptions: closed under the global context for each.
Refuted: only the page's own resources are used. Proved for pages with resources of their own, and for pages that inherit fonts without character maps (C76_own_partial).

### C77 -- Contents may be an array of streams
Modelled and proved: witness document. The rest from C73 (RestP.v).
Status: **partial**.  Theorems (PropPages.v, PropRest.v): `C77_contents_refuted`, `C77_direct_partial`.  Print Assumptions: closed under the global context for each.
Refuted: a reference under Contents is taken for a stream, an array it leads to is ignored. Proved for arrays in the page itself (C77_direct_partial).

### C78 -- Embedded files are dumped also from under UF
Modelled and proved: witness document. The rest from C66 (RestP.v).
Status: **partial**.  Theorems (PropPages.v, PropRest.v): `C78_unicode_refuted`, `C78_same_partial`.  Print Assumptions: closed under the global context for each.
Refuted: only F is looked at, and an empty file is dumped. Proved where F leads to the same data (C78_same_partial).

### C79 -- Forms are dumped also where XFA refers to an array
Modelled and proved: witness document. The rest from C67 (RestP.v).
Status: **partial**.  Theorems (PropPages.v, PropRest.v): `C79_form_refuted`, `C79_direct_partial`.  Print Assumptions: closed under the global context for each.
Refuted: a reference under XFA is taken for a stream, and an empty form is dumped. Proved for arrays in the dictionary itself (C79_direct_partial).

### C80 -- raw.pdf can be read again
Modelled and proved: SpecRaw says which strings, names, objects and streams stand for themselves (`printable`, `plain_stream`) and what reading again means: some offset in raw.pdf from which, with any cross-reference table pointing there, `GetObject` gives the same object up to the order of dictionary entries. Proved from the text of raw.pdf (C55), a lemma that the printed text of a printable object denotes it in the grammar of SpecObj (`written_denotes`), and the theorems about `GetObject` on such text. Refuted by two witness documents.
Status: **partial**.  Theorems (PropRaw.v): `C80_string_refuted`, `C80_stream_refuted`, `C80_raw_partial`.  Print Assumptions: closed under the global context for each.
Refuted: strings and names are printed without escapes, and streams are printed decoded while the dictionary keeps its Filter entry. Proved for objects that need no escapes and streams without filters.

### C81 -- Documents without cross-reference data are read in full
Modelled and proved: SpecRecover describes objects in a file by their text (`object_at`) and says that markers occur only where they start (`only_at`). The scan (C22) then finds just these, `marker_entry` gives their entries, the repair (C23) puts them all into the table, and the theorems about `GetObject` on text give the objects. Refuted by a document with the text of a marker in a string.
Status: **partial**.  Theorems (PropRaw.v): `C81_recovery_refuted`, `C81_recovery_partial`.  Print Assumptions: closed under the global context for each.
Refuted: text in strings or streams that looks like the start of an object hides the object of that number. Proved if nothing else looks like the start of an object and the heads of the objects fit the read buffer.

### C82 -- Documents are read as their newest cross-reference sections say
Modelled and proved: Composes the parts: `last_start` (C25) and `chain` (SpecXref, C19-C21) describe the sections as text, `object_at`, `header_at` and `only_at` (SpecRecover) the objects. DocP shows that loading sections leaves the security handler alone, that the chain behind startxref is loaded last and so overrides all sections found by the search for the keyword xref, that the repair (C23) keeps type and generation and puts the offset where the table or the last marker is, and that the object there is then fetched. LoadMonoP proves that a result of `load` does not depend on the amount of fuel. Refuted by a document with a correct table and the text of a marker in a string: the repair condition `ok || n != object_number` replaces correct offsets.
Status: **partial**.  Theorems (PropDoc.v): `C82_sections_refuted`, `C82_sections_partial`.  Print Assumptions: closed under the global context for each.
Refuted: correct offsets in the table are replaced by those of the search for object markers, which also finds text in strings, so the object is not found. Proved if all texts that look like the start of an object are known and none of the same number follows the object.

### C83 -- Encrypted documents are decrypted
Modelled and proved: SpecCryptDoc describes an encrypted object as text: the written object is the meant one with all strings encrypted (`sealed`), the stream data is the encrypted data before the filters (`sealed_behind`); the method (`Clear`, `Rc4` or `Aes`, `hidden`) is the one the crypt filters of the document prescribe for strings, streams, embedded files, or the stream by name (`scheme_of`, `stream_method`); the encryption dictionary and its entries are given as direct objects (`encryption`, `handler`). The proof composes C82 (where objects are), the exemption of the encryption dictionary (C42), acceptance of the user password and the handler then installed (C40), RC4 (C37) and fetching with decryption (C33, C42). The examples are a complete document with an encryption dictionary of its own, a string and a filtered stream, and one with several crypt filters where the stream names its own. Refuted for AES and for the default of StmF, StrF and EEF by complete documents (CryptFilterEx).
Status: **partial**.  Theorems (PropDoc.v): `C83_aes_refuted`, `C83_default_refuted`, `C83_rc4_partial`.  Print Assumptions: closed under the global context for each.
C83_aes_refuted: with AES the initialisation vector and padding are left in the data; C83_default_refuted: without StmF, StrF or EEF the data is taken to be encrypted with RC4. Proved (C83_rc4_partial) for all documents whose data is encrypted with RC4 or not at all, with V 1, 2 and 4 and any crypt filters, under the conditions of C82. Missing: revision 2 with key lengths other than 5 bytes (C39_key_length_refuted), indirect entries of the encryption dictionary.

### C84 -- contents.txt holds only text of the pages
Modelled and proved: SpecContents defines the pages under a dictionary, their content streams and, with the relations of C73, the text of a dictionary. ContentsP follows the extraction: the other parts write nothing to contents.txt, the page tree walk only visits the root and reachable pages (TreeP), and what is written for a stream is, by completeness (C73) and independence of fuel, its lines whenever it has any. Runs that do not end normally are not covered.
Status: **proved**.  Theorems (PropContents.v): `C84_text_sound`, `C84_lines_sound`.  Print Assumptions: closed under the global context for each.
For runs that return without error. Streams that are not well formed (unbalanced brackets, two strings in a row inside TJ, fonts with ranges) may write any text; that it is from a content stream of a page holds for them too.

### C85 -- The order of map iteration does not matter
Modelled and proved: Iteration over maps is an oracle (`order`) in the model. SpecOrder says when two lists of writes are the same up to order (`same_writes`: a permutation, then equal writes or texts of the same object by `written_object`). OrderP relates two runs from parser states that agree up to the reader's position and log and have the same table as a finite map (`corr`); every getter, the tree walks, page text and `extract` give related results in related states, because fetching an object starts with a seek (C58), and sequences of independent steps commute (`xseq_perm`). `load_same` shows that repair in different orders gives the same table. Refuted by a section with an offset of 2^64-1, which is -1 as int64: the failed Seek is ignored and reading goes on from wherever the last read ended.
Status: **partial**.  Theorems (PropOrder.v): `C85_order_refuted`, `C85_order_partial`, `C85_files_partial`, `C85_messages_partial`.  Print Assumptions: closed under the global context for each.
Refuted: for an object whose cross-reference entry has an offset of 2^63 or more, what is read depends on the object read before, so on the order of iteration. Proved if the cross-reference sections give no negative offset.

### C86 -- Every text is read as one grammar says, with exactly the messages due
Modelled and proved: SpecTolerant is an inductive grammar for all byte strings: strings, hexadecimal strings, names and numbers with every kind of fault, then items, array bodies and dictionary bodies by mutual induction, each with its messages. TolerantP proves that every text has a derivation (by induction on its length), that every derivation is what the plain reader computes (mutual induction), hence uniqueness, and carries both over to ReadObject. The grammar is parametrised by the values of number tokens; the theorem states that some such function works that is exact on integers up to 2^53.
Status: **proved**.  Theorems (PropTolerant.v): `C86_every_text`.  Print Assumptions: closed under the global context for each.
The grammar also records what is not reported: a stray closing delimiter inside an array or dictionary counts as null, an escape cut off at the end of the file in a name and a number token without digits give no message.

### C87 -- errors.txt lists what the objects in use call for
Modelled and proved: Errors.v models errors.txt as the logged messages of the main parser, one line each. SpecErrors says which text follows an object header (complete, incomplete, or cut off by the end of the file), which messages are due there (grammar of C86) and what a complete account of a table is. AlongP proves once, for any preorder on parser states, that everything below extraction goes along it if fetching does. ErrorsP shows by induction on fuel that fetching only adds messages that are due, that fetching an object in use adds its own messages first, and puts the blocks together; uniqueness of the grammar and of headers then gives that nothing is missing and, for objects in good order, nothing is added. For a negative offset in the table the place of the object is left open (C85).
Status: **proved**.  Theorems (PropErrors.v): `C87_accounted`, `C87_reported`, `C87_clean`.  Print Assumptions: closed under the global context for each.
For runs that return without error; messages logged while loading (repair reads dictionaries) come before and are not broken down. A fault is listed once for each time its object is read.

### C88 -- Unclosed streams are reported
Modelled and proved: Refuted by a file that ends right behind the line of the keyword: ReadStream then reads no bytes and returns without a message. Partial: if there is data, the loop runs to the end of the file however the first nine bytes are split between reads (loop_unclosed), and the account of C87 carries the message to errors.txt.
Status: **partial**.  Theorems (PropErrors.v): `C88_unclosed_refuted`, `C88_unclosed_partial`.  Print Assumptions: closed under the global context for each.
Refuted when no data follows the keyword's line, or the line does not end. Proved when there is a byte of data.

### C89 -- Parse returns
Modelled and proved: Refuted by the stream that is its own filter (C15): loading ends, but fetching it in the loop of Parse never does. Partial: each step of the extraction is shown to end from a state that differs from the loaded one only in the reader's position and messages (TotalP: runs, total, knows), using C45, C46, C47 for character maps, page trees and name trees; then the same with C15's ranks instead of the hypothesis that references can be followed, and for files without streams with no hypothesis on references.
Status: **partial**.  Theorems (PropTotal.v): `C89_parse_returns_refuted`, `C89_parse_returns_partial`, `C89_ranked_partial`, `C89_streamless_partial`.  Print Assumptions: closed under the global context for each.
Refuted for a stream that is its own filter. Proved for loaded documents whose references can be followed (or whose streams are not reached from themselves), whose name trees satisfy C47's condition and whose character maps satisfy C45's; and for files without streams. Missing: documents that fail to load or panic.

### C90 -- What a writer writes is read back
Modelled and proved: SpecWrite.v gives a writer (numbers, hexadecimal strings, names with #-escapes, arrays, dictionaries, streams as they are, or in ASCIIHex if the data has an endstream, an xref or an obj or ends with CR; table with one subsection per object, trailer, startxref) and the documents it can write (`good_document`: integers up to 2^53, the three keywords, distinct keys, no "xref" in names, no cross-reference streams, stream dictionaries up to 4000 bytes, no Prev or Encrypt in the trailer). WriteP.v shows that the text of an object is the canonical syntax of SpecObj for it, WriteDocP.v where the objects lie and that nothing else looks like "obj" or "xref" (except startxref), WriteLoadP.v what Load makes of it: the scan for objects, the two xref sections found by searching (the table and the end of startxref), the repair. The chunk boundary defect C36 is avoided by the writer (`w_break`).
Status: **proved**.  Theorems (PropWrite.v): `C90_round_trip`.  Print Assumptions: closed under the global context for each.
For the writer of SpecWrite.v. The stream dictionary read back has the entry Filter that the writer adds (as_written).

### C91 -- A written document is put out whole and without messages
Modelled and proved: From C90 and the theorem about raw.pdf (C55's `raw_of`) with the uniqueness of fetched objects; messages: reading an object at a well-formed place logs nothing (`fetch_silent`), lifted over the whole extraction with the relation `hushed` (AlongP).
Status: **proved**.  Theorems (PropWrite.v): `C91_raw`, `C91_no_errors`, `C91_silent`.  Print Assumptions: closed under the global context for each.
For runs that return without error; C92 says when they do.

### C92 -- Parse returns for every written document
Modelled and proved: Following references in a list of objects is described without the parser (`leads`, SpecFollow.v). Induction on the number of objects not yet seen shows that resolving ends at an object `leads` describes or at null; then C89's theorem applies, as every dictionary met lies in an object of the list.
Status: **proved**.  Theorems (PropWrite.v): `C92_returns`.  Print Assumptions: closed under the global context for each.
The two conditions are those of C47 and C45, where the unconditional claims are refuted. The output files must be creatable.

### C93 -- Only trailers count as trailers
Modelled and proved: Refuted by an updated document: Load searches for "xref" and also finds the end of the old startxref; the table reader gives up at "obj" of the next object, whose dictionary is then taken for a trailer. Partial: each offset that Load tries is shown to be a chain of sections (chain_loaded, C19) or the end of the last startxref, which leaves everything unchanged (start_step); the invariant that all trailer entries are from trailer dictionaries is carried through load_all. C93_updates_partial carries the same invariant with a second source, the dictionary of the object behind an older startxref (old_start, old_step); written documents with updates meet its conditions (updates_settled).
Status: **partial**.  Theorems (PropTrailer.v): `C93_trailer_refuted`, `C93_trailer_partial`, `C93_updates_partial`.  Print Assumptions: closed under the global context for each.
Refuted: the dictionary of the object behind an old startxref is merged into the trailer; with an entry Encrypt there an unencrypted document is refused. Proved if xref occurs only at sections and in the last startxref and the objects found are well formed. For documents with updates C93_updates_partial shows that the only other source is the object behind an older startxref.

### C94 -- Encrypted documents are not given out without the password
Modelled and proved: Load up to the password check is described by load_before (C82); gate shows that the encryption dictionary the sections name is the one SetPassword resolves, directly or through a reference (fetch_object); the answers then are those of C40 (password_rejected, password_unsupported), for any sufficient fuel by monotonicity. parse_refused: Parse hands the error on before extraction starts, so no write or dump is among its operations.
Status: **proved**.  Theorems (PropLocked.v): `C94_password`, `C94_unknown`.  Print Assumptions: closed under the global context for each.
Messages in errors.txt from loading the cross-reference data are not counted as output. Documents with a U entry that is too short are C40_short_u_refuted.

### C95 -- A document with updates is read as its newest revisions say
Modelled and proved: SpecUpdate.v gives the writer for updates (objects, a table with one subsection per freed number and per object, a trailer with Prev, startxref) on top of SpecWrite.v, and what the document then says: `living` (the objects, by filtering out what each update touches) and `current_key`. UpdateP.v: where the revisions lie, that "obj" only occurs at their objects, that each object is well formed where it lies. UpdateLoadP.v: the text of each table, reading the chain from any table down to the first (induction from the right, with explicit fuel), that "xref" only occurs at tables and in the startxrefs, and what is read at a startxref (StrayP.v: nothing, or the dictionary of the first object of the next update, C93). UpdateFindP.v: the invariant through load_all, the relation between the newest entries and `living`, the repair changes nothing. UpdateOutP.v: the theorems.
Status: **proved**.  Theorems (PropUpdate.v): `C95_updates`, `C95_single`.  Print Assumptions: closed under the global context for each.
For the writer of SpecUpdate.v. The entry Prev of the trailer is not described. The first object of an update must not have Prev or Encrypt in its dictionary, because Load takes it for a trailer (C93).

### C96 -- An updated document is put out as its newest revisions say
Modelled and proved: From C95 as C91 and C92 from C90 (UpdateOutP.v, section Found: everything follows from where the entries in use lead).
Status: **proved**.  Theorems (PropUpdate.v): `C96_raw`, `C96_no_errors`, `C96_returns`.  Print Assumptions: closed under the global context for each.
C96_raw and C96_no_errors are for runs that return without error; C96_returns says when they do.

### C97 -- An encrypted document is read back with the user password and refused with any other
Modelled and proved: SpecSeal.v says what it means that objects are encrypted for a document; the text is that of w_document (C90) for the encrypted objects. WriteLoadP.v gives the state before the password is set (document_before); the password is accepted or refused by SecurityP.v; each object is then the one of C83, read where the table says (SealP.v).
Status: **proved**.  Theorems (PropSeal.v): `C97_sealed`, `C97_locked`.  Print Assumptions: closed under the global context for each.
AES and the default crypt filters are left out, as C83 shows that the code gets them wrong.

### C98 -- An encrypted document is put out decrypted
Modelled and proved: From C97 as C91 and C92 from C90 (SealP.v with sections Held and Silent of WriteOutP.v and Run of WriteRunP.v).
Status: **proved**.  Theorems (PropSeal.v): `C98_raw`, `C98_no_errors`, `C98_returns`.  Print Assumptions: closed under the global context for each.
C98_raw and C98_no_errors are for runs that return without error; C98_returns says when they do.

### C99 -- The output files hold what the document says, counted
Modelled and proved: SpecExact: for each dictionary the list of its scripts, addresses, files and lines of text, with multiplicity; the dictionaries of a list of objects. ExactP: each component, run on any state of the document, writes to the file in question a permutation of that list (gives; rules for sequencing, known entries, permuted maps, name tree loops) and the other components write nothing there (all_say); then induction over nested dictionaries and over the objects in use, whatever their order.
Status: **proved**.  Theorems (PropExact.v): `C99_scripts`, `C99_urls`, `C99_files`, `C99_text`, `C99_one_text`.  Print Assumptions: closed under the global context for each.
For runs that return without error (C92, C96 and C98 say when they do). commands.txt is left out: C54 and C63 show what is wrong with it. Quirks of the code that other properties refute (URLs given as names, C68; forms that are references to arrays, C79) are in the specification as the code treats them.

### C100 -- What Parse puts out for a list of objects is a function of the list
Modelled and proved: SpecList.v: documents as lists of objects, following references in them (as a relation, `follows`, and as a function, `followed`), and functions for the scripts, addresses, files and pages of a list. ListP.v: in a file in which exactly the objects of the list are in use and are fetched as they are in the list, references resolve as in the list and the functions meet the relations of SpecExact.v; with C90, C95, C97, C101, C109 and C111 to C113 such files are those written, updated, encrypted, and written with cross-reference streams, in clear or encrypted, with updates or without, and C99 gives the output. ListRunP.v: Parse returns, raw.pdf and errors.txt.
Status: **proved**.  Theorems (PropList.v): `C100_scripts`, `C100_urls`, `C100_files`, `C100_text`, `C100_references`, `C100_followed`, `C100_returns`, `C100_raw`, `C100_no_errors`.  Print Assumptions: closed under the global context for each.
For runs that return without error (C100_returns says when they do); commands.txt is left out as in C99. The functions give no list (None) for trees deeper than the given k, for name trees that reach an object twice and for those with a key but no value at the end.

### C101 -- Documents with a cross-reference stream are read back as they were written
Modelled and proved: SpecXWrite.v gives the documents (`good_xdocument`: objects as in C90, a last object whose dictionary has Type /XRef, no Prev and no Encrypt, and whose decoded data, in the sense of C33 and the record grammar of SpecXref.v, has the objects at their offsets and no others) and a writer for them (`w_xstream`). XWriteP.v: the scan finds exactly the objects; the search for xref finds only the one in startxref, which leads to the stream; the stream's own entry is put at the offset behind its header first and is put right by the repair step. XOutP.v: what is fetched and put out. XPutP.v: the writer's streams meet `good_xdocument`.
Status: **proved**.  Theorems (PropXWrite.v): `C101_round_trip`, `C101_raw`, `C101_no_errors`, `C101_written`.  Print Assumptions: closed under the global context for each.
One cross-reference stream and no Prev; entries of type 2 (compressed objects) are not in use for the parser. The dictionary of the stream must fit into the read buffer (C34).

### C102 -- commands.txt holds exactly the commands of the document
Modelled and proved: SpecCommand.v says which file specifications are commands (`commands`, for the dictionaries of the document as in C99; `doc_commands`, a function of a list of objects as in C100). CommandP.v uses the counting argument of ExactP.v (`gives`, `exact_run`) with the view of commands.txt; the function is shown to meet the relation as in ListP.v. With C99 and C100 every output file is now described line by line.
Status: **proved**.  Theorems (PropCommand.v): `C102_commands`, `C102_list`.  Print Assumptions: closed under the global context for each.
Which file specifications count as commands is stated as the code has it; C54 and C63 show where this differs from what the output should be (plain strings are left out, parameters outside of launch actions are reported).

### C103 -- Literal strings with line ends and large octal codes have the standard's value
Modelled and proved: SpecLines.v has the standard's grammar with its values (`std_body`) and the relation `near` between a value and the one that is read. LinesP.v shows by induction over the grammar that the plain lexer (Plain.v, shown equal to ReadString in LexerP.v) reads a near value; refuted by a two-line string and by \501; texts without either are read as in C03.
Status: **partial**.  Theorems (PropLines.v): `C103_lines_refuted`, `C103_octal_refuted`, `C103_strings_partial`.  Print Assumptions: closed under the global context for each.
Refuted: line ends are not normalised and octal codes above 255 give two characters (with the message InvalidOctal). Partial: these are the only differences, for every text of the standard's grammar.

### C104 -- Objects kept in object streams are fetched
Modelled and proved: SpecPacked.v has the format of object streams (ISO 32000-1, 7.5.7) on top of `obj_text` (`packed`), and what an entry of type 2 stands for (`compressed`). The code never looks at such entries: refuted by a document with a cross-reference stream and one object stream (PackedEx.v); PackedP.v shows that every such number gives null and, from C55 and C58, that the stream's decoded contents are in raw.pdf.
Status: **partial**.  Theorems (PropPacked.v): `C104_compressed_refuted`, `C104_always_null`, `C104_printed_partial`.  Print Assumptions: closed under the global context for each.
Refuted: an open action with a script, kept in an object stream, is fetched as null and javascript.js stays empty. C104_always_null: so for every compressed object. Partial: the text of every such object is in raw.pdf inside the printed stream.

### C105 -- Ranges of a character map may list their values
Modelled and proved: SpecCMap.v has character maps whose ranges may list values (`wcmap_text`), what they say (`wmapped`) and what is left of a section that has a list (`before`). CMapListP.v follows NewFont over the sections: ReadHexString gives an empty string at `[`, which ends the loop; the commands behind it are read as usual. Refuted by a section with a list and a line behind it.
Status: **partial**.  Theorems (PropCMap.v): `C105_lists_refuted`, `C105_lists_partial`.  Print Assumptions: closed under the global context for each.
Refuted: the first array of values ends its section. Partial: what stands in front of it and all other sections are read, and the width is that of the last code listed.

### C106 -- The text of a page includes that of the forms it paints
Modelled and proved: SpecForm.v extends the text relation by the operator Do (`painted`), which stands for the form's stream with the form's resources, recursively. With forms that give no lines the relation implies `text` (FormP.v, induction), so C73 applies; refuted by a page that paints a form with text (FormEx.v).
Status: **partial**.  Theorems (PropForm.v): `C106_forms_refuted`, `C106_forms_partial`.  Print Assumptions: closed under the global context for each.
Refuted: a page whose content is a form with text. Partial: pages whose forms show no text.

### C107 -- The data of inline images is not taken for operators
Modelled and proved: SpecForm.v: content streams with images in between (`shown`), whose data is unrestricted apart from not holding EI as a word. With data that is a sequence of objects without BT and TJ, the whole stream is a sequence of objects whose text is the same (FormP.v: `shown_lines`), so C73 applies; refuted by data with an opening parenthesis.
Status: **partial**.  Theorems (PropForm.v): `C107_images_refuted`, `C107_images_partial`.  Print Assumptions: closed under the global context for each.
Refuted: an image with a parenthesis in its data hides the text behind it. Partial: data that is a sequence of objects without BT and TJ.

### C108 -- All text of a page is written in one encoding
Modelled and proved: SpecForm.v: UTF-16BE strings (`utf16`), UTF-8 (`utf8`), and fonts with readable values (`readable_font`). Refuted by a document with one font (FormEx.v). The rest from C73 and `text_same` (RestP.v).
Status: **partial**.  Theorems (PropForm.v, PropRest.v): `C108_encoding_refuted`, `C108_unmapped_partial`.  Print Assumptions: closed under the global context for each.
Refuted: the code 1 mapped to <0041> is written as the bytes 00 41. Proved for fonts that map no code (C108_unmapped_partial); C73 says what is written for the others.

### C109 -- Encrypted documents with a cross-reference stream are read back with the user password
Modelled and proved: SpecXSeal.v: the documents of SpecSeal.v with the layout of SpecXWrite.v; the stream's dictionary takes the part of the trailer. XSealP.v proves loading and reading for a file with the encrypted objects at known places and further objects that the table has as not encrypted (`general_both`), and applies it to the state that XWriteP.v (`x_first`) gives for the first part of Load. `xsealed_written` is the writer. SpecList.v has these documents as a further case of `stored`.
Status: **proved**.  Theorems (PropXSeal.v): `C109_sealed`, `C109_locked`, `C109_raw`, `C109_no_errors`, `C109_written`.  Print Assumptions: closed under the global context for each.
As in C97 and C101: RC4 and Identity schemes, one cross-reference stream and no Prev.

### C110 -- A document encrypted with an owner password opens with the owner password
Modelled and proved: SpecOwner.v: Algorithm 3 of ISO 32000-1 as a relation (`owner_key`, `owner_block`, `owner_password`). OwnerP.v: RC4 under one key and under the 20 keys of revision 3 is injective, so the block recovered from O is the padded user password; padding it again changes nothing (`key_padded`), so the document is sealed under it too and C97 applies. Refuted by a document of one object (OwnerEx.v): its owner password is not a user password, so C97 says that it is refused.
Status: **partial**.  Theorems (PropOwner.v): `C110_owner_refuted`, `C110_same_partial`, `C110_block_partial`.  Print Assumptions: closed under the global context for each.
Refuted: a document of 128-bit RC4 (revision 3) with the owner password owner is refused with every amount of fuel, since the code takes every password for a user password. Proved: it opens if the owner password, padded, is the user password, and with the block that Algorithm 7 makes of O, given as the password.

### C111 -- Documents with incremental updates that have cross-reference streams are read back
Modelled and proved: SpecXUpdate.v gives the documents (`good_xupdates`: for each revision good objects, a stream whose decoded records have the objects at their offsets, the freed numbers as free and no others, and the offset of the stream before as Prev) and what they say, `xliving` and `xkey`, by `living` and `current_key` of SpecUpdate.v; and a writer for any list of updates (`p_updates`, one index pair per number). XUpdateP.v: where the revisions lie and that object headers only occur there. XUpdateLoadP.v: reading one stream (`m_step`), the chain from any stream down to the first (`m_chain`, induction from the right), and what is read at the `xref` of each startxref. XUpdateFindP.v: the newest entries are those of the living objects, the invariant through load_all, the entries of the streams, which first lie behind their headers, are put right by the repair step. XUpdateOutP.v: what is fetched and reported; the rest comes from the list theorems of C100, for which these documents are a further case of `stored`. XUPutP.v: the writer's documents meet `lay_xupdates` and, if they are not encrypted, `good_xupdates`.
Status: **proved**.  Theorems (PropXUpdate.v): `C111_updates`, `C111_raw`, `C111_no_errors`, `C111_returns`, `C111_written`, `C111_trailer`.  Print Assumptions: closed under the global context for each.
As in C95 and C101: the first object of an update must not have Prev or Encrypt in its dictionary, because Load takes it for a trailer (C93), so each update behind the first has an object; the dictionary of each stream must fit into the read buffer (C34). All revisions have streams; files that have tables in one revision and streams in another are not covered.

### C112 -- Encrypted documents with incremental updates are read back with the user password
Modelled and proved: SpecUSeal.v: updates of SpecUpdate.v (laid out as `lay_updates` says, which asks nothing about filters) whose objects are those of the given updates encrypted as in SpecSeal.v. UpdateFindP.v gives the state after the first part of Load (`updates_first`) for all such files; USealP.v shows that encryption and `living` commute (`sealed_living`) and applies `general_both` of XSealP.v. SpecList.v has these documents as a further case of `stored`.
Status: **proved**.  Theorems (PropUSeal.v): `C112_updates`, `C112_locked`, `C112_raw`, `C112_no_errors`, `C112_returns`.  Print Assumptions: closed under the global context for each.
As in C95 and C97: RC4 and Identity schemes; the first object of an update must not have Prev or Encrypt in its dictionary (C93).

### C113 -- Encrypted documents with incremental updates that have cross-reference streams are read back with the user password
Modelled and proved: SpecXUSeal.v: updates of SpecXUpdate.v (`lay_xupdates`) whose objects are the given ones encrypted, with their streams in clear (`clear_updates`). XUpdateFindP.v gives the state after the first part of Load (`xupdates_first`), with the encryption flag of every entry. XUSealP.v relates the current clear objects with the places that the table has (`spot_of`), splits them into encrypted objects and streams (`spots_apart`) and applies `general_both` of XSealP.v. SpecList.v has these documents as a further case of `stored`.
Status: **proved**.  Theorems (PropXUSeal.v): `C113_updates`, `C113_locked`, `C113_raw`, `C113_no_errors`, `C113_returns`, `C113_written`.  Print Assumptions: closed under the global context for each.
As in C97 and C111: RC4 and Identity schemes; the first object of an update must not have Prev or Encrypt in its dictionary (C93); all revisions have streams.

### C114 -- Wrong offsets and bytes in front of the document do not change what is read
Modelled and proved: SpecWrong.v: documents written with any bytes in front, any table and any startxref offset (`w_wrong`), the same bytes behind others (`w_behind`), and when a recorded offset misleads (`harmless`: there is an object header there, or the number there is another one). WrongP.v: the scan finds every object at its right place whatever the table has; the section at startxref adds nothing; repair replaces exactly the harmless offsets (`wr_loaded`), and the loaded state is that of C90. For 3, 5 and 6 bytes in front every recorded offset leads into the end of the object before or into the version line, where no number stands (`few_wrong`). WrongRunP.v: Parse returns. Refuted by two documents in WrongEx.v.
Status: **partial**.  Theorems (PropWrong.v): `C114_front_refuted`, `C114_trailer_refuted`, `C114_offsets_partial`, `C114_front_partial`, `C114_mark_partial`, `C114_raw_partial`, `C114_no_errors_partial`, `C114_returns_partial`.  Print Assumptions: closed under the global context for each.
Refuted by two documents: HTTP headers in front of a document so that the recorded offset of object 2 leads to a 2 inside of a string (C114_front_refuted), and 7 bytes in front so that startxref leads to the last object, whose dictionary gets into the trailer (C114_trailer_refuted). The partial theorems hold for every table of wrong or missing offsets under the condition that an offset is harmless, and for 3, 5 or 6 bytes in front without a condition.

### C115 -- Bytes behind the end of a document do not change what is read
Modelled and proved: SpecWrong.v: `w_before` and `quiet_end`. WrongP.v: such a document is one of C114 whose offsets are all right (`before_wrong`); `quiet_step`: the table that begins in startxref has no lines and no trailer; `wr_start`: startxref gives the number of the document or, too far from the end, none. ListRunP.v, WrongRunP.v: output, messages and return. Refuted by two documents in WrongEx.v.
Status: **partial**.  Theorems (PropWrong.v): `C115_number_refuted`, `C115_trailer_refuted`, `C115_behind_partial`, `C115_raw_partial`, `C115_no_errors_partial`, `C115_returns_partial`.  Print Assumptions: closed under the global context for each.
Refuted by two documents: 1 9 0 n behind the end makes a second copy of object 1 under a number that no object has (C115_number_refuted); a dictionary with Encrypt behind the end makes Load refuse the document (C115_trailer_refuted). The partial theorems hold for all bytes behind the end that do not begin with a number and have no obj, xref and <<.

### C116 -- A run that fails leaves the output directory as it was
Modelled and proved: SpecDisk.v: the directory as a map from names to contents, and what each operation of Parse does to it (`step`, `after`). DiskP.v: the first operation empties it (`start_clears`), a refused document writes nothing (`refused_silent`). Refuted by the document of C83 (DiskEx.v).
Status: **partial**.  Theorems (PropDisk.v): `C116_kept_refuted`, `C116_missing_partial`, `C116_lost_partial`.  Print Assumptions: closed under the global context for each.
Refuted by the encrypted document of C83 with a wrong password and -f. Proved: kept if and only if the input file cannot be opened; otherwise only empty files remain.

### C117 -- After a run the output directory has the output of this run and nothing else
Modelled and proved: SpecDisk.v as for C116, `last_dump`. DiskP.v: `start_created`, `after_fixed` (an output file has what was appended to it) and `after_dump` (every other name has what was dumped last), by induction over the operations; names of dumped files are hashes by C57, which no output file has as its name.
Status: **proved**.  Theorems (PropDisk.v): `C117_directory`, `C117_fresh`.  Print Assumptions: closed under the global context for each.
Writing to a file that was created is taken to succeed, as in the rest of the model (DESIGN.md, section 3).

### C118 -- A linearized document is read back
Modelled and proved: SpecLinear.v gives the text with its tables, trailers and numbers as parameters and `good_linear`, which says that they fit: the lines of the two tables together are the places of the objects, Prev is the place of the second table. LinearP.v: documents made of any number of parts (objects, table, trailer, startxref) with any tables: where the objects are, that "obj" and "xref" occur nowhere else. LinearLoadP.v: reading each of the four places at which "xref" stands (StrayP.v for the first startxref, as in C95), the invariant through load_all, what the tables together say, the repair changes nothing. LinearOutP.v and ListRunP.v (`st_linear`): the theorems, and those of C100 and C102 for these documents.
Status: **proved**.  Theorems (PropLinear.v): `C118_linear`, `C118_raw`, `C118_no_errors`, `C118_returns`.  Print Assumptions: closed under the global context for each.
For the documents of SpecLinear.v; the entry Prev of the trailer is not described. The offsets in the two tables and in Prev must be right; wrong ones are in C114. The first object behind the first table must not have Prev or Encrypt in its dictionary, because Load takes it for a trailer (C93).

### C119 -- The stream of a hybrid-reference file completes its table
Modelled and proved: SpecHybrid.v: a table and the stream its XRefStm leads to (`hybrid`), and which of them has the entry (`hybrid_entry`). Every section that Load reads is one of the two (`only_these`); reading any but the stream leaves the entry of an object the table does not list alone (`site_all`), and the search finds the stream (`stream_found`). Refuted by a file with a hidden object (HybridEx.v).
Status: **partial**.  Theorems (PropHybrid.v): `C119_hidden_refuted`, `C119_hybrid_partial`.  Print Assumptions: closed under the global context for each.
Refuted: an object that the table marks as free and the stream has is null. Proved for objects that the table does not mark as free (C119_hybrid_partial).

### C120 -- A second run on raw.pdf yields the same objects
Modelled and proved: SpecAgain.v: the objects that stay the same (`again`: printable as in SpecRaw, the printed text and the stream data without "obj" and "xref", no cross-reference stream), and the text of a list of objects (`prints`). In such a text "obj" is either the end of a header or of "endobj" (`raw_obj`), so that objects start only where one was printed (`raw_only`); each denotes the same object (`raw_object`, by `written_denotes` of C80). The theorem about files without cross-reference data (C81) then gives Load, and `held_out` what the second run prints. Refuted by an encoded stream (AgainEx.v).
Status: **partial**.  Theorems (PropAgain.v): `C120_twice_refuted`, `C120_again_partial`.  Print Assumptions: closed under the global context for each.
Refuted: a stream with a filter is decoded a second time. Proved for documents whose objects need no escapes and name no filters and in which no text looks like the start of an object or of a table (C120_again_partial).

### C121 -- A reference stands for the object of its number and its generation
Modelled and proved: SpecGen.v: what a reference with number and generation stands for (`meant`, ISO 32000-1, 7.3.10) and the references that are passed in following one (`passes`). By induction over `meant` the objects on the way are a chain in the sense of C14 (`meant_hops`), whose theorem says what Resolve gives. Refuted by a document with an outdated reference (GenEx.v).
Status: **partial**.  Theorems (PropGen.v): `C121_generation_refuted`, `C121_current_partial`.  Print Assumptions: closed under the global context for each.
Refuted: a reference to the deleted generation 0 of an object is followed to generation 1, and its URL is put out. Proved for references with current generations (C121_current_partial).

### C122 -- A stream has the data that Length says
Modelled and proved: SpecLength.v: streams measured by Length (`measured`, ISO 32000-1, 7.3.8), direct or through a reference. Both partial theorems come from one lemma (`marker_read`): with the first marker behind the data and a line end the text is one of `object_at` (C81), which is fetched as it stands (`fetch_object`). Refuted by a run on a document with an embedded file (LengthEx.v).
Status: **partial**.  Theorems (PropLength.v): `C122_length_refuted`, `C122_length_partial`, `C122_cut_partial`.  Print Assumptions: closed under the global context for each.
Refuted: an embedded file of 17 bytes with the word endstream in it is dumped as 4 bytes. Proved for data without the word (C122_length_partial), and what is read otherwise (C122_cut_partial). Missing in both: heads that do not leave 9 bytes in the read buffer (C34).

### C123 -- Filters and parameters of a stream may be given through references
Modelled and proved: SpecIndirect.v: filters, parameters and crypt filter where `value` (SpecLook.v) leads. Each lookup gives its result in every state that differs in position and log only (`gives`, LookP.v), and leaves the reader where it was with a buffer that is as before or starts there (`freshens`, `refreshes`, IndirectP.v); the data is then read by C34's lemma, whose buffer condition holds.
Status: **proved**.  Theorems (PropIndirect.v): `C123_indirect`.  Print Assumptions: closed under the global context for each.
Values inside of parameter dictionaries are direct numbers (as in C33). Streams whose dictionary has neither Filter nor DecodeParms as a reference: C33, C34.

### C124 -- Scripts are written as the characters of their text strings
Modelled and proved: SpecScript.v: the characters of a text string (ISO 32000-1, 7.9.2.2), with UTF-16 and UTF-8 from SpecForm.v. C53 says that the bytes of the script are written; for ASCII they are the UTF-8 of the characters (`ascii_utf8`). Refuted by a run (ScriptEx.v).
Status: **partial**.  Theorems (PropScript.v): `C124_scripts_refuted`, `C124_scripts_partial`.  Print Assumptions: closed under the global context for each.
Refuted: a script in UTF-16BE is written as it stands. Proved for ASCII (C124_scripts_partial). PDFDocEncoding outside of ASCII is not described.

### C125 -- Cut off encoded data is decoded as far as it goes
Modelled and proved: SpecTrunc.v: agreement but for a bounded end. The decoders are unfolded along the data that is there (`ahex_eq`, `rl_eq`, FiltersP.v); the accumulator of ASCII85Decode is split off (`a85_acc`); a PNG row is read in two parts (`png_row_app`), and rows only add to the output (`png_loop_grows`). For the TIFF predictor (TruncTiffP.v) the two runs are followed in lockstep, bit by bit (`bitat`, TiffP.v), up to the sample cut in two; behind the place where the loop stands nothing changes (`passed`).
Status: **proved**.  Theorems (PropTrunc.v): `C125_hex`, `C125_ascii85`, `C125_run_length`, `C125_predictors`, `C125_tiff`.  Print Assumptions: closed under the global context for each.
FlateDecode and LZWDecode are functions of the environment (zlib, lzw) and not covered. C125_tiff: 1 to 16 bits, at least one color and column, fewer than 2^62 bits in a row and 2^58 bytes.

### C126 -- The password counts by its first 32 bytes, and only for encrypted documents
Modelled and proved: Only the padded password enters the key (`pad_password_spec`, SecurityP.v), the monadic steps of SecurityHandler.Init and Load are compared one by one (`bind_agree`, PassP.v), and Parse sees the password through Load only (`parse_by_load`). Without Encrypt in the trailer Load does not come to the password (`load_unused`).
Status: **proved**.  Theorems (PropPass.v): `C126_first_bytes`, `C126_unused`.  Print Assumptions: closed under the global context for each.
C126_unused speaks of the trailer as Load leaves it (which trailers count: C19, C82, C93).

### C127 -- Cut off encrypted data is decrypted as far as it goes
Modelled and proved: SpecTrunc.v. The key stream of a longer text begins with that of the shorter one (`prga_more`, TruncCryptP.v), and so do chained blocks (`cbc_more`). Refuted by a vector and one and a half blocks (TruncCryptEx.v).
Status: **partial**.  Theorems (PropTruncCrypt.v): `C127_rc4`, `C127_aes_refuted`, `C127_inside_partial`, `C127_aes_partial`.  Print Assumptions: closed under the global context for each.
RC4 in full (C127_rc4). AES refuted; proved for cuts between blocks (C127_aes_partial), and what happens otherwise (C127_inside_partial). AES itself is a function of the environment.
