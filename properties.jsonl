{"id": "C01", "title": "Reading an object terminates and makes progress", "statement": "Called at any position of any input, Parser.ReadObject returns after finitely many steps. If it reports ReadError then nothing but whitespace and comments was left; in every other case it has consumed at least one byte, so a caller that loops on ReadObject (ReadArray, ReadDictionary, ReadCommand) always stops.", "quantifier": "every byte sequence, every start position, every nesting depth", "why_tests_cant": "a hang is triggered by one particular byte sequence among infinitely many; tests sample a handful of files", "anchors": ["pdf/parser.go:ReadObject", "pdf/parser.go:ReadArray", "pdf/parser.go:ReadDictionary", "pdf/parser.go:ReadCommand", "pdf/parser.go:consumeWhitespace"]}
{"id": "C02", "title": "Whitespace and comments before a token are insignificant", "statement": "Putting any sequence of PDF whitespace bytes and end-of-line-terminated comments in front of an object does not change the object ReadObject returns, the error it returns, the messages it logs, or what remains to be read afterwards.", "quantifier": "every filler made of whitespace/comments, every following input", "why_tests_cant": "infinitely many fillers and continuations", "anchors": ["pdf/parser.go:consumeWhitespace", "pdf/parser.go:consumeComment", "pdf/parser.go:ReadObject"]}
{"id": "C03", "title": "Literal strings denote the bytes the PDF syntax assigns to them", "statement": "For every string literal built from plain bytes, balanced parentheses, backslash escapes (n r t b f, escaped delimiters, unknown escapes), one-to-three digit octal codes up to 255 and escaped line breaks, ReadString returns exactly the denoted bytes and stops right after the closing parenthesis. In particular every byte string can be written so that it is read back unchanged.", "quantifier": "every literal of the grammar (any length, any nesting of parentheses), every continuation", "why_tests_cant": "unbounded literals and nesting", "anchors": ["pdf/parser.go:ReadString"]}
{"id": "C04", "title": "Hexadecimal strings denote their digit pairs", "statement": "ReadHexString on '<', hex digits of either case interleaved with whitespace, '>' returns the bytes given by consecutive digit pairs, a missing final digit counting as 0, and stops right after '>'. Bytes that are not hex digits are skipped (and logged).", "quantifier": "every digit sequence, every interleaving of whitespace and junk, every continuation", "why_tests_cant": "unbounded inputs", "anchors": ["pdf/parser.go:ReadHexString", "pdf/utility.go:IsHex"]}
{"id": "C05", "title": "Names denote their bytes, #xx escapes included", "statement": "ReadName on '/' followed by regular characters and #xx escapes returns the denoted bytes and stops before the first delimiter or whitespace byte, which is left unread; every byte string can be written as a name that is read back unchanged.", "quantifier": "every name literal, every continuation that starts with a delimiter or whitespace or is empty", "why_tests_cant": "unbounded inputs, 256 possible escaped values in every position", "anchors": ["pdf/parser.go:ReadName"]}
{"id": "C06", "title": "Integer literals are read exactly", "statement": "An optionally signed decimal integer literal of absolute value at most 2^53 is read by ReadNumber / ReadObject as that number, and GetInt / GetInt64 on it return exactly that integer.", "quantifier": "every integer with |n| <= 2^53, every number of leading zeros", "why_tests_cant": "about 2^54 values, each of which goes through several roundings of float64 arithmetic", "anchors": ["pdf/parser.go:ReadNumber", "pdf/dictionary.go:GetInt", "pdf/array.go:GetInt"]}
{"id": "C07", "title": "Real literals have their decimal value", "statement": "A real literal such as 1.25 is read as (the float64 nearest to, or at least within a small tolerance of) its decimal value.", "quantifier": "every decimal literal with a fractional part", "why_tests_cant": "infinitely many literals; the error only appears from the second decimal digit on", "anchors": ["pdf/parser.go:ReadNumber"]}
{"id": "C08", "title": "Written objects are read back", "statement": "For every PDF object tree (integers, names, strings, keywords, references, arrays, dictionaries, nested to any depth) the canonical serialisation of the tree is read by ReadObject as that same tree, nothing is logged, and the reader ends exactly behind it.", "quantifier": "every object tree of any size and depth, every continuation", "why_tests_cant": "infinitely many trees; interaction of number/reference look-ahead with what follows", "anchors": ["pdf/parser.go:ReadObject", "pdf/parser.go:ReadArray", "pdf/parser.go:ReadDictionary"]}
{"id": "C09", "title": "A dictionary maps each key to the last value given for it", "statement": "The dictionary read from a sequence of key/value pairs contains exactly the keys of the sequence, each bound to the last value written for it.", "quantifier": "every sequence of pairs with any repetition of keys", "why_tests_cant": "unbounded sequences and collision patterns", "anchors": ["pdf/parser.go:ReadDictionary"]}
{"id": "C10", "title": "Truncated containers keep what was read", "statement": "If the input ends inside an array or dictionary (at any depth), ReadObject still returns the container with every element / pair that was complete, and an 'unclosed ...' (or 'missing dictionary value') message is logged.", "quantifier": "every object tree, every truncation point between elements", "why_tests_cant": "every truncation point of every document", "anchors": ["pdf/parser.go:ReadArray", "pdf/parser.go:ReadDictionary"]}
{"id": "C11", "title": "errors.txt reports anomalies and only anomalies", "statement": "Reading text in canonical syntax logs nothing; each documented anomaly (invalid escape, unclosed string/hex string/array/dictionary/stream, unnecessary escape, invalid octal, non-name key, ...) causes its message to be logged.", "quantifier": "every well-formed text; every text containing the anomaly", "why_tests_cant": "absence of false positives is a universal statement", "anchors": ["pdf/parser.go:log_error", "pdf/errors.go", "pdf/output.go:Error"]}
{"id": "C12", "title": "Reference look-ahead never consumes foreign input", "statement": "When a number is read and is not followed by an integer and the keyword R, the number is returned and the reader is exactly behind the number; when it is, the reference with that object number and generation is returned and the reader is behind the R.", "quantifier": "every number token and every following input", "why_tests_cant": "all continuations, including ones that end inside the look-ahead", "anchors": ["pdf/parser.go:ReadObject", "pdf/reference.go:NewReference"]}
{"id": "C13", "title": "Looking an object up does not move the reader", "statement": "Reference.Resolve / ResolveStream, and therefore every Dictionary/Array getter, leave the parser's current offset where it was.", "quantifier": "every parser state, file, cross-reference table and reference", "why_tests_cant": "all states and all (recursive) resolution histories", "anchors": ["pdf/reference.go:Resolve", "pdf/reference.go:ResolveStream", "pdf/dictionary.go", "pdf/array.go"]}
{"id": "C14", "title": "Circular references resolve to null", "statement": "If following a reference through objects whose value is again a reference comes back to an object number already visited, Resolve returns the null object; otherwise it returns the first value that is not a reference.", "quantifier": "every reference chain and cycle of any length", "why_tests_cant": "cycles of every length and shape", "anchors": ["pdf/reference.go:resolve"]}
{"id": "C15", "title": "Fetching an object always terminates", "statement": "GetObject (and Resolve) returns for every file and every object number.", "quantifier": "every file, every cross-reference table, every object number", "why_tests_cant": "a single malicious file suffices to hang or overflow the stack", "anchors": ["pdf/parser.go:GetObject", "pdf/parser.go:ReadStream", "pdf/reference.go"]}
{"id": "C16", "title": "Unknown, free and compressed objects read as null", "statement": "GetObject on a number that has no cross-reference entry, or whose entry is not of type 'in use, uncompressed', returns the object (number, 0, null, no stream) without touching the file position or logging anything.", "quantifier": "every parser state and object number", "why_tests_cant": "all states", "anchors": ["pdf/parser.go:GetObject", "pdf/object.go:NewIndirectObject"]}
{"id": "C17", "title": "Typed getters report exactly what is there", "statement": "For every key/index, GetX returns (v, true) iff the entry exists and, after resolving a reference, is a value v of type X; otherwise the zero value and false. No getter panics for any index, negative or too large.", "quantifier": "every dictionary/array, key/index and type", "why_tests_cant": "all values and indices", "anchors": ["pdf/dictionary.go", "pdf/array.go"]}
{"id": "C18", "title": "Loading cross-reference sections terminates on any Prev chain", "statement": "loadXref visits each file offset at most once per chain, so that loading terminates on circular, self-referencing and arbitrarily long Prev chains (whenever the objects it has to fetch can be fetched).", "quantifier": "every file and every Prev graph", "why_tests_cant": "cycles of all lengths, offsets outside the file, negative offsets", "anchors": ["pdf/parser.go:loadXref", "pdf/parser.go:loadXrefTable", "pdf/parser.go:loadXrefStream"]}
{"id": "C19", "title": "Newer cross-reference sections override older ones", "statement": "After loading a section, each object number the section itself lists maps to the section's own entry, other numbers map to what the Prev chain or the earlier state provides; the same holds for trailer keys.", "quantifier": "every chain of sections", "why_tests_cant": "all chains and all overlap patterns", "anchors": ["pdf/parser.go:loadXrefTable", "pdf/parser.go:loadXrefStream"]}
{"id": "C20", "title": "Cross-reference tables are decoded entry by entry", "statement": "A well-formed table section 'start count' followed by count lines 'offset generation n|f' yields exactly the entries start..start+count-1 with these offsets, generations and in-use flags, for any number of subsections.", "quantifier": "every list of subsections", "why_tests_cant": "unbounded tables", "anchors": ["pdf/parser.go:loadXrefTable"]}
{"id": "C21", "title": "Cross-reference streams are decoded entry by entry", "statement": "For widths W=[t o g] and Index pairs, the entries of a cross-reference stream are the big-endian fields of consecutive records, assigned to consecutive object numbers; decoding stops at the first incomplete record. An Index pair that is not two numbers ends the reading, and so do widths that are not all there; the entries decoded before are kept. Without Index all numbers below Size are meant.", "quantifier": "every stream data, all widths and index arrays", "why_tests_cant": "unbounded data, all widths", "anchors": ["pdf/parser.go:loadXrefStream", "pdf/utility.go:ReadInt64"]}
{"id": "C22", "title": "The object scan finds every object header", "statement": "findObjects records an entry for each 'n g obj' marker found in the file (whitespace or comments between the parts); every recorded offset is the position of such a marker, later markers for the same number replacing earlier ones.", "quantifier": "every file content", "why_tests_cant": "all contents, positions and marker overlaps", "anchors": ["pdf/parser.go:findObjects", "pdf/parser.go:start_obj_regexp"]}
{"id": "C23", "title": "Objects missing from the cross-reference table are recovered", "statement": "After Load every object number found by the object scan has a cross-reference entry; if the table had none the entry is the scanned one, and entries for numbers the scan did not find are left alone.", "quantifier": "every file, every table content, every iteration order of the Go map", "why_tests_cant": "all files and orders", "anchors": ["pdf/parser.go:Load"]}
{"id": "C24", "title": "Wrong cross-reference offsets are repaired and right ones kept", "statement": "In Load's repair step, an entry whose offset does not point to the header of its object is redirected to the scanned position, and an entry whose offset does point to its object's header is left unchanged.", "quantifier": "every file and entry", "why_tests_cant": "all files; the existing test only exercises one case", "anchors": ["pdf/parser.go:Load"]}
{"id": "C25", "title": "The last startxref wins", "statement": "The start offset used by Load is the number in the last 'startxref <n> %%EOF' occurring in the final 256 bytes of the file, and none if there is no such occurrence or the number does not fit in int64.", "quantifier": "every file content", "why_tests_cant": "all contents", "anchors": ["pdf/parser.go:getStartXrefOffset"]}
{"id": "C26", "title": "ASCIIHexDecode inverts hex encoding", "statement": "Decoding any hex encoding of data (either case, whitespace anywhere, optional '>' terminator, anything after it) returns data; an odd final digit is completed with 0.", "quantifier": "every data and every such encoding", "why_tests_cant": "unbounded data", "anchors": ["pdf/filters.go:ASCIIHexDecode"]}
{"id": "C27", "title": "ASCII85Decode inverts ASCII85 encoding (whole groups)", "statement": "For data whose length is a multiple of 4, decoding its ASCII85 encoding (z abbreviation allowed, whitespace anywhere, '~>' or end of data) returns the data.", "quantifier": "every data of length 4k, every placement of whitespace", "why_tests_cant": "2^32 values per group, arithmetic with wrap-around", "anchors": ["pdf/filters.go:ASCII85Decode"]}
{"id": "C28", "title": "ASCII85Decode inverts ASCII85 encoding (final partial group)", "statement": "The same for data whose length is not a multiple of 4, the final group being encoded as the PDF specification prescribes (first n+1 characters of the zero-padded group).", "quantifier": "every data whose length is not a multiple of 4", "why_tests_cant": "only some tails are affected; the test file happens to use a non-standard encoding", "anchors": ["pdf/filters.go:ASCII85Decode"]}
{"id": "C29", "title": "RunLengthDecode inverts run length encoding", "statement": "Decoding any sequence of literal runs (1..128 bytes) and repeat runs (2..128 copies), optionally followed by the EOD byte 128 and anything else, returns the described bytes; truncated input yields the part that is present.", "quantifier": "every run sequence", "why_tests_cant": "unbounded sequences", "anchors": ["pdf/filters.go:RunLengthDecode"]}
{"id": "C30", "title": "PNG predictors are reversed", "statement": "With a PNG predictor (10..15), filtering rows with any choice of per-row PNG filter types and then calling ReversePredictor returns the original rows.", "quantifier": "every image size, every data, every per-row choice of filter", "why_tests_cant": "unbounded data", "anchors": ["pdf/filters.go:ReversePredictor"]}
{"id": "C31", "title": "The TIFF predictor is reversed", "statement": "With Predictor 2, horizontal differencing modulo 2^BitsPerComponent of every row is undone by ReversePredictor, for every BitsPerComponent 1..16, Colors and Columns.", "quantifier": "every geometry and data", "why_tests_cant": "bit-level packing across byte boundaries for all widths", "anchors": ["pdf/filters.go:ReversePredictor", "pdf/utility.go:GetBits", "pdf/utility.go:SetBits"]}
{"id": "C32", "title": "Reversing a predictor never crashes", "statement": "ReversePredictor returns for every data and every decode parameter dictionary.", "quantifier": "every data, all parameter values", "why_tests_cant": "needs adversarial 64-bit parameters", "anchors": ["pdf/filters.go:ReversePredictor", "pdf/utility.go:GetBits"]}
{"id": "C33", "title": "Stream filters are applied in order after decryption", "statement": "The stream returned for an object is the raw data, decrypted, then passed through the listed filters first to last with the decode parameters of the same index; unknown filters and empty data pass unchanged.", "quantifier": "every filter list, parameters and data", "why_tests_cant": "all lists", "anchors": ["pdf/parser.go:ReadStream", "pdf/filters.go:DecodeStream"]}
{"id": "C34", "title": "A stream extends exactly to its endstream marker", "statement": "Data written between 'stream' EOL and EOL 'endstream' that does not itself contain the marker (and does not end in a stray CR) is returned unchanged.", "quantifier": "every data without the marker, every EOL style", "why_tests_cant": "all contents, overlapping prefixes of the marker", "anchors": ["pdf/parser.go:ReadStream"]}
{"id": "C35", "title": "Where a stream ends does not depend on I/O buffering", "statement": "The data ReadStream returns depends only on the bytes of the file, not on how they fall into the read buffer.", "quantifier": "every file, every alignment of the buffer", "why_tests_cant": "needs one specific alignment modulo 4096", "anchors": ["pdf/parser.go:ReadStream"]}
{"id": "C36", "title": "Reading a dictionary does not depend on I/O buffering", "statement": "ReadDictionary / ReadObject return the same result however the bytes of the file fall into the read buffer.", "quantifier": "every file, every alignment of the buffer", "why_tests_cant": "needs one specific alignment modulo 4096", "anchors": ["pdf/parser.go:ReadDictionary", "pdf/parser.go:ReadObject"]}
{"id": "C37", "title": "RC4 decryption inverts RC4 encryption", "statement": "A string or stream encrypted with RC4 under the object key is returned as the plaintext; decryption never changes the length.", "quantifier": "every key, object number, generation and plaintext", "why_tests_cant": "all keys and data", "anchors": ["pdf/encryption.go:DecryptorRC4", "pdf/encryption.go:CryptFilterRC4"]}
{"id": "C38", "title": "AES decryption inverts AES-CBC encryption", "statement": "A string or stream encrypted as the PDF specification prescribes for AESV2 (random IV first, PKCS#5 padding) is returned as the plaintext.", "quantifier": "every key, IV and plaintext", "why_tests_cant": "all keys and data", "anchors": ["pdf/encryption.go:DecryptorAES", "pdf/encryption.go:CryptFilterAES"]}
{"id": "C39", "title": "Keys are derived as the standard security handler prescribes", "statement": "The file key follows Algorithm 2 (password padding, O, P, ID, metadata flag, 50 rehashes from R3) and the object key follows Algorithm 1 (3 bytes of number, 2 of generation, 'sAlT' for AES, min(n+5,16) bytes), for every hash function in the role of MD5.", "quantifier": "every password, dictionary value, number and generation", "why_tests_cant": "all values, wrap-around of the truncated integers", "anchors": ["pdf/encryption.go:computeEncryptionKey", "pdf/encryption.go:NewDecryptor"]}
{"id": "C40", "title": "The password check accepts exactly the user password", "statement": "SetPassword succeeds iff the handler is supported and the U entry equals the value Algorithm 4 (R2) or 5 (R3, R4) computes from the password; on any error no decryption filter is installed.", "quantifier": "every encryption dictionary, trailer and password", "why_tests_cant": "all dictionaries", "anchors": ["pdf/encryption.go:Init", "pdf/parser.go:SetPassword"]}
{"id": "C41", "title": "Opening an encrypted document never crashes", "statement": "SetPassword returns a value or an error for every encryption dictionary.", "quantifier": "every encryption dictionary", "why_tests_cant": "needs adversarial entries (short U, crypt filter Length)", "anchors": ["pdf/encryption.go:Init", "pdf/encryption.go:computeEncryptionKey"]}
{"id": "C42", "title": "The right crypt filter is applied to the right data", "statement": "Strings use the string filter, streams the stream filter, embedded files the file filter, a Crypt filter entry overrides it (default Identity); cross-reference streams and the encryption dictionary are never decrypted.", "quantifier": "every document state", "why_tests_cant": "all combinations", "anchors": ["pdf/parser.go:GetObject", "pdf/parser.go:Load"]}
{"id": "C43", "title": "Text is decoded code by code", "statement": "Font.Decode cuts the input into codes of the font's width, replaces each mapped code by its mapping and copies each unmapped code, dropping an incomplete final code; with the default font it is the identity. It terminates for every font NewFont can build.", "quantifier": "every font and input", "why_tests_cant": "all maps and inputs", "anchors": ["pdf/font.go:Decode", "pdf/font.go:NewFont"]}
{"id": "C44", "title": "Character maps map codes as the CMap says", "statement": "After NewFont, a code listed in a bfchar section maps to its destination and a code start+k of a bfrange section maps to destination+k.", "quantifier": "every CMap", "why_tests_cant": "all maps and ranges", "anchors": ["pdf/font.go:NewFont"]}
{"id": "C45", "title": "Loading a character map terminates", "statement": "NewFont returns for every ToUnicode stream.", "quantifier": "every stream content", "why_tests_cant": "needs a range that ends at the largest int", "anchors": ["pdf/font.go:NewFont"]}
{"id": "C46", "title": "Page tree traversal terminates and visits each page once", "statement": "ResolveKids returns for every (also cyclic) page tree, starts with the root, and visits the target of each indirect kid reference at most once, in document order.", "quantifier": "every page graph", "why_tests_cant": "cycles and sharing of all shapes", "anchors": ["pdf/dictionary.go:ResolveKids", "pdf/dictionary.go:GetPageTree"]}
{"id": "C47", "title": "Name tree traversal terminates", "statement": "GetNameTreeMap returns for every name tree.", "quantifier": "every name tree graph", "why_tests_cant": "needs a specific cyclic shape through an indirect Kids array", "anchors": ["pdf/dictionary.go:getNameTreeMap"]}
{"id": "C48", "title": "Shown text is extracted in order", "statement": "For a content stream, contents.txt receives, in order, one line per Tj, ' and \" operator inside BT..ET, holding the operand decoded with the font selected by the last Tf of that text object (default font otherwise), and nothing else but TJ lines.", "quantifier": "every content stream", "why_tests_cant": "unbounded operator sequences", "anchors": ["pdf/page.go:extract"]}
{"id": "C49", "title": "Positioned text is extracted completely", "statement": "The line written for a TJ operator contains all strings of its operand array, concatenated.", "quantifier": "every TJ array", "why_tests_cant": "only arrays that do not alternate strings and numbers are affected", "anchors": ["pdf/page.go:extract"]}
{"id": "C50", "title": "Only files inside the output directory are written", "statement": "Whatever the document contains, every file created or written is <output directory>/<one of the seven fixed names> or <output directory>/<32 lower-case hex digits>.", "quantifier": "every document, file name and content", "why_tests_cant": "path traversal is a statement about all names", "anchors": ["pdf/output.go:NewOutput", "pdf/output.go:DumpFile"]}
{"id": "C51", "title": "An existing output directory is not destroyed without -f", "statement": "The command line tool touches the output path only if it did not exist or -f was given; and if the input file cannot be opened, nothing is removed or created.", "quantifier": "every file system state and argument list", "why_tests_cant": "all combinations of arguments and file system states", "anchors": ["main.go:main", "pdf/pdf.go:Parse", "pdf/output.go:NewOutput"]}
{"id": "C52", "title": "All output files are closed", "statement": "Output.Close closes every output file that was successfully opened.", "quantifier": "every prefix of successfully opened files", "why_tests_cant": "leaks do not show in output", "anchors": ["pdf/output.go:Close"]}
{"id": "C53", "title": "All URIs and scripts in direct dictionaries are extracted", "statement": "Every URI string and JS string held by a dictionary of an indirect object (nested to any depth in arrays and dictionaries) is written to urls.txt / javascript.js.", "quantifier": "every object tree", "why_tests_cant": "unbounded nesting", "anchors": ["pdf/object.go:extract", "pdf/object.go:Extract"]}
{"id": "C54", "title": "Launch actions are reported in commands.txt", "statement": "For every launch action with a file specification, the command is written to commands.txt.", "quantifier": "every action dictionary", "why_tests_cant": "all shapes of file specifications", "anchors": ["pdf/action.go:Extract", "pdf/file.go:Extract"]}
{"id": "C55", "title": "raw.pdf holds every in-use object exactly once", "statement": "For every iteration order of the cross-reference map, raw.pdf consists of the rendering of each in-use uncompressed object, each exactly once.", "quantifier": "every document, every map iteration order", "why_tests_cant": "all orders", "anchors": ["pdf/pdf.go:Parse", "pdf/object.go:String"]}
{"id": "C56", "title": "The library entry point works without the command line front end", "statement": "pdf.Parse called from another program (as in the README) does not crash.", "quantifier": "every program state in which Verbose was not set", "why_tests_cant": "unit tests never call Parse", "anchors": ["pdf/pdf.go:Parse", "pdf/logger.go:Debug"]}
{"id": "C57", "title": "Manifest lines describe the dumped files", "statement": "DumpFile adds the line 'md5:name' to files.txt and stores the data under the name md5, so each dumped file's name is the hash of its content.", "quantifier": "every name and data", "why_tests_cant": "all data", "anchors": ["pdf/output.go:DumpFile"]}
{"id": "C58", "title": "Fetching an object does not depend on earlier reads", "statement": "GetObject returns the same object whatever was read before, as long as cross-reference table and security handler are the same.", "quantifier": "all reader states and read histories", "why_tests_cant": "all histories", "anchors": ["pdf/parser.go:GetObject", "pdf/parser.go:Seek"]}
{"id": "C59", "title": "Multi-byte integers are big-endian", "statement": "BytesToInt and ReadInt64 return the big-endian value of their bytes whenever it fits in 63 bits (and its 64-bit wrap-around otherwise).", "quantifier": "every byte sequence", "why_tests_cant": "all sequences", "anchors": ["pdf/utility.go:BytesToInt", "pdf/utility.go:ReadInt64"]}
{"id": "C60", "title": "Cross-reference stream fields of width 0 take their defaults", "statement": "With a type field of width 0 the entries of a cross-reference stream are in-use entries (type 1), as the PDF specification prescribes.", "quantifier": "every cross-reference stream with W[0]=0", "why_tests_cant": "no test has a zero type width", "anchors": ["pdf/parser.go:loadXrefStream", "pdf/utility.go:ReadInt64"]}
{"id": "C61", "title": "Names of a finite name tree are collected in order", "statement": "For a name tree whose unfolding from the root is finite, in which no reference is met twice, the collected list is the concatenation of the Names arrays met when walking the tree in order: the Names array of a node first, then those of its Kids in array order. Without a name tree the list is empty.", "quantifier": "every finite name tree, any branching and depth, every parser state from which the nodes can be fetched", "why_tests_cant": "the tests contain no name tree with more than one level", "anchors": ["pdf/dictionary.go:getNameTreeMap", "pdf/dictionary.go:GetNameTreeMap"]}
{"id": "C62", "title": "urls.txt holds only addresses of the document", "statement": "Every line written to urls.txt is an address found in a dictionary of an in-use object: a URI entry, the Base of a URI dictionary, a string of a URLS name tree, or the F entry of a file specification with file system URL that an action or the tree of embedded files refers to. This holds however the run ends.", "quantifier": "every file that loads, every iteration order, every outcome of the run", "why_tests_cant": "soundness over all documents; tests only look at single getters", "anchors": ["pdf/object.go:extract", "pdf/file.go:Extract", "pdf/pdf.go:Parse"]}
{"id": "C63", "title": "commands.txt holds only commands of launch actions", "statement": "Every line written to commands.txt is the command of a launch action of the document.", "quantifier": "every file that loads, every iteration order, every outcome of the run", "why_tests_cant": "soundness over all documents; no test runs extraction", "anchors": ["pdf/action.go:Extract", "pdf/file.go:Extract"]}
{"id": "C64", "title": "javascript.js holds only scripts of the document", "statement": "Every line written to javascript.js is the JS entry of a dictionary of an in-use object: a string, or the decoded stream it refers to.", "quantifier": "every file that loads, every iteration order, every outcome of the run", "why_tests_cant": "soundness over all documents; no test runs extraction", "anchors": ["pdf/object.go:extract"]}
{"id": "C65", "title": "Dumped files and the lines of files.txt come from the document", "statement": "Every dumped file is the content of a form, or of the embedded file of a file specification of the document, named by its MD5 sum; every line of files.txt is about such a file, or has the zero hash and the name of a file outside of the document that an action, a file specification or the tree of embedded files names.", "quantifier": "every file that loads, every iteration order, every outcome of the run", "why_tests_cant": "soundness over all documents; no test runs extraction", "anchors": ["pdf/object.go:extract", "pdf/file.go:Extract", "pdf/action.go:Extract", "pdf/output.go:DumpFile"]}
{"id": "C66", "title": "Embedded files are dumped", "statement": "When Parse succeeds, the embedded file of every file specification of the document has been dumped and listed with its name.", "quantifier": "every document, all name trees of embedded files and all actions, every iteration order", "why_tests_cant": "no test has embedded files", "anchors": ["pdf/file.go:Extract", "pdf/object.go:extract"]}
{"id": "C67", "title": "Forms are dumped", "statement": "When Parse succeeds, the XFA form of every dictionary of the document has been dumped and listed as form.xml: the stream, or the streams of the array one after the other.", "quantifier": "every document, arrays of any length, every iteration order", "why_tests_cant": "no test has forms", "anchors": ["pdf/object.go:extract", "pdf/output.go:DumpFile"]}
{"id": "C68", "title": "Addresses in name trees and file specifications are listed", "statement": "When Parse succeeds, urls.txt has the keys of every URLS name tree and the address of every file specification of file system URL.", "quantifier": "every document, all trees, every iteration order", "why_tests_cant": "no test has name trees or URL file specifications", "anchors": ["pdf/object.go:extract", "pdf/file.go:Extract"]}
{"id": "C69", "title": "Files outside of the document are listed", "statement": "When Parse succeeds, files.txt has a line with the zero hash for every file that an action names directly, that a file specification of an action or of the tree of embedded files names, or that is a plain string in that tree.", "quantifier": "every document, every iteration order", "why_tests_cant": "no test runs extraction", "anchors": ["pdf/action.go:Extract", "pdf/file.go:Extract", "pdf/object.go:extract"]}
{"id": "C70", "title": "Commands of chained launch actions are reported", "statement": "The command of a launch action that is the Next action of an action of the document is in commands.txt. This fails: Next is not looked at. Proved for the scripts and the addresses of chained actions, which are written to javascript.js and urls.txt for chains of any length.", "quantifier": "every document with chained actions", "why_tests_cant": "no test has a chain of actions", "anchors": ["pdf/action.go:Extract", "pdf/object.go:extract"]}
{"id": "C71", "title": "The exit code tells whether the file was parsed", "statement": "The program ends with a code other than 0 if it was called wrongly or if Parse returned an error.", "quantifier": "every way to call the program, every file system", "why_tests_cant": "main has no test", "anchors": ["main.go:main", "main.go:init"]}
{"id": "C72", "title": "files.txt can be read line by line", "statement": "Reading files.txt as lines of a hash, a colon and a name gives exactly the files of the document.", "quantifier": "every document, every file name", "why_tests_cant": "needs names with unusual bytes", "anchors": ["pdf/output.go:DumpFile", "pdf/file.go:Extract"]}
{"id": "C73", "title": "The text of every page is extracted, in the order of the pages", "statement": "When Parse succeeds, contents.txt has in one piece the lines of all pages below a Pages entry, in the order of the page tree: for each page those its content streams show, decoded with the fonts of the page. A page's lines are there too if other pages are malformed.", "quantifier": "every document, every page tree including shared and cyclic ones, every content stream whose fonts map single codes and whose TJ arrays alternate strings and numbers, every iteration order", "why_tests_cant": "no test extracts the text of a page", "anchors": ["pdf/object.go:extract", "pdf/page.go:Extract", "pdf/page.go:extract", "pdf/dictionary.go:ResolveKids", "pdf/font.go:NewFont"]}
{"id": "C74", "title": "A selected font stays selected", "statement": "Text is decoded with the font selected last, also if that was in an earlier text object or outside of any; q saves the font and Q restores it.", "quantifier": "every page, every sequence of operators", "why_tests_cant": "no test has two text objects", "anchors": ["pdf/page.go:extract"]}
{"id": "C75", "title": "The content streams of a page are read as one", "statement": "The text of a page with several content streams is that of the streams joined with white space.", "quantifier": "every page, every division into streams", "why_tests_cant": "no test has a page with several streams", "anchors": ["pdf/page.go:Extract"]}
{"id": "C76", "title": "Pages inherit resources", "statement": "The text of a page is decoded with the fonts of the nearest resource dictionary of the page and the nodes above it.", "quantifier": "every page tree", "why_tests_cant": "no test has a page tree", "anchors": ["pdf/page.go:Extract", "pdf/dictionary.go:ResolveKids"]}
{"id": "C77", "title": "Contents may be an array of streams", "statement": "The text of the streams in the array under Contents is extracted, wherever the array is.", "quantifier": "every page", "why_tests_cant": "no test has a page with an array of streams", "anchors": ["pdf/page.go:Extract", "pdf/dictionary.go:GetStream"]}
{"id": "C78", "title": "Embedded files are dumped also from under UF", "statement": "The stream under UF of the EF dictionary of a file specification is dumped.", "quantifier": "every file specification", "why_tests_cant": "no test has embedded files", "anchors": ["pdf/file.go:Extract"]}
{"id": "C79", "title": "Forms are dumped also where XFA refers to an array", "statement": "The streams in the array under XFA are dumped as form.xml, wherever the array is.", "quantifier": "every document with a form", "why_tests_cant": "no test has forms", "anchors": ["pdf/object.go:extract", "pdf/dictionary.go:GetStream"]}
{"id": "C80", "title": "raw.pdf can be read again", "statement": "Every object printed to raw.pdf can be fetched from raw.pdf at the place where its text is, and is then the same object with the same stream.", "quantifier": "every successful run on every file, every object in use", "why_tests_cant": "the tests never read raw.pdf; the property ties the printer to the reader for all objects at once", "anchors": ["pdf/object.go:String", "pdf/string.go:String", "pdf/name.go:String", "pdf/array.go:String", "pdf/dictionary.go:String"]}
{"id": "C81", "title": "Documents without cross-reference data are read in full", "statement": "In a file without the keyword xref every object is found by its number, with its value and decoded stream, the last one if several have that number, and no other object is found.", "quantifier": "every file without the keyword xref, every list of objects in it", "why_tests_cant": "the tests use a handful of damaged files; the claim is about all layouts of all objects", "anchors": ["pdf/parser.go:Load", "pdf/parser.go:findObjects"]}
{"id": "C82", "title": "Documents are read as their newest cross-reference sections say", "statement": "If startxref names the first of a chain of cross-reference tables or streams, then the object at the offset in the newest entry for its number is what is fetched for that number; objects whose newest entry is not in use are null; every trailer key has its newest value.", "quantifier": "every file whose cross-reference sections are well formed and whose trailer has no Encrypt, every chain of updates, every object", "why_tests_cant": "the tests check a few sample documents; updates, deletions and chains of any length are not covered, nor is what stray text can do", "anchors": ["pdf/parser.go:Load", "pdf/parser.go:loadXref", "pdf/parser.go:GetObject"]}
{"id": "C83", "title": "Encrypted documents are decrypted", "statement": "If a document is encrypted by the standard security handler and is opened with the user password, then no error is reported and every object is fetched with the strings and the stream that were encrypted, from any place in any chain of cross-reference sections; the encryption dictionary itself is not decrypted.", "quantifier": "every document encrypted by the standard security handler (V 1, 2 or 4, any crypt filters), every key length, password, object and stream filter", "why_tests_cant": "tests have one or two encrypted samples; the property composes password check, key derivation, choice of filter and decryption for all of them", "anchors": ["pdf/parser.go:Load", "pdf/encryption.go:Init", "pdf/encryption.go:NewDecryptor", "pdf/parser.go:GetObject"]}
{"id": "C84", "title": "contents.txt holds only text of the pages", "statement": "Every piece of text written to contents.txt is a newline or comes from a content stream of the root or a page below it in the page tree of a dictionary of the document; if that stream and the fonts of the page are well formed, it is one of the lines shown by the stream's text operators, decoded with the page's fonts.", "quantifier": "every successful run on every file", "why_tests_cant": "a test can show that expected text is there, not that nothing else ever is, and the tests run no page extraction", "anchors": ["pdf/page.go:Extract", "pdf/page.go:extract", "pdf/object.go:extract", "pdf/dictionary.go:ResolveKids"]}
{"id": "C85", "title": "The order of map iteration does not matter", "statement": "Two runs on the same file with the same password return the same error, make the same writes to every output file, dump the same files and log the same messages, up to the order of the writes and the order of dictionary entries in raw.pdf, in whatever orders Go iterates over its maps.", "quantifier": "every file, password and fuel, every two orders of iteration", "why_tests_cant": "Go picks iteration orders at random, so a test sees one of them; the property compares all pairs", "anchors": ["pdf/pdf.go:Parse", "pdf/parser.go:Load", "pdf/object.go:extract", "pdf/dictionary.go:String", "pdf/page.go:Extract"]}
{"id": "C86", "title": "Every text is read as one grammar says, with exactly the messages due", "statement": "For every text, well formed or not, the object reader returns the object, end marker or end of input that a grammar for all texts assigns to it, stops where the grammar says, and logs exactly the grammar's messages in the order of the text; the grammar assigns exactly one result to each text and agrees with the canonical syntax on well-formed objects.", "quantifier": "every text at every position of every file, every decryptor of strings that returns a value", "why_tests_cant": "tests try single malformed tokens; nested and repeated faults in arbitrary text are not covered", "anchors": ["pdf/parser.go:ReadObject", "pdf/parser.go:ReadArray", "pdf/parser.go:ReadDictionary", "pdf/parser.go:ReadString", "pdf/parser.go:ReadHexString", "pdf/parser.go:ReadName", "pdf/parser.go:ReadNumber"]}
{"id": "C87", "title": "errors.txt lists what the objects in use call for", "statement": "After the cross-reference data is loaded, errors.txt grows by one block for every object in use, in some order: first the messages the grammar for all texts gives for the object at its offset, then messages of further readings of objects in use. So every fault of an object in use is listed, and a document whose objects are in good order adds nothing.", "quantifier": "every successful run on every file, every password, every order of map iteration", "why_tests_cant": "tests of messages read single tokens; which objects are read, how often and in which order during a run is not tested", "anchors": ["pdf/pdf.go:Parse", "pdf/parser.go:GetObject", "pdf/reference.go:resolve", "pdf/output.go:Error", "pdf/parser.go:ReadObject", "pdf/parser.go:ReadStream"]}
{"id": "C88", "title": "Unclosed streams are reported", "statement": "If an object in use is a dictionary followed by the keyword stream and endstream does not occur in the rest of the file, then errors.txt has the line 'unclosed stream'.", "quantifier": "every successful run on every file, every object in use, every rest of the file behind the keyword", "why_tests_cant": "the claim is about all places where a file can be cut off behind the keyword, including those with no data", "anchors": ["pdf/parser.go:ReadStream", "pdf/parser.go:GetObject", "pdf/output.go:Error"]}
{"id": "C89", "title": "Parse returns", "statement": "If the output files can be created, Parse returns: neither loading nor the extraction from the objects in use runs for ever. If the document loads and every reference can be followed, it returns without an error.", "quantifier": "every file, every password, every order of iterating over maps; loops, recursion and cycles among objects of any length", "why_tests_cant": "a run that has not ended yet does not tell whether it will; the claim is about all cycles objects, page trees, name trees and character maps can form", "anchors": ["pdf/pdf.go:Parse", "pdf/parser.go:Load", "pdf/parser.go:GetObject", "pdf/object.go:Extract", "pdf/dictionary.go:GetNameTreeMap", "pdf/font.go:NewFont"]}
{"id": "C90", "title": "What a writer writes is read back", "statement": "For every list of objects with distinct numbers and every trailer, written out in the canonical way (hexadecimal strings, escaped names, streams as they are or in hexadecimal where their data could be taken for something else, a cross-reference table with the offsets), Load succeeds, GetObject returns for every object exactly the value, generation and stream content that were written, every other number stands for null, the trailer is the one written, and no message is logged.", "quantifier": "every list of objects with integers, strings, names, keywords, references, nested arrays and dictionaries, streams of any content, every trailer, any size below 10^10 bytes, every password, every order of map iteration", "why_tests_cant": "a round trip through a writer is only tested for the documents one thinks of; contents that look like markers, numbers of all sizes and chunk boundaries at every offset cannot be enumerated", "anchors": ["pdf/parser.go:Load", "pdf/parser.go:loadXref", "pdf/parser.go:loadXrefTable", "pdf/parser.go:findObjects", "pdf/parser.go:findXrefOffsets", "pdf/parser.go:GetObject", "pdf/parser.go:ReadObject", "pdf/parser.go:ReadStream"]}
{"id": "C91", "title": "A written document is put out whole and without messages", "statement": "If Parse returns without error for a document written as in C90, raw.pdf holds each of its objects exactly once and nothing else, with the values and stream contents that were written, and errors.txt is empty. More generally, extracting from a document without encryption whose entries in use lead to well-formed objects adds no message.", "quantifier": "every such list of objects and trailer, every order of map iteration, every password", "why_tests_cant": "that nothing is lost, repeated or invented for any content is a statement about all documents; a test compares a few outputs", "anchors": ["pdf/pdf.go:Parse", "pdf/object.go:Extract", "pdf/object.go:String", "pdf/output.go:Error", "pdf/parser.go:GetObject"]}
{"id": "C92", "title": "Parse returns for every written document", "statement": "For every document written as in C90 whose nodes list their kids directly and whose character maps do not have the largest number in them, Parse returns without an error, whatever cycles its references form.", "quantifier": "every list of objects and trailer as in C90, every cyclic graph of references, every order of map iteration, every password", "why_tests_cant": "termination on all graphs of references cannot be tested", "anchors": ["pdf/pdf.go:Parse", "pdf/reference.go:resolve", "pdf/object.go:Extract", "pdf/dictionary.go:GetNameTreeMap", "pdf/dictionary.go:ResolveKids"]}
{"id": "C93", "title": "Only trailers count as trailers", "statement": "Every entry of the trailer that Load builds, in particular Encrypt and ID, is an entry of a dictionary that follows the keyword trailer or belongs to a cross-reference stream.", "quantifier": "every file that Load reads to the end, every password, every order of map iteration, every key", "why_tests_cant": "the claim is about all texts that can stand between sections; the tests load files with one section", "anchors": ["pdf/parser.go:Load", "pdf/parser.go:findXrefOffsets", "pdf/parser.go:loadXref", "pdf/parser.go:loadXrefTable"]}
{"id": "C94", "title": "Encrypted documents are not given out without the password", "statement": "If the newest cross-reference sections name an encryption dictionary of the standard security handler (with a U entry long enough to be checked) and the password is not the user password, Parse returns the error for a wrong password; if the handler, its version or its revision is not a known one, it returns the error for unsupported encryption with any password. In both cases nothing is written to any output file and no file is dumped.", "quantifier": "every file with such sections, every wrong password, every order of map iteration, any function of 16 bytes of output in place of MD5", "why_tests_cant": "all wrong passwords and all documents cannot be tried; a leak could be on any path between the check and the output", "anchors": ["pdf/pdf.go:Parse", "pdf/parser.go:Load", "pdf/parser.go:SetPassword", "pdf/encryption.go:Init"]}
{"id": "C95", "title": "A document with updates is read as its newest revisions say", "statement": "For every document written as in C90 and then updated any number of times, each update adding or replacing objects, freeing numbers and giving a new trailer with Prev, Load succeeds; GetObject returns for every object that was neither freed nor replaced afterwards exactly what was written, and null for all other numbers, also those freed or replaced by nothing; each key of the trailer has its newest value; further trailer entries can only come from the dictionary of the first object of an update; no message is logged.", "quantifier": "every list of updates, each with any objects, any freed numbers and any trailer, no Prev or Encrypt in the dictionary of its first object, total size below 10^10 bytes, every password, every order of map iteration", "why_tests_cant": "the number of updates and the order in which numbers are freed, replaced and freed again is unbounded; Load reads the old sections several times in file order and must end with the newest", "anchors": ["pdf/parser.go:Load", "pdf/parser.go:loadXref", "pdf/parser.go:loadXrefTable", "pdf/parser.go:findObjects", "pdf/parser.go:findXrefOffsets", "pdf/parser.go:GetObject"]}
{"id": "C96", "title": "An updated document is put out as its newest revisions say", "statement": "For every document written as in C95 raw.pdf holds each object that was neither freed nor replaced exactly once and nothing of the old revisions, errors.txt stays empty, and Parse returns without an error if the nodes list their kids directly and the character maps do not have the largest number in them.", "quantifier": "every list of updates as in C95, every order of map iteration, every password", "why_tests_cant": "content of old revisions could leak out on any path; only documents with one or two updates are ever tested", "anchors": ["pdf/pdf.go:Parse", "pdf/object.go:Extract", "pdf/object.go:String", "pdf/parser.go:Load", "pdf/parser.go:GetObject"]}
{"id": "C97", "title": "An encrypted document is read back with the user password and refused with any other", "statement": "For every list of objects whose strings and streams are encrypted with RC4 (or left in clear by a crypt filter), as the encryption dictionary in the trailer or in an object of its own says, with a key made from the user password, and written as in C90, Load with that password succeeds; GetObject returns for every object exactly what was meant, streams decrypted and their filters undone, the encryption dictionary as it was written, and null for all other numbers; no message is logged. With any password that is not a user password Load returns the error for a wrong password.", "quantifier": "every list of objects, every key length of the standard handler (V 1, 2 and 4, R 2, 3 and 4), every user password, every encryption dictionary with direct entries that does not use AES or rely on the default crypt filters, total size below 10^10 bytes, every order of map iteration, any function of 16 bytes of output in place of MD5", "why_tests_cant": "keys depend on the object number, the generation and all bytes of the password; that encryption and decryption cancel for all of them, and that no other password gets through, cannot be tried out", "anchors": ["pdf/parser.go:Load", "pdf/parser.go:SetPassword", "pdf/encryption.go:Init", "pdf/parser.go:GetObject", "pdf/parser.go:ReadString", "pdf/parser.go:ReadHexString", "pdf/parser.go:ReadStream"]}
{"id": "C98", "title": "An encrypted document is put out decrypted", "statement": "For every document as in C97 and its user password raw.pdf holds each object exactly once, decrypted, errors.txt stays empty, and Parse returns without an error if the nodes list their kids directly and the character maps do not have the largest number in them.", "quantifier": "every document and password as in C97, every order of map iteration", "why_tests_cant": "data left encrypted, or decrypted twice, could come out on any path from any object; only a few keys and documents are ever tested", "anchors": ["pdf/pdf.go:Parse", "pdf/object.go:Extract", "pdf/object.go:String", "pdf/parser.go:GetObject", "pdf/encryption.go:Init"]}
{"id": "C99", "title": "The output files hold what the document says, counted", "statement": "If Parse returns without an error, javascript.js holds exactly one line for each dictionary in an object in use that has a script, urls.txt exactly one for each address (links, address trees, file specifications that are addresses), files.txt exactly one for each file inside or outside of the document with its hash and name, the dumped files are exactly the contents of the files inside, and contents.txt holds exactly the lines of all pages, those below one catalog together and in the order of the pages. Nothing is lost, repeated or invented.", "quantifier": "every file that Load reads with non-negative offsets, every set of objects in it with finite name and page trees, every order of map iteration, every password; dictionaries of objects that are dictionaries (C53), text as in C73", "why_tests_cant": "that nothing is lost, repeated or invented is a statement about all graphs of objects and all iteration orders; a test compares the output of a few documents", "anchors": ["pdf/pdf.go:Parse", "pdf/object.go:Extract", "pdf/object.go:extract", "pdf/action.go:Extract", "pdf/file.go:Extract", "pdf/page.go:Extract", "pdf/output.go:DumpFile", "pdf/dictionary.go:GetNameTreeMap"]}
{"id": "C100", "title": "What Parse puts out for a list of objects is a function of the list", "statement": "For every file that holds a list of objects, written as in C90, updated as in C95, encrypted as in C97 or C112 and parsed with the user password, or written with cross-reference streams as in C101, C109, C111 or C113, or with wrong offsets or bytes in front and behind as in C114 and C115, the lines of javascript.js, urls.txt and files.txt, the dumped files and the lines of contents.txt are those that a reference implementation computes from the list of objects alone: no byte offset, cross-reference entry, stream coding, encryption key or state of the parser occurs in it. References lead to where they lead in the list, circles and missing numbers to null. raw.pdf holds the objects of the list, each once, errors.txt is empty, and Parse returns if kids are listed in their nodes and no character map has the largest number in it.", "quantifier": "every list of objects as in C90, C95, C97, C101, C109 and C111 to C115, every reference and every chain and circle of references in it, every order of map iteration; name trees and page trees of finite depth, text as in C73", "why_tests_cant": "relates the whole pipeline from bytes to output files to a specification on abstract documents, for all documents at once; a test can compare the two for a few of them only", "anchors": ["pdf/pdf.go:Parse", "pdf/parser.go:Load", "pdf/parser.go:GetObject", "pdf/reference.go:Resolve", "pdf/object.go:Extract", "pdf/dictionary.go:GetNameTreeMap"]}
{"id": "C101", "title": "Documents with a cross-reference stream are read back as they were written", "statement": "For every list of objects and every last object that is a cross-reference stream with a record for each of them, written behind each other with startxref giving the offset of the stream, Load succeeds without a message; every object is read back as it was given to the writer, the stream with its decoded data; every other number stands for null; the entries of the stream's dictionary are those of the trailer; raw.pdf holds each object once and errors.txt stays empty. For every list of objects there is such a stream, with big-endian records of one, five and two bytes.", "quantifier": "every list of good objects, every cross-reference stream with any widths, index pairs and filters whose records list the objects at their offsets, every order in which the object map is iterated over, every password", "why_tests_cant": "the cross-reference stream is an object of its own, listed twice by the loader at two different offsets and repaired afterwards; widths, index, filters, object positions and the search for startxref all play together, for unboundedly many documents", "anchors": ["pdf/parser.go:Load", "pdf/parser.go:loadXref", "pdf/parser.go:loadXrefStream", "pdf/parser.go:findObjects", "pdf/parser.go:GetObject"]}
{"id": "C102", "title": "commands.txt holds exactly the commands of the document", "statement": "After a successful run the lines of commands.txt are, up to their order, one for each file specification that an action (A, OpenAction, AA) or the tree of embedded files of a dictionary of the document refers to, that names a file outside of the document, and that has parameters or belongs to a launch action: the name, a space and the parameters. Each line occurs as often as the dictionaries ask for it and nothing else is written. For a file that holds a list of objects the lines are a function of the list alone.", "quantifier": "every document with finite name trees, every dictionary in it and every nesting, every order of map iteration; for the second part every list of objects as in C100", "why_tests_cant": "counts every line for all documents and all map iteration orders; a test sees single documents and would not notice a line that is written twice or under another action's conditions", "anchors": ["pdf/file.go:Extract", "pdf/action.go:Extract", "pdf/object.go:Extract", "pdf/pdf.go:Parse"]}
{"id": "C103", "title": "Literal strings with line ends and large octal codes have the standard's value", "statement": "A literal string is read as ISO 32000-1 (7.3.4.2) has it: a line end that is not escaped counts as a line feed whether it is written as CR, LF or CR LF, and of an octal code above 255 the high-order bit is ignored. (False of the code: CR and CR LF are kept, and \\501 is read as two characters. These are shown to be the only differences.)", "quantifier": "every text that the standard's grammar allows between the parentheses, at any nesting, every position in a file, every decryption function", "why_tests_cant": "all texts with all combinations of escapes, line ends and nested parentheses; the statement that nothing else differs cannot be reached by examples", "anchors": ["pdf/parser.go:ReadString"]}
{"id": "C104", "title": "Objects kept in object streams are fetched", "statement": "If the cross-reference table places object n at an index in an object stream (an entry of type 2), and that stream is fetched, is of type ObjStm and has the text of the object v for number n at that index (N pairs of numbers and offsets in the first First bytes, the texts behind them), then fetching n gives v. (False of the code: every such object is null, so for instance a script in an open action that is kept in an object stream is not reported. Shown to hold: its text is in raw.pdf, as a part of the printed stream.)", "quantifier": "every file, every state of the parser, every object stream and index, every object text; for the true part every successful run, every order of map iteration, every password", "why_tests_cant": "the statement that no such object is ever found is about all documents and all streams; a test that uses no object streams cannot notice that they are missing", "anchors": ["pdf/parser.go:GetObject", "pdf/parser.go:loadXrefStream", "pdf/xref.go:NewXrefEntry"]}
{"id": "C105", "title": "Ranges of a character map may list their values", "statement": "A line of a bfrange section may give its values as an array, one for each code from the first to the last (ISO 32000-1, 9.10.3); each of these codes then stands for its own value, and the lines behind it are read as well. (False of the code: the section ends in front of its first array and the rest of it is lost. Shown to hold: everything in front of it and all other sections are read as in C44.)", "quantifier": "every character map of bfchar and bfrange sections whose lines have single values or arrays, every code", "why_tests_cant": "all maps with all mixtures of lines; that nothing else than the rest of the section is lost cannot be reached by examples", "anchors": ["pdf/font.go:NewFont", "pdf/parser.go:ReadHexString"]}
{"id": "C106", "title": "The text of a page includes that of the forms it paints", "statement": "The operator Do with the name of a form XObject stands for the content stream of the form, read with the form's own resources; its lines are in contents.txt among those of the page, at that place, also for forms painted by forms. (False of the code: the operator is passed over. Shown to hold: pages whose forms show no text have all their lines written.)", "quantifier": "every successful run, every page of every document, every nesting of forms, every order of map iteration, every password", "why_tests_cant": "a statement about all graphs of pages, resources and forms; a test of text extraction without forms cannot notice that they are missing", "anchors": ["pdf/page.go:extract", "pdf/page.go:Extract"]}
{"id": "C107", "title": "The data of inline images is not taken for operators", "statement": "Between BI and EI a content stream holds an image, whose data may be any bytes; the lines of a page are those of the operators around its images. (False of the code: the data is read as objects, so that for instance a parenthesis in it hides the text behind it. Shown to hold: with data that happens to be a sequence of objects without BT and TJ.)", "quantifier": "every successful run, every page, any number of images with any entries and data, every order of map iteration, every password", "why_tests_cant": "image data is arbitrary; that it does no harm has to be shown for all of it, tests try a few images", "anchors": ["pdf/page.go:extract", "pdf/parser.go:ReadCommand"]}
{"id": "C108", "title": "All text of a page is written in one encoding", "statement": "The values of a ToUnicode map are UTF-16BE strings; the characters they stand for are written to contents.txt in the encoding that unmapped ASCII codes have there, so that the code 1 mapped to <0041> gives the letter A. (False of the code: the two bytes of the value are written.)", "quantifier": "every successful run, every page, every font with a character map of single codes, every order of map iteration, every password", "why_tests_cant": "the statement is about all fonts and strings; a test sees a few maps, and one with one-byte values, which the standard does not have, would pass", "anchors": ["pdf/font.go:NewFont", "pdf/font.go:Decode", "pdf/page.go:extract"]}
{"id": "C109", "title": "Encrypted documents with a cross-reference stream are read back with the user password", "statement": "For every list of objects whose strings and streams are encrypted as in C97, written with a cross-reference stream as in C101 whose dictionary has the encryption dictionary or a reference to it, Load with the user password succeeds without a message, every object is read back decrypted, the encryption dictionary and the cross-reference stream are read in clear, every other number stands for null; raw.pdf holds each object once and errors.txt stays empty. With any other password the document is refused. Every document of C97 whose trailer fits into a stream dictionary can be written like this. The exact output of C100 and C102 holds for these documents too.", "quantifier": "every list of objects, every RC4 or Identity scheme of C97, every cross-reference stream of C101, every password, every order in which the object map is iterated over", "why_tests_cant": "the cross-reference stream is read before the key is known and once more when the objects are put out, when it must not be decrypted; that its entry is exempt at both times, whatever number it has and whatever the repair step does, holds for unboundedly many documents", "anchors": ["pdf/parser.go:Load", "pdf/parser.go:loadXrefStream", "pdf/parser.go:GetObject", "pdf/encryption.go:Init"]}
{"id": "C110", "title": "A document encrypted with an owner password opens with the owner password", "statement": "For every document encrypted as in C97 whose entry O was made from an owner password and the user password by Algorithm 3 of ISO 32000-1, Load with the owner password succeeds and every object is read back decrypted.", "quantifier": "every list of objects, every RC4 or Identity scheme, revisions 2 to 4, every key length, every user and owner password, every order in which the object map is iterated over", "why_tests_cant": "that the user password can be recovered from O with the owner password rests on RC4 under 1 or 20 keys being injective and on padding a padded password leaving the file key alone, for all passwords and key lengths", "anchors": ["pdf/encryption.go:Init", "pdf/encryption.go:computeEncryptionKey", "pdf/parser.go:Load"]}
{"id": "C111", "title": "Documents with incremental updates that have cross-reference streams are read back", "statement": "For every sequence of updates, each with its objects, the numbers it frees and a cross-reference stream with records for these and a Prev entry that leads to the stream of the update before, written behind each other, Load succeeds without a message; every object that is neither freed nor replaced later is read back as it was given to the writer, the streams with their decoded data among them; every other number stands for null; each key of the trailer has the value of the newest stream that has it, and further entries come only from the first object of an update; raw.pdf holds each of these objects once, errors.txt stays empty and Parse returns without an error. For every sequence of updates there are such streams.", "quantifier": "every non-empty sequence of updates with good objects, all cross-reference streams with any widths, index pairs and filters whose records list the objects of the update at their offsets and the numbers it frees, every order in which the object map is iterated over, every password", "why_tests_cant": "the loader reads every stream once from the scan, again from its startxref and again through Prev, gives each stream two offsets, and repairs the table afterwards; that the newest entry wins in the end for every number is a statement about all sequences of updates, with numbers of streams used again for objects and the other way round", "anchors": ["pdf/parser.go:Load", "pdf/parser.go:loadXref", "pdf/parser.go:loadXrefStream", "pdf/parser.go:findObjects", "pdf/parser.go:GetObject"]}
{"id": "C112", "title": "Encrypted documents with incremental updates are read back with the user password", "statement": "For every sequence of updates as in C95 whose objects are encrypted as in C97, for one encryption dictionary that the newest trailer with an Encrypt entry has or refers to, Load with the user password succeeds without a message; every object that is neither freed nor replaced later is read back decrypted, the encryption dictionary in clear, every other number stands for null; each key of the trailer has the value of the newest trailer that has it, and further entries come only from the first object of an update; raw.pdf holds each of these objects once, errors.txt stays empty and Parse returns without an error. With any other password the document is refused.", "quantifier": "every non-empty sequence of updates, every RC4 or Identity scheme of C97, every password, every order in which the object map is iterated over", "why_tests_cant": "the key depends on the ID of the newest trailer that has one and each object on the key made from its own number and generation, so that the same text is encrypted differently each time it is replaced; that the right one of all the copies is taken and decrypted under the right key is a statement about all sequences of updates", "anchors": ["pdf/parser.go:Load", "pdf/parser.go:loadXref", "pdf/parser.go:loadXrefTable", "pdf/parser.go:GetObject", "pdf/encryption.go:Init"]}
{"id": "C113", "title": "Encrypted documents with incremental updates that have cross-reference streams are read back with the user password", "statement": "For every sequence of updates with cross-reference streams as in C111 whose objects are encrypted as in C97 and whose streams are not, for one encryption dictionary that the newest stream dictionary with an Encrypt entry has or refers to, Load with the user password succeeds without a message; every object that is neither freed nor replaced later is read back decrypted, the encryption dictionary and the streams that are not replaced in clear, every other number stands for null; each key of the trailer has the value of the newest stream that has it, and further entries come only from the first object of an update; raw.pdf holds each of these objects once, errors.txt stays empty and Parse returns without an error. With any other password the document is refused.", "quantifier": "every non-empty sequence of updates, all cross-reference streams of C111, every RC4 or Identity scheme of C97, every password, every order in which the object map is iterated over", "why_tests_cant": "which numbers are decrypted and which are not changes with the updates, since the number of a stream may be given to an object and the other way round; that the exemption follows the newest use of every number holds for all sequences of updates", "anchors": ["pdf/parser.go:Load", "pdf/parser.go:loadXrefStream", "pdf/parser.go:findObjects", "pdf/parser.go:GetObject", "pdf/encryption.go:Init"]}
{"id": "C114", "title": "Wrong offsets and bytes in front of the document do not change what is read", "statement": "A written document (C90) is still read when bytes are put in front of it that have no obj and no xref, so that every offset in it is wrong: every object is read as it was written, the trailer has its own entries, every other number stands for null and no message is logged. This fails: an offset in the table is kept when the number of the object stands there, even if there is no object there, and an object at the place that startxref gives is taken for a cross-reference stream whatever it is. Proved for any bytes in front, any startxref offset at which there is neither a table nor an object, and any table, whose offsets may be arbitrary and whose lines may be missing: exactly the objects are found whose recorded offset does not lead to their own number without an object there; for 3, 5 or 6 bytes in front, such as a byte order mark, without any condition on the offsets. If no offset misleads, raw.pdf has every object once, errors.txt stays empty, Parse returns, and the exact output of C100 and C102 holds.", "quantifier": "every list of objects as in C90, every sequence of bytes in front without obj and xref, every table of offsets, every order in which the object map is iterated over", "why_tests_cant": "each wrong offset leads somewhere else in the file, into a string, a number, another object or behind the end, and whether it misleads depends on the bytes there; a test shows one shift of one file, the theorem covers all of them and the refutation needs an object whose digits happen to stand at the wrong place", "anchors": ["pdf/parser.go:Load", "pdf/parser.go:loadXref", "pdf/parser.go:findObjects", "pdf/parser.go:getStartXrefOffset", "pdf/parser.go:ReadObjectHeader"]}
{"id": "C115", "title": "Bytes behind the end of a document do not change what is read", "statement": "Bytes that have no obj and no xref, put behind the end of a written document (C90), do not change what is read from it: every object is read as it was written, the trailer has its own entries, every other number stands for null, and no message is logged. This fails: the xref in startxref is taken for a cross-reference table, and so a number behind the end is the length of a section of it, whose lines give offsets to numbers that no object has, and a dictionary behind the end is its trailer, so that even an unencrypted document can be refused as encrypted. Proved for all bytes of any length that do not begin with a number and have no << in them; raw.pdf has every object once, errors.txt stays empty, Parse returns, and the exact output of C100 and C102 holds.", "quantifier": "every list of objects as in C90, every sequence of bytes behind it without obj, xref and << that does not begin with a number, every order in which the object map is iterated over", "why_tests_cant": "the bytes behind the end may be arbitrarily many, so that startxref is found or not, and are read as numbers, keywords and comments; a test shows one such sequence", "anchors": ["pdf/parser.go:Load", "pdf/parser.go:findXrefOffsets", "pdf/parser.go:getStartXrefOffset", "pdf/parser.go:loadXrefTable"]}
{"id": "C116", "title": "A run that fails leaves the output directory as it was", "statement": "If Parse returns an error, every file in the output directory has the content it had before. This fails: the directory is emptied before the document is loaded, so that with a wrong password the output of an earlier run, and any other file in the directory, is lost, and main exits with 0. Proved: the directory is kept if the error is that the input file cannot be opened, and after every other error there are only empty files in it, apart from the messages in errors.txt.", "quantifier": "every input file, every password, every earlier content of the directory, every set of output files that cannot be created", "why_tests_cant": "a statement about all earlier contents of a directory and all ways to fail; a test compares one directory for one failure", "anchors": ["pdf/output.go:NewOutput", "pdf/pdf.go:Parse", "main.go:main"]}
{"id": "C117", "title": "After a run the output directory has the output of this run and nothing else", "statement": "For every input file that can be opened and every run, also one that ends with an error or a panic, the output directory then has the seven output files, each with the lines written to it in their order, the dumped files, each with its last content under the MD5 hash of this content, which is never the name of an output file, and no other file. No content depends on what was in the directory before. What errors.txt holds is in C85, C87 and C88.", "quantifier": "every input file, every password, every earlier content of the directory, every order of map iteration, every amount of fuel", "why_tests_cant": "the names of dumped files come from their contents, so that they could coincide with each other, with output files or with files of earlier runs; that they never do so with different content in the directory is a statement about all documents", "anchors": ["pdf/output.go:NewOutput", "pdf/output.go:DumpFile", "pdf/pdf.go:Parse"]}
{"id": "C118", "title": "A linearized document is read back", "statement": "For every document with two tables of which the first in the file is the newer one, lists some of the objects before and behind it and leads forward to the other, which lists the rest and is at the end, Load succeeds; GetObject returns every object exactly as it was written, and null for all other numbers; the trailer has the entries of the first trailer and those of the other one for keys the first does not have; further trailer entries can only come from the dictionary of the first object behind the first table; raw.pdf then holds every object once, errors.txt stays empty and Parse returns.", "quantifier": "every list of objects before and behind the first table, every way to share them out between the tables, every pair of trailers without Prev and Encrypt, any number behind the first startxref, no Prev or Encrypt in the dictionary of the first object behind the first table, size below 10^10 bytes, every password, every order of map iteration", "why_tests_cant": "the tables are read in file order, then from startxref on, so that the older one is read several times and also after the newer one; that the newer one always wins depends on the order of all these steps for every layout", "anchors": ["pdf/parser.go:Load", "pdf/parser.go:loadXref", "pdf/parser.go:loadXrefTable", "pdf/parser.go:findXrefOffsets", "pdf/parser.go:getStartXrefOffset", "pdf/parser.go:GetObject"]}
{"id": "C119", "title": "The stream of a hybrid-reference file completes its table", "statement": "In a file whose table leads with XRefStm to a cross-reference stream, an object that the table marks as free, to hide it from old readers, or does not list is read where the stream has it. This fails: XRefStm is not looked at, and since the table that startxref names is merged last, its free entries replace those of the stream, so that hidden objects are null although the search had found them. Proved: objects in use in the table are read from there, and objects that only the stream lists are read where the stream has them.", "quantifier": "every unencrypted file with one table and one cross-reference stream as its only sections, all entries, every object of type 1, every order in which the object map is iterated over", "why_tests_cant": "which section wins depends on the order in which sections found by searching and the one named by startxref are merged, for every layout of the file and every set of entries; a test shows one hybrid file", "anchors": ["pdf/parser.go:Load", "pdf/parser.go:loadXrefTable", "pdf/parser.go:loadXrefStream", "pdf/parser.go:findObjects"]}
{"id": "C120", "title": "A second run on raw.pdf yields the same objects", "statement": "If a run of Parse succeeds, then Load accepts the raw.pdf it wrote, with the same objects in use and each of them the same up to the order of dictionary entries, and a second run on raw.pdf prints them all once more. This fails: streams are printed decoded while the dictionary keeps the names of the filters, so the second run decodes them again. Proved if all objects of the document can be printed without escapes, their streams name no filter, and no text in them looks like the start of an object or of a table.", "quantifier": "every file, encrypted or not, every system, every password, every order of map iteration in either run, all sets of such objects", "why_tests_cant": "the second run has no cross-reference data and depends on every byte the first one printed; a test shows one pair of runs for one order of iteration", "anchors": ["pdf/pdf.go:Parse", "pdf/parser.go:findObjects", "pdf/object.go:String", "pdf/dictionary.go:String"]}
{"id": "C121", "title": "A reference stands for the object of its number and its generation", "statement": "Following n g R leads to the object n if it is in use with generation g, on to what it refers to if it is itself a reference, and to null if there is no object n of that generation. This fails: the generation is not looked at, so an outdated reference leads to the object that took the number over. Proved if the references passed on the way have the generations of the objects in use under their numbers, or numbers under which none is in use.", "quantifier": "every file, every parser state with non-negative offsets, every reference and chain of references", "why_tests_cant": "chains of references of any length and all combinations of numbers and generations; test documents hardly ever have generations other than 0", "anchors": ["pdf/reference.go:resolve", "pdf/parser.go:GetObject"]}
{"id": "C122", "title": "A stream has the data that Length says", "statement": "A stream object whose data is as long as its Length entry says, with an optional end-of-line marker and endstream behind it, is read with what the filters make of exactly these bytes. This fails: Length is not looked at, and the data ends at the first endstream in it, so that an embedded file with this word in it is dumped without its rest. Proved for data without the word and with an end-of-line marker that can be told from the data; for data with the word, proved that what is read is the part in front of it.", "quantifier": "every file, every unencrypted document, every stream object, direct or indirect Length, all data, all filters", "why_tests_cant": "data of any kind and length, with the marker or a part of it at any place; test documents with a PDF document embedded without compression are needed to see it at all", "anchors": ["pdf/parser.go:ReadStream", "pdf/parser.go:GetObject"]}
{"id": "C123", "title": "Filters and parameters of a stream may be given through references", "statement": "If Filter or DecodeParms of a stream is a reference, the data of the stream is decrypted with the crypt filter for its Type and decoded with the filters and parameters that the references lead to, in order; the names in a list of filters and the dictionaries in a list of parameters may be references as well. The data read is that behind the keyword stream, however the buffer stood: looking the filters up in the middle of the object loses and repeats nothing.", "quantifier": "every file, every parser state with non-negative offsets, encrypted or not, every stream object without a Crypt filter, all data without endstream, all chains of references, heads of any length", "why_tests_cant": "the references may lead anywhere in the file, also in front of the stream and across buffer boundaries, and the file is read at another place while the stream is half read; tests fix the layout", "anchors": ["pdf/parser.go:GetObject", "pdf/parser.go:ReadStream", "pdf/reference.go:Resolve", "pdf/dictionary.go:GetArray"]}
{"id": "C124", "title": "Scripts are written as the characters of their text strings", "statement": "A script is a text string: UTF-16BE behind a byte order mark, or PDFDocEncoding. Its characters are written to javascript.js in one encoding (UTF-8). This fails: scripts in UTF-16BE are written byte by byte, with the byte order mark, beside scripts in ASCII, so that a search for a word in javascript.js does not find it. Proved for scripts of ASCII characters.", "quantifier": "every document, every dictionary in an object in use, every script in ASCII or UTF-16BE, given as a string or as a stream", "why_tests_cant": "all scripts of any length; the tests compare with files that hold what the program wrote", "anchors": ["pdf/object.go:extract"]}
{"id": "C125", "title": "Cut off encoded data is decoded as far as it goes", "statement": "If the end of encoded data is missing, what is decoded agrees with what would be decoded of all of it: for ASCIIHexDecode but for the last byte, for ASCII85Decode but for the last three, for the TIFF predictor but for the last two, for RunLengthDecode and the PNG predictors (and none) in full; and no more is missing than the missing bytes stand for.", "quantifier": "all data, well-formed or not, cut anywhere; all predictor parameters, for the TIFF predictor those in the ranges of the standard whose products do not overflow", "why_tests_cant": "all places of a cut in all data; the tests decode a few complete strings", "anchors": ["pdf/filters.go:ASCIIHexDecode", "pdf/filters.go:ASCII85Decode", "pdf/filters.go:RunLengthDecode", "pdf/filters.go:ReversePredictor"]}
{"id": "C126", "title": "The password counts by its first 32 bytes, and only for encrypted documents", "statement": "Two passwords that agree in their first 32 bytes, completed with the padding of the standard, give the same file operations, the same result and the same exit code; if the trailer names no encryption dictionary, any two passwords do.", "quantifier": "every environment, map order, file, file system, number of arguments, -f flag and pair of passwords", "why_tests_cant": "all pairs of passwords and all files; the tests use one password", "anchors": ["pdf/encryption.go:computeEncryptionKey", "pdf/parser.go:Load", "pdf/pdf.go:Parse", "main.go:main"]}
{"id": "C127", "title": "Cut off encrypted data is decrypted as far as it goes", "statement": "If the end of encrypted data is missing, what is decrypted agrees with what would be decrypted of all of it: with RC4 in full, with AES but for the last block. This fails for AES: data that ends inside of a block is given out as it is, with the complete blocks in front of the cut still encrypted. Proved for RC4, and for AES if the cut is between two blocks.", "quantifier": "all data, keys, object and generation numbers and places of the cut", "why_tests_cant": "all places of a cut in data of all lengths; the tests open two complete documents", "anchors": ["pdf/encryption.go:Decrypt", "pdf/encryption.go:NewDecryptor"]}
