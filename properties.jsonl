{"id": "C01", "title": "Conversion-string grammar", "statement": "Parsing a conversion string succeeds exactly when, after splitting at '|' and ':' into phases and each phase at ',' into codecs, no phase is empty and no codec name (the part before the first '#') is empty; otherwise it reports a syntax error.", "quantifier": "every byte string given as a conversion", "why_tests_cant": "the set of strings is infinite; a test only samples accepted and rejected ones", "anchors": ["src/libbsdconv.c: bsdconv_unpack"]}
{"id": "C02", "title": "Phase roles are determined by pipeline position", "statement": "In a parsed conversion, a '|'-separated segment with at least two phases decodes with its first phase and encodes with its last phase, everything else is an intermediate filter; a segment of one phase is an intermediate filter.", "quantifier": "every accepted conversion string", "why_tests_cant": "unbounded number of segments and phases", "anchors": ["src/libbsdconv.c: bsdconv_unpack"]}
{"id": "C03", "title": "Serialising a parsed conversion gives the string back", "statement": "bsdconv_pack of a parsed conversion returns the very string parsed, provided no codec has an explicitly empty argument list and every segment after the first has at least two phases; in general it returns a normal form, and normalising twice is the same as normalising once.", "quantifier": "every accepted conversion string", "why_tests_cant": "infinitely many strings, and the exceptional ones are found only by reasoning", "anchors": ["src/libbsdconv.c: bsdconv_pack, bsdconv_unpack"]}
{"id": "C04", "title": "bsdconv_pack never overflows its buffer", "statement": "The buffer allocated by bsdconv_pack is large enough for the string it builds, including the copies of a codec's argument distributed over every member of an expanded alias.", "quantifier": "every instance shape, every codec name (with any number of commas) and argument", "why_tests_cant": "memory safety over all sizes", "anchors": ["src/libbsdconv.c: bsdconv_pack"]}
{"id": "C05", "title": "Alias expansion distributes arguments", "statement": "When a codec 'NAME#args' is replaced by an alias expansion 'A,B#x,...' the packed conversion gives args to every member: 'A#args,B#x&args,...'.", "quantifier": "every alias expansion and argument string", "why_tests_cant": "infinitely many expansions", "anchors": ["src/libbsdconv.c: bsdconv_pack, bsdconv_create"]}
{"id": "C06", "title": "Conversion creation ignores whitespace", "statement": "bsdconv_create gives the same result for two conversion strings that differ only by CR, LF, TAB, FF and SPACE characters.", "quantifier": "every conversion string, every placement of whitespace", "why_tests_cant": "infinite", "anchors": ["src/libbsdconv.c: bsdconv_create"]}
{"id": "C07", "title": "Alias resolution reaches a fixed point", "statement": "If the alias table is acyclic then bsdconv_create's expansion loop terminates for every conversion string and ends either in an error or in a conversion all of whose codecs are installed modules; with a cyclic alias table it may loop forever.", "quantifier": "every alias table, module set and conversion string", "why_tests_cant": "termination cannot be tested", "anchors": ["src/libbsdconv.c: bsdconv_create", "src/libbsdconv_module.c: bsdconv_solve_alias"]}
{"id": "C08", "title": "Codec argument parsing", "statement": "The argument string 'k1=v1&k2&...' reaches the codec as the list of its '&'-separated items in order, each split at its first '='; joining the items back gives the string.", "quantifier": "every argument string", "why_tests_cant": "infinite", "anchors": ["src/libbsdconv.c: _cbcreate"]}
{"id": "C09", "title": "Phase editing is list editing", "statement": "bsdconv_insert_phase and bsdconv_replace_phase return the conversion obtained by inserting/replacing one phase at the (normalised) index, all other phases, codecs and arguments unchanged; no write falls outside the phase array when the index is in range.", "quantifier": "every parsed conversion, every new phase, every index", "why_tests_cant": "index arithmetic over all integers", "anchors": ["src/libbsdconv_util.c: bsdconv_insert_phase, bsdconv_replace_phase, bsdconv_get_phase_index"]}
{"id": "C10", "title": "Codec editing is list editing", "statement": "bsdconv_insert_codec and bsdconv_replace_codec change exactly the addressed codec list of the addressed phase.", "quantifier": "every parsed conversion, codec, phase and codec index", "why_tests_cant": "index arithmetic over all integers", "anchors": ["src/libbsdconv_util.c: bsdconv_insert_codec, bsdconv_replace_codec, bsdconv_get_codec_index"]}
{"id": "C11", "title": "Index normalisation", "statement": "Phase and codec indexes count from the front when non-negative and from the back when negative, and address an existing element for every index from -n to n-1 (and only those).", "quantifier": "every integer index and every length", "why_tests_cant": "unbounded integers; C remainder of negatives", "anchors": ["src/libbsdconv_util.c: bsdconv_get_phase_index, bsdconv_get_codec_index"]}
{"id": "C12", "title": "Counters are a case-insensitive map with stable handles", "statement": "bsdconv_counter(name) returns the same cell for names equal up to ASCII case and different cells otherwise; a handle stays valid and keeps naming the same counter after any later history of counter creations and resets; a new counter starts at 0.", "quantifier": "every sequence of counter operations", "why_tests_cant": "history-dependent", "anchors": ["src/libbsdconv_counter.c: bsdconv_counter"]}
{"id": "C13", "title": "Counter reset scope", "statement": "bsdconv_counter_reset(NULL) sets every counter to 0; with a name it sets exactly that counter to 0 and leaves all others as they are.", "quantifier": "every counter history and name", "why_tests_cant": "history-dependent", "anchors": ["src/libbsdconv_counter.c: bsdconv_counter_reset"]}
{"id": "C14", "title": "Instance hash behaves as a map", "statement": "After any history of set/has/get operations following the documented test-then-get idiom, get returns the last value set for the key, and has tells whether the key was set.", "quantifier": "every operation history", "why_tests_cant": "history-dependent; the list is reordered by every lookup", "anchors": ["src/libbsdconv_hash.c"]}
{"id": "C15", "title": "Hash deletion", "statement": "bsdconv_hash_del removes exactly the key and leaves every other key's value unchanged.", "quantifier": "every history", "why_tests_cant": "history-dependent pointer surgery", "anchors": ["src/libbsdconv_hash.c: bsdconv_hash_del"]}
{"id": "C16", "title": "Hexadecimal datum parsing", "statement": "str2datum and str2data turn a hexadecimal string into the byte string it denotes (data separated by '.'), reject strings with a non-hexadecimal digit, and write only inside the memory they allocated.", "quantifier": "every string", "why_tests_cant": "infinite; memory safety", "anchors": ["src/libbsdconv_util.c: str2datum, str2data"]}
{"id": "C17", "title": "Output modes deliver every byte exactly once", "statement": "Whatever sequence of output modes (automatic buffer, preallocated buffer of any size, file, descriptor) a program uses between conversions, the concatenation of what it receives followed by what is still queued equals the converted data: nothing is lost, duplicated or reordered.", "quantifier": "every sequence of calls and buffer sizes", "why_tests_cant": "history-dependent", "anchors": ["src/libbsdconv.c: bsdconv (output switch)"]}
{"id": "C18", "title": "Preallocated output fits and is maximal", "statement": "With a preallocated buffer of n>0 bytes bsdconv writes at most n bytes, reports exactly the number written, and stops only because the next whole datum does not fit or nothing is left; with a null buffer or n=0 it reports the exact number of bytes pending and keeps them all.", "quantifier": "every queue and buffer size", "why_tests_cant": "unbounded sizes, memory safety", "anchors": ["src/libbsdconv.c: bsdconv BSDCONV_PREMALLOCED"]}
{"id": "C19", "title": "Automatic output buffer is exact", "statement": "BSDCONV_AUTOMALLOC allocates exactly the pending bytes plus the slack requested in output.len, fills only the pending part and reports its length.", "quantifier": "every queue and slack", "why_tests_cant": "memory safety over sizes", "anchors": ["src/libbsdconv.c: bsdconv BSDCONV_AUTOMALLOC"]}
{"id": "C20", "title": "Passing output to another instance", "statement": "BSDCONV_PASS hands the converted bytes to the next instance in order, so that converting an input through two freshly initialised chained instances equals the composition of the two conversions (if the second decodes without error).", "quantifier": "every queue", "why_tests_cant": "pointer-chain dependent", "anchors": ["src/libbsdconv.c: bsdconv BSDCONV_PASS, bsdconv entry"]}
{"id": "C21", "title": "Conversion always terminates safely", "statement": "A call of bsdconv on a table-driven conversion (decoders not adjacent, entries that begin a longer one not empty) terminates and never touches freed or unowned memory, whatever the tables, the pipeline, the queued data, the input chunk, decoding errors and the flush flag.", "quantifier": "every table, pipeline, input and history of calls", "why_tests_cant": "termination and memory safety for all inputs", "anchors": ["src/libbsdconv.c: bsdconv"]}
{"id": "C22", "title": "A conversion is the composition of its phases", "statement": "For a table-driven conversion, converting an input and flushing yields exactly phase_n(...(phase_1(input))): running the phases interleaved, as the engine does, gives the same output and the same error counts as running each phase to completion one after another (decoders not adjacent, entries that begin a longer one not empty; decoding errors only in the first phase).", "quantifier": "every pipeline of any length, every table and every input", "why_tests_cant": "scheduling of phases depends on data", "anchors": ["src/libbsdconv.c: bsdconv"]}
{"id": "C23", "title": "Decoding is first-codec, longest-match, skip-one-on-error", "statement": "A decoding phase repeatedly takes, at the current position, the first codec in the list with a matching table entry and the longest entry of that codec, emitting its data; when no codec matches it skips exactly one byte and counts one input error.", "quantifier": "every table list and every input", "why_tests_cant": "infinite inputs, backtracking", "anchors": ["src/libbsdconv.c: bsdconv FROM"]}
{"id": "C24", "title": "Intermediate phases replace longest matches and pass the rest through", "statement": "An intermediate phase replaces the longest match (over whole data, first codec first) and passes a datum that starts no match through unchanged; it never loses or reorders data.", "quantifier": "every table list and datum sequence", "why_tests_cant": "infinite inputs, backtracking", "anchors": ["src/libbsdconv.c: bsdconv INTER"]}
{"id": "C25", "title": "Encoding maps or counts", "statement": "An encoding phase emits the longest match of the first matching codec; a datum that no codec can encode is dropped and counted as exactly one output error (if the last codec's entries are for single data).", "quantifier": "every table list and datum sequence", "why_tests_cant": "infinite inputs", "anchors": ["src/libbsdconv.c: bsdconv TO"]}
{"id": "C26", "title": "Chunking does not matter", "statement": "Splitting an input that decodes without error into chunks at arbitrary places and converting chunk by chunk gives the same output and counters as converting it at once.", "quantifier": "every input and every way to split it, including inside a multi-byte character", "why_tests_cant": "exponentially many splits", "anchors": ["src/libbsdconv.c: bsdconv FROM/INTER/TO"]}
{"id": "C27", "title": "Flush drains the conversion", "statement": "After a call with flush set no input byte or intermediate datum is left inside the conversion: everything has been emitted or counted as an error, and following streams that decode without error give the results they give alone.", "quantifier": "every pipeline and history", "why_tests_cant": "history-dependent", "anchors": ["src/libbsdconv.c: bsdconv flush"]}
{"id": "C28", "title": "Re-initialisation isolates streams", "statement": "After bsdconv_init the next conversion behaves like the first conversion of a new instance, whatever happened before, even if the previous stream was abandoned in the middle of a character (counters excepted), provided the callbacks' private states are set by cbinit.", "quantifier": "every history before the re-initialisation", "why_tests_cant": "history-dependent", "anchors": ["src/libbsdconv.c: bsdconv_init"]}
{"id": "C29", "title": "Compiled tables implement their source text", "statement": "Walking the compiled table of a codec along a byte sequence finds exactly the data of the first source line whose pattern matches that sequence, and reports 'longer entries exist' exactly when some line's pattern extends it.", "quantifier": "every table source (lines with exact bytes, '*' wildcards and ',' separators)", "why_tests_cant": "infinite tables", "anchors": ["src/bsdconv-mktable.c: main"]}
{"id": "C30", "title": "Compiled table layout is read back faithfully", "statement": "The states and data cells that the table compiler writes are read back unchanged by the runtime accessors, at any offset below 2^32.", "quantifier": "every table", "why_tests_cant": "binary layout over all sizes", "anchors": ["src/bsdconv-mktable.c: main (Write)", "src/bsdconv.h: read_state, get_offset"]}
{"id": "C31", "title": "UTF-8 decoder accepts exactly well-formed sequences", "statement": "In strict mode the UTF-8 decoder turns a byte string into code points c1..cn without error iff the bytes are the shortest-form UTF-8 encodings of c1..cn, none of them a surrogate.", "quantifier": "every byte string", "why_tests_cant": "2^32+ sequences and unbounded streams", "anchors": ["modules/from/_UTF-8.c"]}
{"id": "C32", "title": "UTF-8 encode/decode round trip", "statement": "Encoding any Unicode scalar value with the UTF-8 encoder and decoding the result gives the same value back, and the encoder's output is the standard UTF-8 form.", "quantifier": "every Unicode scalar value and every sequence of them", "why_tests_cant": "unbounded sequences", "anchors": ["modules/to/_UTF-8.c", "modules/from/_UTF-8.c"]}
{"id": "C33", "title": "UTF-16 round trip", "statement": "Encoding any Unicode scalar value to UTF-16BE/LE and decoding gives the value back; supplementary values use a surrogate pair.", "quantifier": "every scalar value, both byte orders, every sequence", "why_tests_cant": "unbounded sequences", "anchors": ["modules/to/UTF-16BE.c", "modules/from/UTF-16BE.c", "modules/to/UTF-16LE.c", "modules/from/UTF-16LE.c"]}
{"id": "C34", "title": "UTF-32 round trip", "statement": "Encoding any Unicode code point to UTF-32BE/LE gives four bytes which decode to it.", "quantifier": "every code point, both byte orders, every sequence", "why_tests_cant": "unbounded", "anchors": ["modules/to/UTF-32BE.c", "modules/from/UTF-32BE.c", "modules/to/UTF-32LE.c", "modules/from/UTF-32LE.c"]}
{"id": "C35", "title": "GB18030 four-byte ranges round trip", "statement": "The algorithmic four-byte GB18030 mapping is a bijection between the supplementary planes and the four-byte codes 90308130..E3329A35, encoder and decoder being inverse.", "quantifier": "every code point of U+10000..U+10FFFF", "why_tests_cant": "1M values times context; arithmetic identity", "anchors": ["modules/from/_GB18030.c", "modules/to/_GB18030.c"]}
{"id": "C36", "title": "CP950 user-defined area is injective on valid codes", "statement": "The CP950 UDA decoder maps distinct valid two-byte codes to distinct private-use code points within the documented ranges.", "quantifier": "every two-byte code", "why_tests_cant": "needs the arithmetic of all ranges", "anchors": ["modules/from/CP950-UDA.c"]}
{"id": "C37", "title": "Escape sequences round trip", "statement": "Writing data with the ESCAPE encoder and reading it back with the matching decoder gives the data back: every byte as %XX, \\\\xXX or \\\\OOO; every character U+0100..U+FFFF as %uXXXX or \\\\uXXXX; every character but U+0000 as &#NNN; or &#xHHH;. All spellings of an escape (upper and lower case digits, leading zeros) are read. Outside those ranges the round trip fails.", "quantifier": "every sequence of bytes / code points in the stated ranges, every division of the text into calls, every earlier use of the instance", "why_tests_cant": "infinite", "anchors": ["modules/to/ESCAPE.c", "modules/from/ESCAPE.c", "modules/from/ASCII-NUMERIC-HTML-ENTITY.c"]}
{"id": "C38", "title": "Bsdconv hex notation round trip", "statement": "The BSDCONV encoder prints two hexadecimal digits per byte of each datum, and the BSDCONV decoder reads a datum printed that way back identically, whatever its bytes and length and however the digits are divided into calls (boundaries between data are not kept).", "quantifier": "every datum sequence", "why_tests_cant": "infinite", "anchors": ["modules/to/BSDCONV.c", "modules/from/BSDCONV.c"]}
{"id": "C39", "title": "Shift-state encodings switch correctly", "statement": "The EBCDIC mixed encoders insert SO/SI exactly at changes between single- and double-byte runs, and decoding what was encoded gives the original runs.", "quantifier": "every sequence of single- and double-byte codes", "why_tests_cant": "unbounded sequences, history-dependent", "anchors": ["modules/to/EBCDIC.c", "modules/from/EBCDIC.c"]}
{"id": "C40", "title": "Hangul composition and decomposition are inverse", "statement": "Hangul decomposition of a precomposed syllable gives its canonical jamo sequence and composition restores it; text that contains no vowel or final jamo is unaffected by decomposing and composing.", "quantifier": "every syllable, every jamo sequence", "why_tests_cant": "state machine over unbounded text", "anchors": ["modules/inter/_NF-HANGUL-COMPOSITION.c", "modules/inter/_NF-HANGUL-DECOMPOSITION.c"]}
{"id": "C41", "title": "Canonical ordering is a stable sort between starters", "statement": "The normalisation reordering step outputs, between consecutive starters, the combining marks stably sorted by combining class, and nothing is lost or invented (for streams that do not follow an abandoned one).", "quantifier": "every sequence of characters", "why_tests_cant": "unbounded sequences", "anchors": ["modules/inter/_NF-ORDER.c"]}
{"id": "C42", "title": "Width counting is additive", "statement": "The WIDTH filter's half/full/ambiguous counters are the number of characters of each class, independent of how the text is split, and the text passes unchanged.", "quantifier": "every text and split", "why_tests_cant": "unbounded", "anchors": ["modules/inter/WIDTH.c", "modules/inter/_WIDTH.h"]}
{"id": "C43", "title": "Width trimming keeps the longest fitting prefix", "statement": "TRIM-WIDTH#n outputs the longest prefix whose total display width is at most n.", "quantifier": "every text and n", "why_tests_cant": "unbounded", "anchors": ["modules/inter/TRIM-WIDTH.c"]}
{"id": "C44", "title": "Ambiguous padding can be undone", "statement": "AMBIGUOUS-PAD inserts one pad after every ambiguous character of a text and AMBIGUOUS-UNPAD, applied to the result, removes exactly those pads.", "quantifier": "every text", "why_tests_cant": "history-dependent state", "anchors": ["modules/inter/AMBIGUOUS-PAD.c", "modules/inter/AMBIGUOUS-UNPAD.c"]}
{"id": "C45", "title": "Character-class filters are range membership", "statement": "A character-class filter accepts a character iff it is a Unicode datum whose code point lies in one of the filter's ranges (binary search is equivalent to membership), and all shipped range tables are sorted as the search requires.", "quantifier": "every code point and every shipped filter table", "why_tests_cant": "2^32 inputs per table", "anchors": ["modules/filter/unicode_range.c", "modules/filter/*.c"]}
{"id": "C46", "title": "Scorers are range lookups", "statement": "A scorer returns the score of the range containing the code point and 0 when there is none.", "quantifier": "every code point", "why_tests_cant": "2^32 inputs", "anchors": ["modules/scorer/unicode_range.c", "modules/scorer/*.c"]}
{"id": "C47", "title": "REPLACE and INSERT arguments", "statement": "INSERT emits its data around each datum, NULL drops every datum, and REPLACE turns the occurrences of its data, found from left to right, into the replacement, everything else unchanged (unless the stream ends inside an occurrence of which two or more data were read).", "quantifier": "every datum sequence and argument", "why_tests_cant": "infinite", "anchors": ["modules/inter/REPLACE.c", "modules/inter/INSERT.c"]}
{"id": "C48", "title": "COUNT and PASS are observers", "statement": "The COUNT filter passes every datum unchanged and in order and adds to its counter exactly the number of data accepted by its filters.", "quantifier": "every datum sequence", "why_tests_cant": "unbounded", "anchors": ["modules/inter/COUNT.c"]}
{"id": "C49", "title": "Whitespace derail/rerail are inverse", "statement": "WHITESPACE-RERAIL applied to the output of WHITESPACE-DERAIL restores the original text.", "quantifier": "every text", "why_tests_cant": "history-dependent state", "anchors": ["modules/inter/WHITESPACE-DERAIL.c", "modules/inter/WHITESPACE-RERAIL.c"]}
{"id": "C50", "title": "In-place conversion never destroys both copies", "statement": "When the command line tool converts a file in place, at every crash point either the original content or the complete converted content exists on disk under the original or the temporary name.", "quantifier": "every file and every crash point", "why_tests_cant": "crash points", "anchors": ["src/bsdconv.c: main"]}
{"id": "C51", "title": "The command-line loop converts the whole file", "statement": "The tool's read/convert/flush loop feeds every byte of the file once and in order, sets flush exactly on the last call, for every file length (including multiples of the buffer size) and read splitting.", "quantifier": "every file content and every sequence of short reads", "why_tests_cant": "unbounded schedule of reads", "anchors": ["src/bsdconv.c: bsdconv_file"]}
{"id": "C52", "title": "Loading codecs preserves the working directory", "statement": "After any library call that looks up modules the process working directory is what it was before.", "quantifier": "every call and every intermediate failure", "why_tests_cant": "environment-dependent paths", "anchors": ["src/libbsdconv.c: loadcodec", "src/libbsdconv_module.c"]}
{"id": "C53", "title": "Arena allocations are disjoint", "statement": "Blocks handed out by the table compiler's arena allocator are disjoint and lie inside its pools.", "quantifier": "every sequence of allocation sizes", "why_tests_cant": "unbounded sequences", "anchors": ["src/libfmalloc.c"]}
{"id": "C54", "title": "Error strings", "statement": "bsdconv_error describes the error set by the failed call and is defined for every error number.", "quantifier": "every error number", "why_tests_cant": "all integers", "anchors": ["src/libbsdconv.c: bsdconv_error"]}
{"id": "C55", "title": "Fallback codecs substitute exactly what cannot be converted", "statement": "In every phase that ends with the fallback codec ANY (also called 3F and SUB), exactly the bytes (decoding phase) or data (later phases) that no other codec of the phase matches are replaced, one replacement each, by the fallback's data: '?' by default, nothing with DROP, or the hexadecimal data given as arguments; everything else is converted as without the fallback. With fallbacks in every phase every byte string converts, in exactly one way.", "quantifier": "every conversion of table codecs, every byte string, every division into calls, every earlier use", "why_tests_cant": "unbounded strings and histories", "anchors": ["modules/from/ANY.c", "modules/to/ANY.c", "src/libbsdconv.c: bsdconv"]}
{"id": "C56", "title": "ISO-2022-JP text is read by its escape sequences", "statement": "The conversion JIS:dst decodes every ISO-2022-JP text: each escape sequence selects its character set (ASCII, JIS X 0201, 0208, 0212) until the next one, puts nothing out, and each character after it is the one its code has in the selected set; the division of the text into calls does not matter, also within an escape sequence or a double byte code.", "quantifier": "every text, every division into calls, every earlier use of the instance that leaves the decoder between characters, all compiled tables", "why_tests_cant": "unbounded texts and histories", "anchors": ["modules/from/_JIS.c", "modules/from/_JIS.txt", "modules/from/alias", "src/libbsdconv.c: bsdconv"]}
{"id": "C57", "title": "STRINGS keeps exactly the long runs", "statement": "STRINGS puts out exactly the maximal runs of at least MIN-LEN characters that pass its filter, each with the BEFORE data in front and the AFTER data behind, in order, and nothing else; a run that reaches the end of the text is put out at the flush.", "quantifier": "every text, every filter, every minimal length, every division into calls, every earlier use", "why_tests_cant": "unbounded texts and histories", "anchors": ["modules/inter/STRINGS.c", "src/libbsdconv.c: bsdconv"]}
{"id": "C58", "title": "Control sequences are moved out of double byte characters", "statement": "ANSI-CONTROL,BYTE:BIG5-DEFRAG:BYTE,ANSI-CONTROL puts out the input text with the terminal control sequences that stand between a lead byte and its second byte moved behind the character: all bytes and all control sequences are kept in their order, every lead byte is followed by its second byte, and nothing else changes, for every text that does not end within a character.", "quantifier": "every text of bytes and control sequences, every division into calls (also within a control sequence), every earlier use", "why_tests_cant": "unbounded texts and histories", "anchors": ["modules/from/ANSI-CONTROL.c", "modules/from/BYTE.txt", "modules/inter/BIG5-DEFRAG.c", "modules/to/BYTE.txt", "modules/to/PASS.c", "modules/to/alias", "src/libbsdconv.c: bsdconv"]}
{"id": "C59", "title": "A conversion's phases act one after the other whatever their kinds", "statement": "For a conversion whose phases are any mixture of compiled tables (possibly with several codecs and an ANY fallback), Unicode encodings and the stateful intermediate modules COUNT, WIDTH, TRIM-WIDTH, AMBIGUOUS-PAD/UNPAD, Hangul decomposition and canonical ordering, the output of a whole stream is the composition of what each phase does to a whole stream, no input error is counted for well-formed input, output errors add up, and each module's counter ends where its own phase leaves it. In particular src:NFD:dst writes the canonical decomposition: characters replaced by the table, Hangul syllables by jamos, marks reordered.", "quantifier": "all conversions of that form (any tables, any number of phases), all inputs, all cuts of the input into calls, all lossless output modes, all earlier histories followed by bsdconv_init", "why_tests_cant": "the phases run interleaved, a table phase may give out a match and take it back when a longer one completes, and modules keep private state between calls: tests see a few combinations and cuts", "anchors": ["src/libbsdconv.c:bsdconv", "bsdconv.h:LISTCPY_ST", "modules/inter/_NFD.txt", "modules/inter/_NF-ORDER.c", "modules/inter/_NF-HANGUL-DECOMPOSITION.c", "modules/inter/COUNT.c"]}
{"id": "C60", "title": "NFC writes the one composed form of a text", "statement": "src:NFC:dst writes a text that is canonically equivalent to its input (same full canonical decomposition), has its combining marks in canonical order and is fully composed: no starter is followed, unblocked, by a character it makes a pair with, and no leading consonant by a vowel. Normalising the output again changes nothing, and all canonically equivalent inputs give the same output.", "quantifier": "every text, every pair of Unicode encodings, every cut of the input into calls, every table pair that satisfies the listed conditions (the shipped ones do)", "why_tests_cant": "unbounded sequences of combining marks, pending state across calls, and an algorithm that rewrites the previous phase's queue", "anchors": ["modules/inter/_NFC.c", "modules/inter/_NFC-MAP.txt", "modules/inter/_NFD.txt", "modules/inter/_NF-ORDER.c", "modules/inter/_NF-HANGUL-COMPOSITION.c", "modules/inter/alias", "src/libbsdconv.c:bsdconv"]}
{"id": "C61", "title": "COUNT counts exactly what its phase's tables do not match", "statement": "In a conversion with a phase T1,...,Tk,COUNT (tables, then COUNT) the phase replaces every match of the tables and passes every other character unchanged, and the counter goes up by exactly the number of characters passed (that the FOR filter accepts). The result and the count depend only on the whole stream, not on how it is cut; bsdconv_init keeps the counter.", "quantifier": "all table files, all streams, all cuts into calls, all lossless output modes, all earlier histories, any phases before and after", "why_tests_cant": "COUNT is tried at each datum while the tables may still complete a longer match, its answer is remembered or discarded and the input is re-read; only all interleavings of both show that nothing is counted twice or lost", "anchors": ["src/libbsdconv.c:bsdconv", "modules/inter/COUNT.c", "src/libbsdconv_module.c:bsdconv_solve_alias"]}
{"id": "C62", "title": "Alias look-up returns the target of an alias", "statement": "bsdconv_solve_alias, which is itself a conversion (ASCII:ALIAS-x,COUNT#ERR:ASCII), returns the target of the name if the name (case-insensitively) is an alias. It returns NULL exactly when the longest-match split of the name into aliases leaves a character over; otherwise the result is the concatenation of the targets. (So a concatenation of aliases is solved too: the stricter claim is refuted.)", "quantifier": "all alias tables of ASCII names, all ASCII names", "why_tests_cant": "names and tables are unbounded; the answer depends on longest-match behaviour inside names that contain other aliases", "anchors": ["src/libbsdconv_module.c:bsdconv_solve_alias", "modules/inter/ALIAS-FROM.txt", "modules/inter/ALIAS-INTER.txt", "modules/inter/ALIAS-TO.txt", "modules/inter/COUNT.c"]}
{"id": "C63", "title": "The module list is complete, sorted and in bounds", "statement": "bsdconv_modules_list returns a NULL-terminated array of the names of the module files of the type (files without a dot, or for filters and scorers the part of the name of a .so file before the dot) and of the names the alias file defines, each as often as it is there, in byte order; whatever the directory and the file contain, no write leaves the array. A name bsdconv_module_check accepts is listed (if it has no dot), and a listed upper-case module file is accepted.", "quantifier": "all directory contents in any order, all alias files, all names", "why_tests_cant": "the array grows in steps of 8 at four places and the number of names is unbounded; file contents are arbitrary", "anchors": ["src/libbsdconv_module.c:bsdconv_modules_list", "src/libbsdconv_module.c:bsdconv_codecs_list", "src/libbsdconv_module.c:bsdconv_module_check", "src/libbsdconv_module.c:scmp"]}
{"id": "C64", "title": "Characters without a code are written out", "statement": "Behind ASCII, the writers HTML-IMG and the numeric reference encoders leave every ASCII character as it is (and write U+02DC as ~) and write every other character in their notation: a link to the image of the character with its code in the shortest upper-case hexadecimal form, or a numeric reference; no character is lost or counted as an error. Different characters get different links. RAW writes the bytes of the code of every character, most significant first and as few as possible, so that its output cannot be split into characters again.", "quantifier": "all texts of all characters of the source encoding, all chunkings, all output modes that lose nothing, repeated streams", "why_tests_cant": "unit tests try single characters", "anchors": ["modules/to/ASCII-HTML-UNICODE-IMG.c:cbconv", "modules/to/RAW.c:cbconv", "modules/to/ESCAPE.c:cbconv", "modules/to/ASCII.txt"]}
{"id": "C65", "title": "Completion offers every module that can follow", "statement": "For every non-empty argument bsdconv-completion prints, without leaving the bounds of its blocks, exactly the lines made of the argument (upper-cased, without a quote in front and one at the end) with its last name replaced by a module name that begins with it: the intermediate modules and, after a colon, the output modules, otherwise the input modules. No line is printed twice, every line begins with the argument, and every installed module that fits is offered. (Without an argument, or with an empty one, it reads before the beginning of a block.)", "quantifier": "all arguments, all module directories and alias files", "why_tests_cant": "arguments and lists are unbounded, and the size of the array and of the lines depends on both", "anchors": ["src/bsdconv-completion.c:main", "src/bsdconv-completion.c:item_in_array"]}
{"id": "C66", "title": "A bonus module replaces the keys it finds and counts their bonuses", "statement": "In a conversion with a bonus module (a table of lines key, bonus, replacement, in which no key begins another), read from left to right: where the data begin with a key - its data, the last of which may go on behind the key's last byte - they are replaced by the line's replacement and the counter SCORE goes up by the bonus; any other datum passes unchanged; this is defined for all data and unique, and does not depend on how the input is cut into calls. For ZH-BONUS between two Unicode encodings this means: every character is written as it is, except those of U+2300..23FF, U+C500..C5FF and U+FC00..FCFF, which come out as U+0023, U+00C5 and U+00FC (so text is not kept in general: Hangul is damaged).", "quantifier": "all tables of this kind, all conversions around them, all inputs and cuts, all earlier uses", "why_tests_cant": "texts, tables and the ways to cut a stream are unbounded; the damage only shows for characters whose internal form begins with that of a shorter key", "anchors": ["modules/inter/BONUS.c:cbconv", "modules/inter/ZH-BONUS.txt", "modules/inter/ZH-BONUS-PHRASE.txt", "src/libbsdconv.c:bsdconv"]}
{"id": "C67", "title": "Trained scores (SCORE-TRAIN, SCORE#WITH=TRAINED)", "statement": "A score file holds one number for every character. A conversion with SCORE-TRAIN between two Unicode encodings writes the text as without it; afterwards each character's number has gone up by its occurrences in the text, but not above 3 (numbers of 3 and more stay); no other number changes, the file grows no further than to the largest character counted; and if a list is attached, exactly the characters that had number 0 were appended to it, each once, in the order of their first occurrences, as four bytes, most significant first. The results are determined and do not depend on the cuts. A conversion with SCORE#WITH=TRAINED writes the text unchanged and raises the counter by the sum of the numbers, for every text whose characters the file covers - and a text that has been trained is covered, each of its characters counting at least 1. (For a character behind the end of the file an uninitialised variable is added.)", "quantifier": "all score files and lists, all texts, all pairs of Unicode encodings and cuts, all states reached before", "why_tests_cant": "texts, files and histories are unbounded; the file is carried from one conversion to the next", "anchors": ["modules/inter/SCORE-TRAIN.c:cbconv", "modules/inter/SCORE-TRAIN.c:cbctl", "modules/inter/SCORE.c:cbconv", "src/libbsdconv.c:bsdconv"]}
{"id": "C68", "title": "Single byte charsets agree with the code pages", "statement": "For the Windows code pages 1251 to 1258 and 874 and for ISO-8859-1 (A0..FF): a conversion from the charset to a Unicode encoding writes, for every text of bytes, the characters the bytes stand for in the standard's code page (a byte the code page does not use is read as the control character of the same number; ISO-8859-1 does not read 80..9F and NUL). For 1251, 1252, 1253, 874 and ISO-8859-1 a conversion from a Unicode encoding writes, for every text of characters the code page has, exactly the bytes that stand for them; in any other text the characters the code page does not have are left out, each counted as one output error (the small tilde becomes ~); and a conversion between two of these charsets replaces every byte by the one that stands for the same character; in particular a text is reproduced by a conversion from a charset to itself. Exceptions: U+0000, and for 1253 and 874 the characters U+0080 to U+00FF (the tables have them under a form that no character has), which are lost.", "quantifier": "all texts, all these charsets and pairs of them, all Unicode encodings, all cuts into calls, all earlier uses", "why_tests_cant": "texts are unbounded; the exceptions only show for particular characters in particular tables", "anchors": ["modules/from/_CP1251.txt", "modules/to/_CP1251.txt", "modules/from/_CP1253.txt", "modules/to/_CP1253.txt", "modules/to/_CP874.txt", "modules/from/FALLBACK-UNICODE.txt", "modules/from/alias", "modules/to/alias", "src/libbsdconv.c:bsdconv"]}
