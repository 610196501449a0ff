#!/usr/bin/env python3
# Generates /verif/properties.jsonl (source of truth for the property texts).
import json,os
P=[]
def p(title,statement,quantifier,why,anchors):
    P.append(dict(id="C%02d"%(len(P)+1),title=title,statement=statement,quantifier=quantifier,why_tests_cant=why,anchors=anchors))
L="src/libbsdconv.c"
# ---- A. conversion strings
p("Conversion-string grammar",
  "Parsing a conversion string succeeds exactly when, after splitting at '|' and ':' into phases and each phase at ',' into codecs, no phase is empty and no codec name (the part before the first '#') is empty; otherwise it reports a syntax error.",
  "every byte string given as a conversion","the set of strings is infinite; a test only samples accepted and rejected ones",[L+": bsdconv_unpack"])
p("Phase roles are determined by pipeline position",
  "In a parsed conversion, a '|'-separated segment with at least two phases decodes with its first phase and encodes with its last phase, everything else is an intermediate filter; a segment of one phase is an intermediate filter.",
  "every accepted conversion string","unbounded number of segments and phases",[L+": bsdconv_unpack"])
p("Serialising a parsed conversion gives the string back",
  "bsdconv_pack of a parsed conversion returns the very string parsed, provided no codec has an explicitly empty argument list and every segment after the first has at least two phases; in general it returns a normal form, and normalising twice is the same as normalising once.",
  "every accepted conversion string","infinitely many strings, and the exceptional ones are found only by reasoning",[L+": bsdconv_pack, bsdconv_unpack"])
p("bsdconv_pack never overflows its buffer",
  "The buffer allocated by bsdconv_pack is large enough for the string it builds, including the copies of a codec's argument distributed over every member of an expanded alias.",
  "every instance shape, every codec name (with any number of commas) and argument","memory safety over all sizes",[L+": bsdconv_pack"])
p("Alias expansion distributes arguments",
  "When a codec 'NAME#args' is replaced by an alias expansion 'A,B#x,...' the packed conversion gives args to every member: 'A#args,B#x&args,...'.",
  "every alias expansion and argument string","infinitely many expansions",[L+": bsdconv_pack, bsdconv_create"])
p("Conversion creation ignores whitespace",
  "bsdconv_create gives the same result for two conversion strings that differ only by CR, LF, TAB, FF and SPACE characters.",
  "every conversion string, every placement of whitespace","infinite",[L+": bsdconv_create"])
p("Alias resolution reaches a fixed point",
  "If the alias table is acyclic then bsdconv_create's expansion loop terminates for every conversion string and ends either in an error or in a conversion all of whose codecs are installed modules; with a cyclic alias table it may loop forever.",
  "every alias table, module set and conversion string","termination cannot be tested",[L+": bsdconv_create","src/libbsdconv_module.c: bsdconv_solve_alias"])
p("Codec argument parsing",
  "The argument string 'k1=v1&k2&...' reaches the codec as the list of its '&'-separated items in order, each split at its first '='; joining the items back gives the string.",
  "every argument string","infinite",[L+": _cbcreate"])
p("Phase editing is list editing",
  "bsdconv_insert_phase and bsdconv_replace_phase return the conversion obtained by inserting/replacing one phase at the (normalised) index, all other phases, codecs and arguments unchanged; no write falls outside the phase array when the index is in range.",
  "every parsed conversion, every new phase, every index","index arithmetic over all integers",["src/libbsdconv_util.c: bsdconv_insert_phase, bsdconv_replace_phase, bsdconv_get_phase_index"])
p("Codec editing is list editing",
  "bsdconv_insert_codec and bsdconv_replace_codec change exactly the addressed codec list of the addressed phase.",
  "every parsed conversion, codec, phase and codec index","index arithmetic over all integers",["src/libbsdconv_util.c: bsdconv_insert_codec, bsdconv_replace_codec, bsdconv_get_codec_index"])
p("Index normalisation",
  "Phase and codec indexes count from the front when non-negative and from the back when negative, and address an existing element for every index from -n to n-1 (and only those).",
  "every integer index and every length","unbounded integers; C remainder of negatives",["src/libbsdconv_util.c: bsdconv_get_phase_index, bsdconv_get_codec_index"])
# ---- B. counters, hash
p("Counters are a case-insensitive map with stable handles",
  "bsdconv_counter(name) returns the same cell for names equal up to ASCII case and different cells otherwise; a handle stays valid and keeps naming the same counter after any later history of counter creations and resets; a new counter starts at 0.",
  "every sequence of counter operations","history-dependent",["src/libbsdconv_counter.c: bsdconv_counter"])
p("Counter reset scope",
  "bsdconv_counter_reset(NULL) sets every counter to 0; with a name it sets exactly that counter to 0 and leaves all others as they are.",
  "every counter history and name","history-dependent",["src/libbsdconv_counter.c: bsdconv_counter_reset"])
p("Instance hash behaves as a map",
  "After any history of set/has/get operations following the documented test-then-get idiom, get returns the last value set for the key, and has tells whether the key was set.",
  "every operation history","history-dependent; the list is reordered by every lookup",["src/libbsdconv_hash.c"])
p("Hash deletion",
  "bsdconv_hash_del removes exactly the key and leaves every other key's value unchanged.",
  "every history","history-dependent pointer surgery",["src/libbsdconv_hash.c: bsdconv_hash_del"])
p("Hexadecimal datum parsing",
  "str2datum and str2data turn a hexadecimal string into the byte string it denotes (data separated by '.'), reject strings with a non-hexadecimal digit, and write only inside the memory they allocated.",
  "every string","infinite; memory safety",["src/libbsdconv_util.c: str2datum, str2data"])
# ---- C. output modes
p("Output modes deliver every byte exactly once",
  "Whatever sequence of output modes (automatic buffer, preallocated buffer of any size, file, descriptor) a program uses between conversions, the concatenation of what it receives followed by what is still queued equals the converted data: nothing is lost, duplicated or reordered.",
  "every sequence of calls and buffer sizes","history-dependent",[L+": bsdconv (output switch)"])
p("Preallocated output fits and is maximal",
  "With a preallocated buffer of n>0 bytes bsdconv writes at most n bytes, reports exactly the number written, and stops only because the next whole datum does not fit or nothing is left; with a null buffer or n=0 it reports the exact number of bytes pending and keeps them all.",
  "every queue and buffer size","unbounded sizes, memory safety",[L+": bsdconv BSDCONV_PREMALLOCED"])
p("Automatic output buffer is exact",
  "BSDCONV_AUTOMALLOC allocates exactly the pending bytes plus the slack requested in output.len, fills only the pending part and reports its length.",
  "every queue and slack","memory safety over sizes",[L+": bsdconv BSDCONV_AUTOMALLOC"])
p("Passing output to another instance",
  "BSDCONV_PASS hands the converted bytes to the next instance in order, so that converting an input through two freshly initialised chained instances equals the composition of the two conversions (if the second decodes without error).",
  "every queue","pointer-chain dependent",[L+": bsdconv BSDCONV_PASS, bsdconv entry"])
# ---- D. engine
p("Conversion always terminates safely",
  "A call of bsdconv on a table-driven conversion (decoders not adjacent, entries that begin a longer one not empty) terminates and never touches freed or unowned memory, whatever the tables, the pipeline, the queued data, the input chunk, decoding errors and the flush flag.",
  "every table, pipeline, input and history of calls","termination and memory safety for all inputs",[L+": bsdconv"])
p("A conversion is the composition of its phases",
  "For a table-driven conversion, converting an input and flushing yields exactly phase_n(...(phase_1(input))): running the phases interleaved, as the engine does, gives the same output and the same error counts as running each phase to completion one after another (decoders not adjacent, entries that begin a longer one not empty; decoding errors only in the first phase).",
  "every pipeline of any length, every table and every input","scheduling of phases depends on data",[L+": bsdconv"])
p("Decoding is first-codec, longest-match, skip-one-on-error",
  "A decoding phase repeatedly takes, at the current position, the first codec in the list with a matching table entry and the longest entry of that codec, emitting its data; when no codec matches it skips exactly one byte and counts one input error.",
  "every table list and every input","infinite inputs, backtracking",[L+": bsdconv FROM"])
p("Intermediate phases replace longest matches and pass the rest through",
  "An intermediate phase replaces the longest match (over whole data, first codec first) and passes a datum that starts no match through unchanged; it never loses or reorders data.",
  "every table list and datum sequence","infinite inputs, backtracking",[L+": bsdconv INTER"])
p("Encoding maps or counts",
  "An encoding phase emits the longest match of the first matching codec; a datum that no codec can encode is dropped and counted as exactly one output error (if the last codec's entries are for single data).",
  "every table list and datum sequence","infinite inputs",[L+": bsdconv TO"])
p("Chunking does not matter",
  "Splitting an input that decodes without error into chunks at arbitrary places and converting chunk by chunk gives the same output and counters as converting it at once.",
  "every input and every way to split it, including inside a multi-byte character","exponentially many splits",[L+": bsdconv FROM/INTER/TO"])
p("Flush drains the conversion",
  "After a call with flush set no input byte or intermediate datum is left inside the conversion: everything has been emitted or counted as an error, and following streams that decode without error give the results they give alone.",
  "every pipeline and history","history-dependent",[L+": bsdconv flush"])
p("Re-initialisation isolates streams",
  "After bsdconv_init the next conversion behaves like the first conversion of a new instance, whatever happened before, even if the previous stream was abandoned in the middle of a character (counters excepted), provided the callbacks' private states are set by cbinit.",
  "every history before the re-initialisation","history-dependent",[L+": bsdconv_init"])
# ---- E. mktable
p("Compiled tables implement their source text",
  "Walking the compiled table of a codec along a byte sequence finds exactly the data of the first source line whose pattern matches that sequence, and reports 'longer entries exist' exactly when some line's pattern extends it.",
  "every table source (lines with exact bytes, '*' wildcards and ',' separators)","infinite tables",["src/bsdconv-mktable.c: main"])
p("Compiled table layout is read back faithfully",
  "The states and data cells that the table compiler writes are read back unchanged by the runtime accessors, at any offset below 2^32.",
  "every table","binary layout over all sizes",["src/bsdconv-mktable.c: main (Write)","src/bsdconv.h: read_state, get_offset"])
# ---- F. codecs
p("UTF-8 decoder accepts exactly well-formed sequences",
  "In strict mode the UTF-8 decoder turns a byte string into code points c1..cn without error iff the bytes are the shortest-form UTF-8 encodings of c1..cn, none of them a surrogate.",
  "every byte string","2^32+ sequences and unbounded streams",["modules/from/_UTF-8.c"])
p("UTF-8 encode/decode round trip",
  "Encoding any Unicode scalar value with the UTF-8 encoder and decoding the result gives the same value back, and the encoder's output is the standard UTF-8 form.",
  "every Unicode scalar value and every sequence of them","unbounded sequences",["modules/to/_UTF-8.c","modules/from/_UTF-8.c"])
p("UTF-16 round trip",
  "Encoding any Unicode scalar value to UTF-16BE/LE and decoding gives the value back; supplementary values use a surrogate pair.",
  "every scalar value, both byte orders, every sequence","unbounded sequences",["modules/to/UTF-16BE.c","modules/from/UTF-16BE.c","modules/to/UTF-16LE.c","modules/from/UTF-16LE.c"])
p("UTF-32 round trip",
  "Encoding any Unicode code point to UTF-32BE/LE gives four bytes which decode to it.",
  "every code point, both byte orders, every sequence","unbounded",["modules/to/UTF-32BE.c","modules/from/UTF-32BE.c","modules/to/UTF-32LE.c","modules/from/UTF-32LE.c"])
p("GB18030 four-byte ranges round trip",
  "The algorithmic four-byte GB18030 mapping is a bijection between the supplementary planes and the four-byte codes 90308130..E3329A35, encoder and decoder being inverse.",
  "every code point of U+10000..U+10FFFF","1M values times context; arithmetic identity",["modules/from/_GB18030.c","modules/to/_GB18030.c"])
p("CP950 user-defined area is injective on valid codes",
  "The CP950 UDA decoder maps distinct valid two-byte codes to distinct private-use code points within the documented ranges.",
  "every two-byte code","needs the arithmetic of all ranges",["modules/from/CP950-UDA.c"])
p("Escape sequences round trip",
  "Writing data with the ESCAPE encoder and reading it back with the matching decoder gives the data back: every byte as %XX, \\\\xXX or \\\\OOO; every character U+0100..U+FFFF as %uXXXX or \\\\uXXXX; every character but U+0000 as &#NNN; or &#xHHH;. All spellings of an escape (upper and lower case digits, leading zeros) are read. Outside those ranges the round trip fails.",
  "every sequence of bytes / code points in the stated ranges, every division of the text into calls, every earlier use of the instance","infinite",["modules/to/ESCAPE.c","modules/from/ESCAPE.c","modules/from/ASCII-NUMERIC-HTML-ENTITY.c"])
p("Bsdconv hex notation round trip",
  "The BSDCONV encoder prints two hexadecimal digits per byte of each datum, and the BSDCONV decoder reads a datum printed that way back identically, whatever its bytes and length and however the digits are divided into calls (boundaries between data are not kept).",
  "every datum sequence","infinite",["modules/to/BSDCONV.c","modules/from/BSDCONV.c"])
p("Shift-state encodings switch correctly",
  "The EBCDIC mixed encoders insert SO/SI exactly at changes between single- and double-byte runs, and decoding what was encoded gives the original runs.",
  "every sequence of single- and double-byte codes","unbounded sequences, history-dependent",["modules/to/EBCDIC.c","modules/from/EBCDIC.c"])
# ---- G. inter modules
p("Hangul composition and decomposition are inverse",
  "Hangul decomposition of a precomposed syllable gives its canonical jamo sequence and composition restores it; text that contains no vowel or final jamo is unaffected by decomposing and composing.",
  "every syllable, every jamo sequence","state machine over unbounded text",["modules/inter/_NF-HANGUL-COMPOSITION.c","modules/inter/_NF-HANGUL-DECOMPOSITION.c"])
p("Canonical ordering is a stable sort between starters",
  "The normalisation reordering step outputs, between consecutive starters, the combining marks stably sorted by combining class, and nothing is lost or invented (for streams that do not follow an abandoned one).",
  "every sequence of characters","unbounded sequences",["modules/inter/_NF-ORDER.c"])
p("Width counting is additive",
  "The WIDTH filter's half/full/ambiguous counters are the number of characters of each class, independent of how the text is split, and the text passes unchanged.",
  "every text and split","unbounded",["modules/inter/WIDTH.c","modules/inter/_WIDTH.h"])
p("Width trimming keeps the longest fitting prefix",
  "TRIM-WIDTH#n outputs the longest prefix whose total display width is at most n.",
  "every text and n","unbounded",["modules/inter/TRIM-WIDTH.c"])
p("Ambiguous padding can be undone",
  "AMBIGUOUS-PAD inserts one pad after every ambiguous character of a text and AMBIGUOUS-UNPAD, applied to the result, removes exactly those pads.",
  "every text","history-dependent state",["modules/inter/AMBIGUOUS-PAD.c","modules/inter/AMBIGUOUS-UNPAD.c"])
p("Character-class filters are range membership",
  "A character-class filter accepts a character iff it is a Unicode datum whose code point lies in one of the filter's ranges (binary search is equivalent to membership), and all shipped range tables are sorted as the search requires.",
  "every code point and every shipped filter table","2^32 inputs per table",["modules/filter/unicode_range.c","modules/filter/*.c"])
p("Scorers are range lookups",
  "A scorer returns the score of the range containing the code point and 0 when there is none.",
  "every code point","2^32 inputs",["modules/scorer/unicode_range.c","modules/scorer/*.c"])
p("REPLACE and INSERT arguments",
  "INSERT emits its data around each datum, NULL drops every datum, and REPLACE turns the occurrences of its data, found from left to right, into the replacement, everything else unchanged (unless the stream ends inside an occurrence of which two or more data were read).",
  "every datum sequence and argument","infinite",["modules/inter/REPLACE.c","modules/inter/INSERT.c"])
p("COUNT and PASS are observers",
  "The COUNT filter passes every datum unchanged and in order and adds to its counter exactly the number of data accepted by its filters.",
  "every datum sequence","unbounded",["modules/inter/COUNT.c"])
p("Whitespace derail/rerail are inverse",
  "WHITESPACE-RERAIL applied to the output of WHITESPACE-DERAIL restores the original text.",
  "every text","history-dependent state",["modules/inter/WHITESPACE-DERAIL.c","modules/inter/WHITESPACE-RERAIL.c"])
# ---- H. environment
p("In-place conversion never destroys both copies",
  "When the command line tool converts a file in place, at every crash point either the original content or the complete converted content exists on disk under the original or the temporary name.",
  "every file and every crash point","crash points",["src/bsdconv.c: main"])
p("The command-line loop converts the whole file",
  "The tool's read/convert/flush loop feeds every byte of the file once and in order, sets flush exactly on the last call, for every file length (including multiples of the buffer size) and read splitting.",
  "every file content and every sequence of short reads","unbounded schedule of reads",["src/bsdconv.c: bsdconv_file"])
p("Loading codecs preserves the working directory",
  "After any library call that looks up modules the process working directory is what it was before.",
  "every call and every intermediate failure","environment-dependent paths",[L+": loadcodec","src/libbsdconv_module.c"])
p("Arena allocations are disjoint",
  "Blocks handed out by the table compiler's arena allocator are disjoint and lie inside its pools.",
  "every sequence of allocation sizes","unbounded sequences",["src/libfmalloc.c"])
p("Error strings",
  "bsdconv_error describes the error set by the failed call and is defined for every error number.",
  "every error number","all integers",[L+": bsdconv_error"])
p("Fallback codecs substitute exactly what cannot be converted",
  "In every phase that ends with the fallback codec ANY (also called 3F and SUB), exactly the bytes (decoding phase) or data (later phases) that no other codec of the phase matches are replaced, one replacement each, by the fallback's data: '?' by default, nothing with DROP, or the hexadecimal data given as arguments; everything else is converted as without the fallback. With fallbacks in every phase every byte string converts, in exactly one way.",
  "every conversion of table codecs, every byte string, every division into calls, every earlier use","unbounded strings and histories",["modules/from/ANY.c","modules/to/ANY.c",L+": bsdconv"])
p("ISO-2022-JP text is read by its escape sequences",
  "The conversion JIS:dst decodes every ISO-2022-JP text: each escape sequence selects its character set (ASCII, JIS X 0201, 0208, 0212) until the next one, puts nothing out, and each character after it is the one its code has in the selected set; the division of the text into calls does not matter, also within an escape sequence or a double byte code.",
  "every text, every division into calls, every earlier use of the instance that leaves the decoder between characters, all compiled tables","unbounded texts and histories",["modules/from/_JIS.c","modules/from/_JIS.txt","modules/from/alias",L+": bsdconv"])
p("STRINGS keeps exactly the long runs",
  "STRINGS puts out exactly the maximal runs of at least MIN-LEN characters that pass its filter, each with the BEFORE data in front and the AFTER data behind, in order, and nothing else; a run that reaches the end of the text is put out at the flush.",
  "every text, every filter, every minimal length, every division into calls, every earlier use","unbounded texts and histories",["modules/inter/STRINGS.c",L+": bsdconv"])
p("Control sequences are moved out of double byte characters",
  "ANSI-CONTROL,BYTE:BIG5-DEFRAG:BYTE,ANSI-CONTROL puts out the input text with the terminal control sequences that stand between a lead byte and its second byte moved behind the character: all bytes and all control sequences are kept in their order, every lead byte is followed by its second byte, and nothing else changes, for every text that does not end within a character.",
  "every text of bytes and control sequences, every division into calls (also within a control sequence), every earlier use","unbounded texts and histories",["modules/from/ANSI-CONTROL.c","modules/from/BYTE.txt","modules/inter/BIG5-DEFRAG.c","modules/to/BYTE.txt","modules/to/PASS.c","modules/to/alias",L+": bsdconv"])
p("A conversion's phases act one after the other whatever their kinds",
  "For a conversion whose phases are any mixture of compiled tables (possibly with several codecs and an ANY fallback), Unicode encodings and the stateful intermediate modules COUNT, WIDTH, TRIM-WIDTH, AMBIGUOUS-PAD/UNPAD, Hangul decomposition and canonical ordering, the output of a whole stream is the composition of what each phase does to a whole stream, no input error is counted for well-formed input, output errors add up, and each module's counter ends where its own phase leaves it. In particular src:NFD:dst writes the canonical decomposition: characters replaced by the table, Hangul syllables by jamos, marks reordered.",
  "all conversions of that form (any tables, any number of phases), all inputs, all cuts of the input into calls, all lossless output modes, all earlier histories followed by bsdconv_init",
  "the phases run interleaved, a table phase may give out a match and take it back when a longer one completes, and modules keep private state between calls: tests see a few combinations and cuts",
  ["src/libbsdconv.c:bsdconv", "bsdconv.h:LISTCPY_ST", "modules/inter/_NFD.txt", "modules/inter/_NF-ORDER.c", "modules/inter/_NF-HANGUL-DECOMPOSITION.c", "modules/inter/COUNT.c"])
p("NFC writes the one composed form of a text",
  "src:NFC:dst writes a text that is canonically equivalent to its input (same full canonical decomposition), has its combining marks in canonical order and is fully composed: no starter is followed, unblocked, by a character it makes a pair with, and no leading consonant by a vowel. Normalising the output again changes nothing, and all canonically equivalent inputs give the same output.",
  "every text, every pair of Unicode encodings, every cut of the input into calls, every table pair that satisfies the listed conditions (the shipped ones do)",
  "unbounded sequences of combining marks, pending state across calls, and an algorithm that rewrites the previous phase's queue",
  ["modules/inter/_NFC.c", "modules/inter/_NFC-MAP.txt", "modules/inter/_NFD.txt", "modules/inter/_NF-ORDER.c", "modules/inter/_NF-HANGUL-COMPOSITION.c", "modules/inter/alias", "src/libbsdconv.c:bsdconv"])
p("COUNT counts exactly what its phase's tables do not match",
  "In a conversion with a phase T1,...,Tk,COUNT (tables, then COUNT) the phase replaces every match of the tables and passes every other character unchanged, and the counter goes up by exactly the number of characters passed (that the FOR filter accepts). The result and the count depend only on the whole stream, not on how it is cut; bsdconv_init keeps the counter.",
  "all table files, all streams, all cuts into calls, all lossless output modes, all earlier histories, any phases before and after",
  "COUNT is tried at each datum while the tables may still complete a longer match, its answer is remembered or discarded and the input is re-read; only all interleavings of both show that nothing is counted twice or lost",
  ["src/libbsdconv.c:bsdconv", "modules/inter/COUNT.c", "src/libbsdconv_module.c:bsdconv_solve_alias"])
p("Alias look-up returns the target of an alias",
  "bsdconv_solve_alias, which is itself a conversion (ASCII:ALIAS-x,COUNT#ERR:ASCII), returns the target of the name if the name (case-insensitively) is an alias. It returns NULL exactly when the longest-match split of the name into aliases leaves a character over; otherwise the result is the concatenation of the targets. (So a concatenation of aliases is solved too: the stricter claim is refuted.)",
  "all alias tables of ASCII names, all ASCII names",
  "names and tables are unbounded; the answer depends on longest-match behaviour inside names that contain other aliases",
  ["src/libbsdconv_module.c:bsdconv_solve_alias", "modules/inter/ALIAS-FROM.txt", "modules/inter/ALIAS-INTER.txt", "modules/inter/ALIAS-TO.txt", "modules/inter/COUNT.c"])
p("The module list is complete, sorted and in bounds",
  "bsdconv_modules_list returns a NULL-terminated array of the names of the module files of the type (files without a dot, or for filters and scorers the part of the name of a .so file before the dot) and of the names the alias file defines, each as often as it is there, in byte order; whatever the directory and the file contain, no write leaves the array. A name bsdconv_module_check accepts is listed (if it has no dot), and a listed upper-case module file is accepted.",
  "all directory contents in any order, all alias files, all names",
  "the array grows in steps of 8 at four places and the number of names is unbounded; file contents are arbitrary",
  ["src/libbsdconv_module.c:bsdconv_modules_list", "src/libbsdconv_module.c:bsdconv_codecs_list", "src/libbsdconv_module.c:bsdconv_module_check", "src/libbsdconv_module.c:scmp"])
p("Characters without a code are written out","Behind ASCII, the writers HTML-IMG and the numeric reference encoders leave every ASCII character as it is (and write U+02DC as ~) and write every other character in their notation: a link to the image of the character with its code in the shortest upper-case hexadecimal form, or a numeric reference; no character is lost or counted as an error. Different characters get different links. RAW writes the bytes of the code of every character, most significant first and as few as possible, so that its output cannot be split into characters again.","all texts of all characters of the source encoding, all chunkings, all output modes that lose nothing, repeated streams","unit tests try single characters",["modules/to/ASCII-HTML-UNICODE-IMG.c:cbconv","modules/to/RAW.c:cbconv","modules/to/ESCAPE.c:cbconv","modules/to/ASCII.txt"])
p("Completion offers every module that can follow",
  "For every non-empty argument bsdconv-completion prints, without leaving the bounds of its blocks, exactly the lines made of the argument (upper-cased, without a quote in front and one at the end) with its last name replaced by a module name that begins with it: the intermediate modules and, after a colon, the output modules, otherwise the input modules. No line is printed twice, every line begins with the argument, and every installed module that fits is offered. (Without an argument, or with an empty one, it reads before the beginning of a block.)",
  "all arguments, all module directories and alias files",
  "arguments and lists are unbounded, and the size of the array and of the lines depends on both",
  ["src/bsdconv-completion.c:main", "src/bsdconv-completion.c:item_in_array"])
p("A bonus module replaces the keys it finds and counts their bonuses",
  "In a conversion with a bonus module (a table of lines key, bonus, replacement, in which no key begins another), read from left to right: where the data begin with a key - its data, the last of which may go on behind the key's last byte - they are replaced by the line's replacement and the counter SCORE goes up by the bonus; any other datum passes unchanged; this is defined for all data and unique, and does not depend on how the input is cut into calls. For ZH-BONUS between two Unicode encodings this means: every character is written as it is, except those of U+2300..23FF, U+C500..C5FF and U+FC00..FCFF, which come out as U+0023, U+00C5 and U+00FC (so text is not kept in general: Hangul is damaged).",
  "all tables of this kind, all conversions around them, all inputs and cuts, all earlier uses",
  "texts, tables and the ways to cut a stream are unbounded; the damage only shows for characters whose internal form begins with that of a shorter key",
  ["modules/inter/BONUS.c:cbconv", "modules/inter/ZH-BONUS.txt", "modules/inter/ZH-BONUS-PHRASE.txt", "src/libbsdconv.c:bsdconv"])
p("Trained scores (SCORE-TRAIN, SCORE#WITH=TRAINED)",
  "A score file holds one number for every character. A conversion with SCORE-TRAIN between two Unicode encodings writes the text as without it; afterwards each character's number has gone up by its occurrences in the text, but not above 3 (numbers of 3 and more stay); no other number changes, the file grows no further than to the largest character counted; and if a list is attached, exactly the characters that had number 0 were appended to it, each once, in the order of their first occurrences, as four bytes, most significant first. The results are determined and do not depend on the cuts. A conversion with SCORE#WITH=TRAINED writes the text unchanged and raises the counter by the sum of the numbers, for every text whose characters the file covers - and a text that has been trained is covered, each of its characters counting at least 1. (For a character behind the end of the file an uninitialised variable is added.)",
  "all score files and lists, all texts, all pairs of Unicode encodings and cuts, all states reached before",
  "texts, files and histories are unbounded; the file is carried from one conversion to the next",
  ["modules/inter/SCORE-TRAIN.c:cbconv", "modules/inter/SCORE-TRAIN.c:cbctl", "modules/inter/SCORE.c:cbconv", "src/libbsdconv.c:bsdconv"])
p("Single byte charsets agree with the code pages",
  "For the Windows code pages 1251 to 1258 and 874 and for ISO-8859-1 (A0..FF): a conversion from the charset to a Unicode encoding writes, for every text of bytes, the characters the bytes stand for in the standard's code page (a byte the code page does not use is read as the control character of the same number; ISO-8859-1 does not read 80..9F and NUL). For 1251, 1252, 1253, 874 and ISO-8859-1 a conversion from a Unicode encoding writes, for every text of characters the code page has, exactly the bytes that stand for them; in any other text the characters the code page does not have are left out, each counted as one output error (the small tilde becomes ~); and a conversion between two of these charsets replaces every byte by the one that stands for the same character; in particular a text is reproduced by a conversion from a charset to itself. Exceptions: U+0000, and for 1253 and 874 the characters U+0080 to U+00FF (the tables have them under a form that no character has), which are lost.",
  "all texts, all these charsets and pairs of them, all Unicode encodings, all cuts into calls, all earlier uses",
  "texts are unbounded; the exceptions only show for particular characters in particular tables",
  ["modules/from/_CP1251.txt", "modules/to/_CP1251.txt", "modules/from/_CP1253.txt", "modules/to/_CP1253.txt", "modules/to/_CP874.txt", "modules/from/FALLBACK-UNICODE.txt", "modules/from/alias", "modules/to/alias", "src/libbsdconv.c:bsdconv"])
out=os.path.join(os.path.dirname(__file__),"..","properties.jsonl")
with open(out,"w") as f:
    for x in P: f.write(json.dumps(x)+"\n")
print(len(P))
