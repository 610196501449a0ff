{
 "C03": {
  "note": "Exact round trip under the stated conditions, normal form in general; C03_roundtrip_refuted shows the conditions are needed."
 },
 "C05": {
  "note": "C05_multiphase_alias_refuted: false for aliases that expand to several phases."
 },
 "C07": {
  "note": "Acyclicity of the shipped alias tables is proved from their data; C07_cyclic_alias_refuted shows the loop diverges on a cycle."
 },
 "C09": {
  "note": "C09_replace_phase_out_of_range_refuted: an out-of-range index writes outside the phase array."
 },
 "C11": {
  "note": "C11_index_below_refuted: below -n the index is not normalised into range."
 },
 "C14": {
  "note": "True for the has-then-get idiom; C14_bare_get_refuted / C14_bare_get_returns_last_touched: a bare get returns the most recently touched key's value."
 },
 "C15": {
  "note": "True for has-then-del; C15_bare_del_refuted: a bare del of a non-head key leaves a freed node linked."
 },
 "C16": {
  "note": "C16_odd_length_refuted: every odd-length digit string overflows the block by one byte."
 },
 "C17": {
  "note": "C17_short_write_refuted: a descriptor that does not accept all bytes loses them (write()'s result is ignored)."
 },
 "C18": {
  "note": "The size query is exact unless the conversion ends with a decoder: C18_query_after_decoder_refuted."
 },
 "C20": {
  "note": "C20_second_pass_refuted: handing a second chained input to the same instance without re-initialisation loses data."
 },
 "C21": {
  "note": "For conversions built from table modules whose keys are non-empty (conv_ok): every call sequence returns with no undefined behaviour, from any past. Calls whose input block has further blocks linked behind it (BSDCONV_PASS) are excluded. C21_endless_loop_refuted shows the limit: a prefix codec with an empty entry makes bsdconv() loop forever.",
  "status": "proved"
 },
 "C22": {
  "note": "Conditions shown necessary by C22_second_decoder_refuted and C22_adjacent_decoders_refuted. C22_sources_compile connects source text to the hypotheses."
 },
 "C23": {
  "note": "C23_empty_prefix_refuted: without the condition on empty prefix entries bytes are lost."
 },
 "C25": {
  "note": "C25_multi_datum_refuted: several data can be dropped for one counted error when keys span data."
 },
 "C26": {
  "note": "C26_chunked_error_refuted: a decoding error after a chunk boundary loses bytes."
 },
 "C27": {
  "note": "C27_error_after_flush_refuted: a decoding error at the start of a following stream loses bytes."
 },
 "C29": {
  "note": "For ordinary lines; '!' lines break it: C29_case_insensitive_refuted, C29_case_upper_refuted."
 },
 "C30": {
  "note": "Every source the compiler accepts, including '?' and '!' lines; little-endian machine; files under 2^32 bytes. C30_lookup_in_file composes with C29.",
  "status": "proved"
 },
 "C31": {
  "note": "Engine-level and iff, for every chunking and every at-rest state. The upper bound is 0x1FFFFF, not U+10FFFF (C31_beyond_unicode_refuted), and U+0000 is rejected by the UTF-8 alias.",
  "status": "proved"
 },
 "C32": {
  "note": "All 25 pairs of UTF-8/UTF-16/UTF-32, any chunking; U+0000 excepted (C32_nul_byte_refuted).",
  "status": "proved"
 },
 "C33": {
  "note": "U+0000 excepted: the empty value swallows the next character (C33_nul_swallows_next_refuted). C33_ucs2: UCS-2 writes the characters below U+10000 and counts every other one as an output error.",
  "status": "proved"
 },
 "C34": {
  "note": "All code points 1..10FFFF including surrogates; U+0000 excepted as for C33.",
  "status": "proved"
 },
 "C35": {
  "note": "Callback level: the step functions of from/_GB18030 and to/_GB18030 (four-byte algorithm and range tables); the ~30k tabulated lines of the codec are not part of this model. C35_bytes_unchecked_refuted: the decoder does not check that byte 2 and 4 are digits 30..39.",
  "status": "proved"
 },
 "C36": {
  "note": "Engine level: every text of user-defined-area codes in any chunking, on a new instance; injectivity on valid codes. Invalid trail bytes and re-initialisation refuted (C36_*_refuted).",
  "status": "proved"
 },
 "C37": {
  "note": "Engine level, all chunkings, any prior use: all spellings are read; bytes, characters U+0100..U+FFFF (%u, \\u) and all characters except U+0000 (&#, &#x) round trip. Outside the ranges it fails (refuted theorems: below U+0100, above U+FFFF, octal limit, U+0000)."
 },
 "C38": {
  "note": "Decoder at phase level (every division into calls and buffers, after bsdconv_init); encoder at engine level. Data boundaries, separators split from their digits, and a second bsdconv_init are refuted (C38_*_refuted).",
  "status": "proved"
 },
 "C39": {
  "note": "Whole conversions src:IBM-9xx and IBM-9xx:dst (any chunking, any history, any initial memory, any compiled table with the shift lines): C39_encode_conversion, C39_decode_conversion, C39_round_trip_conversion; also phase-level versions for arbitrary data lists. Only data that have codes: refuted otherwise (C39_unmapped_refuted, C39_silent_drop_refuted).",
  "status": "proved"
 },
 "C40": {
  "note": "Proved about the streams the composition and decomposition modules pass on, for every stream of data; C40_syllable_and_final_refuted and C40_other_data_refuted give the two cases where the English claim is false of the code. Also proved inside whole conversions src:MODULE:dst between the Unicode encodings (C40_*_conversion...): any chunking, any lossless output modes, the stream after bsdconv_init of an instance with any history."
 },
 "C41": {
  "note": "Proved for every stream; C41_abandoned_refuted: the module has no initialisation, so a pending run left by an abandoned conversion leaks into the next. Also proved inside whole conversions src:MODULE:dst between the Unicode encodings (C41_conversion...): any chunking, any lossless output modes, the stream after bsdconv_init of an instance with any history."
 },
 "C42": {
  "note": "Callback level under the star-table driver (M_Star): the WIDTH callback over any datum sequence and split into streams. Also proved inside whole conversions src:MODULE:dst between the Unicode encodings (C42_conversion...): any chunking, any lossless output modes, the stream after bsdconv_init of an instance with any history.",
  "status": "proved"
 },
 "C43": {
  "note": "Callback level under the star-table driver. Also proved inside whole conversions src:MODULE:dst between the Unicode encodings (C43_conversion...): any chunking, any lossless output modes, the stream after bsdconv_init of an instance with any history.",
  "status": "proved"
 },
 "C44": {
  "note": "True for Unicode data. C44_other_data_refuted: UNPAD deletes data of other kinds; C44_unpadded_text_refuted: it also deletes text that merely looks padded. Also proved inside whole conversions src:MODULE:dst between the Unicode encodings (C44_conversion...): any chunking, any lossless output modes, the stream after bsdconv_init of an instance with any history.",
  "status": "proved"
 },
 "C45": {
  "note": "All shipped range tables, extracted by tools/gen_ranges.py. The title's claim for PRINT/control overlap is refuted separately (C45_print_control_refuted); C45_unsorted_refuted shows the sortedness premise is needed.",
  "status": "proved"
 },
 "C46": {
  "note": "All shipped scorer tables.",
  "status": "proved"
 },
 "C47": {
  "note": "Whole conversions: INSERT and NULL between the Unicode encodings at engine level; REPLACE in src:REPLACE:dst for every text, chunking and lossless output mode, the stream after bsdconv_init, under the stated condition on the end of the stream (none for one or two characters, C47_replace_short); C47_replace_end_refuted: without it a text that does not contain the pattern is changed.",
  "status": "proved"
 },
 "C48": {
  "note": "Callback level: C48_pass: PASS as the only codec of its phase does not remove what its filter rejects. Also proved inside whole conversions src:MODULE:dst between the Unicode encodings (C48_*_conversion...): any chunking, any lossless output modes, the stream after bsdconv_init of an instance with any history.",
  "status": "proved"
 },
 "C49": {
  "note": "All interleavings of the two phases; C49_dropped_refuted: whitespace after an abandoned conversion is lost."
 },
 "C50": {
  "note": "Crash model: the C library may have written any prefix of the buffered output. C50_name_always_there_refuted, C50_full_device_refuted show what does not hold.",
  "status": "proved"
 },
 "C51": {
  "note": "C51_whole_file at engine level for lossless conversions and any used instance.",
  "status": "proved"
 },
 "C52": {
  "note": "For valid types and a directory that can be entered again; C52_invalid_type_refuted, C52_no_return_refuted, C52_threads_refuted show the limits.",
  "status": "proved"
 },
 "C53": {
  "note": "For blocks not larger than a pool; C53_large_block_refuted and C53_empty_block_refuted show the limits.",
  "status": "proved"
 },
 "C55": {
  "note": "Table codecs beside the fallback in each phase. The event counter chosen by the ERROR argument is not modelled; callback codecs (UTF-8) beside a fallback are not covered.",
  "status": "proved"
 },
 "C56": {
  "note": "Any tables for the three sets; lookups by longest unique key as in compiled tables. Without cbinit the set persists over bsdconv_init (C56_reinit_refuted), half a code before an escape sequence vanishes without error (C56_half_character_refuted); bytes without a meaning are not covered.",
  "status": "proved"
 },
 "C57": {
  "note": "C57_conversion for any filter, C57_script for the filters of C45; runs shorter than 2^32. Argument parsing of cbcreate is not modelled. A negative MIN-LEN suppresses everything (C57_negative_min_refuted).",
  "status": "proved"
 },
 "C58": {
  "note": "C58_conversion; C58_total shows which texts are covered, C58_kept and C58_stable what the specification means. A text that ends in a lead byte loses it (C58_lone_lead_refuted). The MARK flag is not modelled.",
  "status": "proved"
 },
 "C59": {
  "note": "C59_conversion: any mixture of table phases (S_Fallback semantics), Unicode decoders/encoders and steady modules, in any order after the first decoder: output, error counters and final module states of a whole stream are those of run_links, the composition of per-phase relations. C59_created, C59_states: instances and module states exist. C59_modules: which modules qualify (WIDTH, TRIM-WIDTH, AMBIGUOUS-PAD, AMBIGUOUS-UNPAD, COUNT, Hangul decomposition, ordering). C59_nfd: src:NFD:dst for any decomposition table. Modules that may answer DEADEND (PASS, SCORE, Hangul composition, _NFC) are allowed behind a Unicode decoder or another module (placed), not directly behind a table phase. REPLACE is in C47.",
  "status": "proved"
 },
 "C60": {
  "note": "C60_compose: the module _NFC alone, for any pair table that meets `composites`: canonically equivalent, ordered and fully composed output. C60_normal_form, C60_nfc: src:NFC:dst as the engine runs it (tables, Hangul, ordering, _NFC, Hangul composition), for any tables that meet normal_tables; same full decomposition, fully composed, idempotent, equal for equivalent texts, any cuts, any encodings. C60_shipped, C60_unicode: the 2061 lines of _NFD.txt and the 941 lines of _NFC-MAP.txt meet them. C60_created: instances exist. C60_abandoned_refuted: a text given up before its end leaves a dangling starter (double free). Simplified: the inner instance \"_NFC-MAP,COUNT#ERR\" is the pair table, and marks put back into the previous phase's list are a recursion in the module.",
  "status": "proved"
 },
 "C61": {
  "note": "C61_conversion: whole streams through conversions whose phases are the links of C59 or table files followed by COUNT (any table files mktable reads, any FOR filter); result and counters given by the relation `passed`, total and unique (C61_total, C61_unique). Proved by a simulation with an engine run in which COUNT marks what it passes. Not covered: COUNT with a codec after it in the same phase.",
  "status": "proved"
 },
 "C62": {
  "note": "C62_lookup, C62_total: the result of the modelled function for every table and ASCII name; C62_exact, C62_result, C62_shipped (shipped tables, '?' lines of LOCALE/UNICODE left out). C62_only_aliases_refuted: \"BIG5BIG5\" is no alias and is solved to \"UAO250UAO250\". Names with bytes outside 1..127 are not covered.",
  "status": "proved"
 },
 "C63": {
  "note": "C63_list for alias files whose lines are comments or have a tab and fit the buffer; C63_in_bounds for any content. qsort is modelled by insertion sort (elements that compare equal are equal strings, so the sorted permutation is unique). Refuted: a lower-case file name, or NAME.so.old for a filter, is listed and not found; a line without a tab is listed with its newline.",
  "status": "proved"
 },
 "C64": {
  "note": "C64_image_links and C64_references: every text is written, ASCII as it is and the rest in the notation (S_Writers: shortest upper-case hexadecimal; S_Escape: numeric references, U+0000 excluded), over all chunkings and repeated streams (converts, S_Rest). C64_links_distinct: links determine the character. C64_raw: the bytes of the codes; C64_raw_ambiguous: they cannot be read back. The links of ASCII-HTML-INFO (an embedded CNS11643 conversion) are not modelled.",
  "status": "proved"
 },
 "C65": {
  "note": "C65_completion: the program completes every non-empty argument and no write leaves the array or a line (the model returns None if one does); S_Complete says what the argument without quotes, its last name and the kind of module are (relations, shown to be functional by C65_bare_unique, C65_last_unique, C65_kind_unique). C65_lines: the printed lines are exactly the completions, without repetition, each beginning with the argument. C65_modules_offered: with the lists of C63, every installed module that fits is offered. C65_no_argument_refuted: arg[-1] is read for an empty argument.",
  "status": "proved"
 },
 "C66": {
  "note": "C66_conversion (any conversion around the module), C66_created, C66_total, C66_unique; C66_text / C66_text_kept for ZH-BONUS, and C66_text_kept_refuted: U+C5C0 is written as U+00C5. ZH-BONUS-PHRASE has a key that begins another one and is outside the theorem (C66_phrase_refuted). The sharing of the counter SCORE between modules is not modelled.",
  "status": "proved"
 },
 "C67": {
  "note": "C67_train, C67_trained_unique, C67_newly_unique: the rule for data, and its results are determined; C67_train_conversion / C67_train_created: in a conversion. C67_score_conversion: SCORE#WITH=TRAINED on covered text, whatever the uninitialised variable holds; C67_train_then_score: trained texts are covered and every character counts; C67_score_uncovered_refuted: a character behind the end of the file counts what is in memory. fopen is assumed to succeed for SCORE-TRAIN, and the file is written at once and by nobody else.",
  "status": "proved"
 },
 "C68": {
  "note": "C68_read (ten charsets), C68_write, C68_between, C68_round_trip (five charsets). The code pages (S_Pages) come from Python's codecs, not from the repository; the tables (D_Charsets) are the files, verbatim, compiled by the model of mktable; the agreement of the tables is computed in the kernel for all bytes, texts are treated by the engine theorems. C68_spoiled_refuted: A3 (the pound sign) in CP1253:CP1253 is lost. C68_write_any: every text, with characters the charset does not have: they are left out and counted as output errors (the small tilde is written as ~); C68_put_total / C68_put_unique: what is written is defined and determined; C68_writer_created.",
  "status": "proved"
 }
}