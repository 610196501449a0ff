{
 "claims": [
  {
   "property": "C01",
   "status": "proved",
   "theorems": [
    "C01_unpack_grammar",
    "C01_unpack_rejects"
   ],
   "note": ""
  },
  {
   "property": "C02",
   "status": "proved",
   "theorems": [
    "C02_roles"
   ],
   "note": ""
  },
  {
   "property": "C03",
   "status": "proved",
   "theorems": [
    "C03_pack_unpack_roundtrip",
    "C03_pack_unpack_normal",
    "C03_pack_stable",
    "C03_roundtrip_refuted"
   ],
   "note": "Exact round trip under the stated conditions, normal form in general; C03_roundtrip_refuted shows the conditions are needed."
  },
  {
   "property": "C04",
   "status": "proved",
   "theorems": [
    "C04_pack_buffer"
   ],
   "note": ""
  },
  {
   "property": "C05",
   "status": "proved",
   "theorems": [
    "C05_alias_distributes",
    "C05_multiphase_alias_refuted"
   ],
   "note": "C05_multiphase_alias_refuted: false for aliases that expand to several phases."
  },
  {
   "property": "C06",
   "status": "proved",
   "theorems": [
    "C06_whitespace",
    "C06_only_whitespace"
   ],
   "note": ""
  },
  {
   "property": "C07",
   "status": "proved",
   "theorems": [
    "C07_alias_resolution",
    "C07_shipped_aliases_acyclic",
    "C07_cyclic_alias_refuted",
    "C07_outcome",
    "C07_outcome_unique"
   ],
   "note": "Acyclicity of the shipped alias tables is proved from their data; C07_cyclic_alias_refuted shows the loop diverges on a cycle."
  },
  {
   "property": "C08",
   "status": "proved",
   "theorems": [
    "C08_args_join",
    "C08_args_parse",
    "C08_args_none"
   ],
   "note": ""
  },
  {
   "property": "C09",
   "status": "proved",
   "theorems": [
    "C09_insert_phase",
    "C09_replace_phase",
    "C09_insert_phase_text",
    "C09_replace_phase_text",
    "C09_replace_phase_out_of_range_refuted"
   ],
   "note": "C09_replace_phase_out_of_range_refuted: an out-of-range index writes outside the phase array."
  },
  {
   "property": "C10",
   "status": "proved",
   "theorems": [
    "C10_insert_codec",
    "C10_replace_codec",
    "C10_insert_codec_text",
    "C10_replace_codec_text"
   ],
   "note": ""
  },
  {
   "property": "C11",
   "status": "proved",
   "theorems": [
    "C11_index_in_range",
    "C11_index_above",
    "C11_index_below_refuted"
   ],
   "note": "C11_index_below_refuted: below -n the index is not normalised into range."
  },
  {
   "property": "C12",
   "status": "proved",
   "theorems": [
    "C12_counters_are_a_map",
    "C12_stable_handles"
   ],
   "note": ""
  },
  {
   "property": "C13",
   "status": "proved",
   "theorems": [
    "C13_reset_all",
    "C13_reset_one"
   ],
   "note": ""
  },
  {
   "property": "C14",
   "status": "proved",
   "theorems": [
    "C14_hash_is_a_map",
    "C14_bare_get_refuted",
    "C14_bare_get_returns_last_touched"
   ],
   "note": "True for the has-then-get idiom; C14_bare_get_refuted / C14_bare_get_returns_last_touched: a bare get returns the most recently touched key's value."
  },
  {
   "property": "C15",
   "status": "proved",
   "theorems": [
    "C15_bare_del_refuted",
    "C15_has_then_del"
   ],
   "note": "True for has-then-del; C15_bare_del_refuted: a bare del of a non-head key leaves a freed node linked."
  },
  {
   "property": "C16",
   "status": "proved",
   "theorems": [
    "C16_datum",
    "C16_rejects",
    "C16_odd_length_refuted",
    "C16_data",
    "C16_data_complete",
    "C16_data_empty"
   ],
   "note": "C16_odd_length_refuted: every odd-length digit string overflows the block by one byte."
  },
  {
   "property": "C17",
   "status": "proved",
   "theorems": [
    "C17_output_modes_deliver_once",
    "C17_short_write_refuted"
   ],
   "note": "C17_short_write_refuted: a descriptor that does not accept all bytes loses them (write()'s result is ignored)."
  },
  {
   "property": "C18",
   "status": "proved",
   "theorems": [
    "C18_preallocated_is_maximal",
    "C18_query_is_exact",
    "C18_query_after_decoder_refuted"
   ],
   "note": "The size query is exact unless the conversion ends with a decoder: C18_query_after_decoder_refuted."
  },
  {
   "property": "C19",
   "status": "proved",
   "theorems": [
    "C19_automatic_buffer_is_exact"
   ],
   "note": ""
  },
  {
   "property": "C20",
   "status": "proved",
   "theorems": [
    "C20_pass_composes",
    "C20_second_pass_refuted"
   ],
   "note": "C20_second_pass_refuted: handing a second chained input to the same instance without re-initialisation loses data."
  },
  {
   "property": "C21",
   "status": "proved",
   "theorems": [
    "C21_endless_loop_refuted",
    "C21_every_call_returns",
    "C21_init_succeeds"
   ],
   "note": "For conversions built from table modules whose keys are non-empty (conv_ok): every call sequence returns with no undefined behaviour, from any past. Calls whose input block has further blocks linked behind it (BSDCONV_PASS) are excluded. C21_endless_loop_refuted shows the limit: a prefix codec with an empty entry makes bsdconv() loop forever."
  },
  {
   "property": "C22",
   "status": "proved",
   "theorems": [
    "C22_sources_compile",
    "C22_composition_is_a_function",
    "C22_conversion_is_composition",
    "C22_second_decoder_refuted",
    "C22_adjacent_decoders_refuted"
   ],
   "note": "Conditions shown necessary by C22_second_decoder_refuted and C22_adjacent_decoders_refuted. C22_sources_compile connects source text to the hypotheses."
  },
  {
   "property": "C23",
   "status": "proved",
   "theorems": [
    "C23_decoding",
    "C23_empty_prefix_refuted"
   ],
   "note": "C23_empty_prefix_refuted: without the condition on empty prefix entries bytes are lost."
  },
  {
   "property": "C24",
   "status": "proved",
   "theorems": [
    "C24_intermediate",
    "C24_segments_cover"
   ],
   "note": ""
  },
  {
   "property": "C25",
   "status": "proved",
   "theorems": [
    "C25_encoding",
    "C25_multi_datum_refuted"
   ],
   "note": "C25_multi_datum_refuted: several data can be dropped for one counted error when keys span data."
  },
  {
   "property": "C26",
   "status": "proved",
   "theorems": [
    "C26_chunking",
    "C26_chunked_error_refuted",
    "C26_errors_not_hidden"
   ],
   "note": "C26_chunked_error_refuted: a decoding error after a chunk boundary loses bytes."
  },
  {
   "property": "C27",
   "status": "proved",
   "theorems": [
    "C27_flush_drains",
    "C27_error_after_flush_refuted"
   ],
   "note": "C27_error_after_flush_refuted: a decoding error at the start of a following stream loses bytes."
  },
  {
   "property": "C28",
   "status": "proved",
   "theorems": [
    "C28_reinit_isolates"
   ],
   "note": ""
  },
  {
   "property": "C29",
   "status": "proved",
   "theorems": [
    "C29_compiled_tables_implement_source",
    "C29_case_insensitive_refuted",
    "C29_case_upper_refuted"
   ],
   "note": "For ordinary lines; '!' lines break it: C29_case_insensitive_refuted, C29_case_upper_refuted."
  },
  {
   "property": "C30",
   "status": "proved",
   "theorems": [
    "C30_states_read_back",
    "C30_bytes",
    "C30_lookup_in_file"
   ],
   "note": "Every source the compiler accepts, including '?' and '!' lines; little-endian machine; files under 2^32 bytes. C30_lookup_in_file composes with C29."
  },
  {
   "property": "C31",
   "status": "proved",
   "theorems": [
    "C31_utf8_accepts_exactly",
    "C31_utf8_rejects",
    "C31_beyond_unicode_refuted",
    "C31_truncated_stream_refuted",
    "C31_error_across_chunks_refuted"
   ],
   "note": "Engine-level and iff, for every chunking and every at-rest state. The upper bound is 0x1FFFFF, not U+10FFFF (C31_beyond_unicode_refuted), and U+0000 is rejected by the UTF-8 alias."
  },
  {
   "property": "C32",
   "status": "proved",
   "theorems": [
    "C32_initialises",
    "C32_transcoding",
    "C32_utf8_round_trip",
    "C32_nul_byte_refuted"
   ],
   "note": "All 25 pairs of UTF-8/UTF-16/UTF-32, any chunking; U+0000 excepted (C32_nul_byte_refuted)."
  },
  {
   "property": "C33",
   "status": "proved",
   "theorems": [
    "C33_ucs2",
    "C33_utf16_round_trip",
    "C33_surrogate_pairs",
    "C33_nul_swallows_next_refuted",
    "C33_lone_surrogate_refuted"
   ],
   "note": "U+0000 excepted: the empty value swallows the next character (C33_nul_swallows_next_refuted). C33_ucs2: UCS-2 writes the characters below U+10000 and counts every other one as an output error."
  },
  {
   "property": "C34",
   "status": "proved",
   "theorems": [
    "C34_utf32_round_trip",
    "C34_utf32_from_any",
    "C34_four_bytes"
   ],
   "note": "All code points 1..10FFFF including surrogates; U+0000 excepted as for C33."
  },
  {
   "property": "C35",
   "status": "proved",
   "theorems": [
    "C35_encode",
    "C35_encode_ranges",
    "C35_decode",
    "C35_reject",
    "C35_round_trip",
    "C35_round_trip_code",
    "C35_bounds",
    "C35_bytes_unchecked_refuted"
   ],
   "note": "Callback level: the step functions of from/_GB18030 and to/_GB18030 (four-byte algorithm and range tables); the ~30k tabulated lines of the codec are not part of this model. C35_bytes_unchecked_refuted: the decoder does not check that byte 2 and 4 are digits 30..39."
  },
  {
   "property": "C36",
   "status": "proved",
   "theorems": [
    "C36_converts",
    "C36_initialises",
    "C36_injective",
    "C36_invalid_trail_refuted",
    "C36_reinit_keeps_lead_refuted"
   ],
   "note": "Engine level: every text of user-defined-area codes in any chunking, on a new instance; injectivity on valid codes. Invalid trail bytes and re-initialisation refuted (C36_*_refuted)."
  },
  {
   "property": "C37",
   "status": "proved",
   "theorems": [
    "C37_escapes_read",
    "C37_references_read",
    "C37_characters_written",
    "C37_bytes_written",
    "C37_references_written",
    "C37_character_round_trip",
    "C37_byte_round_trip",
    "C37_reference_round_trip",
    "C37_below_100_refuted",
    "C37_above_ffff_refuted",
    "C37_octal_limit_refuted",
    "C37_zero_reference_refuted",
    "C37_any_bytes",
    "C37_any_characters"
   ],
   "note": "Engine level, all chunkings, any prior use: all spellings are read; bytes, characters U+0100..U+FFFF (%u, \\u) and all characters except U+0000 (&#, &#x) round trip. Outside the ranges it fails (refuted theorems: below U+0100, above U+FFFF, octal limit, U+0000)."
  },
  {
   "property": "C38",
   "status": "proved",
   "theorems": [
    "C38_digits_read",
    "C38_outcome_unique",
    "C38_datum_written",
    "C38_text_written",
    "C38_round_trip",
    "C38_two_data_refuted",
    "C38_separated_split_refuted",
    "C38_reinit_refuted"
   ],
   "note": "Decoder at phase level (every division into calls and buffers, after bsdconv_init); encoder at engine level. Data boundaries, separators split from their digits, and a second bsdconv_init are refuted (C38_*_refuted)."
  },
  {
   "property": "C39",
   "status": "proved",
   "theorems": [
    "C39_encoder_shifts",
    "C39_decoder_shifts",
    "C39_round_trip",
    "C39_outcome_unique",
    "C39_text_unique",
    "C39_unmapped_refuted",
    "C39_silent_drop_refuted",
    "C39_decode_conversion",
    "C39_encode_conversion",
    "C39_round_trip_conversion",
    "C39_conversions_exist"
   ],
   "note": "Whole conversions src:IBM-9xx and IBM-9xx:dst (any chunking, any history, any initial memory, any compiled table with the shift lines): C39_encode_conversion, C39_decode_conversion, C39_round_trip_conversion; also phase-level versions for arbitrary data lists. Only data that have codes: refuted otherwise (C39_unmapped_refuted, C39_silent_drop_refuted)."
  },
  {
   "property": "C40",
   "status": "proved",
   "theorems": [
    "C40_decompose_conversion",
    "C40_compose_conversion",
    "C40_conversion_round_trip",
    "C40_decompose",
    "C40_decomposed_exists",
    "C40_compose",
    "C40_init",
    "C40_composed_exists",
    "C40_restores",
    "C40_same_decomposition",
    "C40_unaffected",
    "C40_barrier",
    "C40_syllable_and_final_refuted",
    "C40_other_data_refuted"
   ],
   "note": "Proved about the streams the composition and decomposition modules pass on, for every stream of data; C40_syllable_and_final_refuted and C40_other_data_refuted give the two cases where the English claim is false of the code. Also proved inside whole conversions src:MODULE:dst between the Unicode encodings (C40_*_conversion...): any chunking, any lossless output modes, the stream after bsdconv_init of an instance with any history."
  },
  {
   "property": "C41",
   "status": "proved",
   "theorems": [
    "C41_conversion",
    "C41_conversion_state",
    "C41_conversion_abandoned_refuted",
    "C41_order",
    "C41_idempotent",
    "C41_canonical",
    "C41_abandoned_refuted"
   ],
   "note": "Proved for every stream; C41_abandoned_refuted: the module has no initialisation, so a pending run left by an abandoned conversion leaks into the next. Also proved inside whole conversions src:MODULE:dst between the Unicode encodings (C41_conversion...): any chunking, any lossless output modes, the stream after bsdconv_init of an instance with any history."
  },
  {
   "property": "C42",
   "status": "proved",
   "theorems": [
    "C42_conversion",
    "C42_conversion_state",
    "C42_width",
    "C42_counts",
    "C42_one_class",
    "C42_split"
   ],
   "note": "Callback level under the star-table driver (M_Star): the WIDTH callback over any datum sequence and split into streams. Also proved inside whole conversions src:MODULE:dst between the Unicode encodings (C42_conversion...): any chunking, any lossless output modes, the stream after bsdconv_init of an instance with any history."
  },
  {
   "property": "C43",
   "status": "proved",
   "theorems": [
    "C43_conversion",
    "C43_trim"
   ],
   "note": "Callback level under the star-table driver. Also proved inside whole conversions src:MODULE:dst between the Unicode encodings (C43_conversion...): any chunking, any lossless output modes, the stream after bsdconv_init of an instance with any history."
  },
  {
   "property": "C44",
   "status": "proved",
   "theorems": [
    "C44_conversion",
    "C44_conversion_round_trip",
    "C44_pad",
    "C44_unpad",
    "C44_other_data_refuted",
    "C44_unpadded_text_refuted"
   ],
   "note": "True for Unicode data. C44_other_data_refuted: UNPAD deletes data of other kinds; C44_unpadded_text_refuted: it also deletes text that merely looks padded. Also proved inside whole conversions src:MODULE:dst between the Unicode encodings (C44_conversion...): any chunking, any lossless output modes, the stream after bsdconv_init of an instance with any history."
  },
  {
   "property": "C45",
   "status": "proved",
   "theorems": [
    "C45_filters",
    "C45_code_points",
    "C45_tables_sorted",
    "C45_search",
    "C45_unsorted_refuted",
    "C45_print_control_refuted"
   ],
   "note": "All shipped range tables, extracted by tools/gen_ranges.py. The title's claim for PRINT/control overlap is refuted separately (C45_print_control_refuted); C45_unsorted_refuted shows the sortedness premise is needed."
  },
  {
   "property": "C46",
   "status": "proved",
   "theorems": [
    "C46_scorers",
    "C46_unique"
   ],
   "note": "All shipped scorer tables."
  },
  {
   "property": "C47",
   "status": "proved",
   "theorems": [
    "C47_replaced_total",
    "C47_replace_conversion",
    "C47_replace_short",
    "C47_replace_end_refuted",
    "C47_insert",
    "C47_null"
   ],
   "note": "Whole conversions: INSERT and NULL between the Unicode encodings at engine level; REPLACE in src:REPLACE:dst for every text, chunking and lossless output mode, the stream after bsdconv_init, under the stated condition on the end of the stream (none for one or two characters, C47_replace_short); C47_replace_end_refuted: without it a text that does not contain the pattern is changed."
  },
  {
   "property": "C48",
   "status": "proved",
   "theorems": [
    "C48_count_conversion",
    "C48_pass_conversion",
    "C48_score_conversion",
    "C48_conversion_state",
    "C48_count",
    "C48_pass",
    "C48_score"
   ],
   "note": "Callback level: C48_pass: PASS as the only codec of its phase does not remove what its filter rejects. Also proved inside whole conversions src:MODULE:dst between the Unicode encodings (C48_*_conversion...): any chunking, any lossless output modes, the stream after bsdconv_init of an instance with any history."
  },
  {
   "property": "C49",
   "status": "proved",
   "theorems": [
    "C49_restored",
    "C49_identity",
    "C49_whitespace",
    "C49_taken_out",
    "C49_init",
    "C49_completes",
    "C49_dropped_refuted"
   ],
   "note": "All interleavings of the two phases; C49_dropped_refuted: whitespace after an abandoned conversion is lost."
  },
  {
   "property": "C50",
   "status": "proved",
   "theorems": [
    "C50_crash_safe",
    "C50_name_always_there_refuted",
    "C50_full_device_refuted"
   ],
   "note": "Crash model: the C library may have written any prefix of the buffered output. C50_name_always_there_refuted, C50_full_device_refuted show what does not hold."
  },
  {
   "property": "C51",
   "status": "proved",
   "theorems": [
    "C51_calls",
    "C51_whole_file",
    "C51_files"
   ],
   "note": "C51_whole_file at engine level for lossless conversions and any used instance."
  },
  {
   "property": "C52",
   "status": "proved",
   "theorems": [
    "C52_cwd_restored",
    "C52_invalid_type_refuted",
    "C52_no_return_refuted",
    "C52_threads_refuted"
   ],
   "note": "For valid types and a directory that can be entered again; C52_invalid_type_refuted, C52_no_return_refuted, C52_threads_refuted show the limits."
  },
  {
   "property": "C53",
   "status": "proved",
   "theorems": [
    "C53_blocks_disjoint",
    "C53_free",
    "C53_large_block_refuted",
    "C53_empty_block_refuted"
   ],
   "note": "For blocks not larger than a pool; C53_large_block_refuted and C53_empty_block_refuted show the limits."
  },
  {
   "property": "C54",
   "status": "proved",
   "theorems": [
    "C54_error_strings"
   ],
   "note": ""
  },
  {
   "property": "C55",
   "status": "proved",
   "theorems": [
    "C55_fallback_conversion",
    "C55_everything_converts",
    "C55_result_unique",
    "C55_convertible_unchanged",
    "C55_errors_counted",
    "C55_arguments"
   ],
   "note": "Table codecs beside the fallback in each phase. The event counter chosen by the ERROR argument is not modelled; callback codecs (UTF-8) beside a fallback are not covered."
  },
  {
   "property": "C56",
   "status": "proved",
   "theorems": [
    "C56_decode_conversion",
    "C56_created",
    "C56_reinit_refuted",
    "C56_half_character_refuted"
   ],
   "note": "Any tables for the three sets; lookups by longest unique key as in compiled tables. Without cbinit the set persists over bsdconv_init (C56_reinit_refuted), half a code before an escape sequence vanishes without error (C56_half_character_refuted); bytes without a meaning are not covered."
  },
  {
   "property": "C57",
   "status": "proved",
   "theorems": [
    "C57_runs_total",
    "C57_conversion",
    "C57_conversions_exist",
    "C57_script",
    "C57_negative_min_refuted"
   ],
   "note": "C57_conversion for any filter, C57_script for the filters of C45; runs shorter than 2^32. Argument parsing of cbcreate is not modelled. A negative MIN-LEN suppresses everything (C57_negative_min_refuted)."
  },
  {
   "property": "C58",
   "status": "proved",
   "theorems": [
    "C58_kept",
    "C58_stable",
    "C58_total",
    "C58_conversion",
    "C58_exists",
    "C58_lone_lead_refuted"
   ],
   "note": "C58_conversion; C58_total shows which texts are covered, C58_kept and C58_stable what the specification means. A text that ends in a lead byte loses it (C58_lone_lead_refuted). The MARK flag is not modelled."
  },
  {
   "property": "C59",
   "status": "proved",
   "theorems": [
    "C59_conversion",
    "C59_created",
    "C59_states",
    "C59_modules",
    "C59_nfd",
    "C59_nfd_created"
   ],
   "note": "C59_conversion: any mixture of table phases (S_Fallback semantics), Unicode decoders/encoders and steady modules, in any order after the first decoder: output, error counters and final module states of a whole stream are those of run_links, the composition of per-phase relations. C59_created, C59_states: instances and module states exist. C59_modules: which modules qualify (WIDTH, TRIM-WIDTH, AMBIGUOUS-PAD, AMBIGUOUS-UNPAD, COUNT, Hangul decomposition, ordering). C59_nfd: src:NFD:dst for any decomposition table. Modules that may answer DEADEND (PASS, SCORE, Hangul composition, _NFC) are allowed behind a Unicode decoder or another module (placed), not directly behind a table phase. REPLACE is in C47."
  },
  {
   "property": "C60",
   "status": "proved",
   "theorems": [
    "C60_compose",
    "C60_normal_form",
    "C60_nfc",
    "C60_created",
    "C60_shipped",
    "C60_unicode",
    "C60_abandoned_refuted"
   ],
   "note": "C60_compose: the module _NFC alone, for any pair table that meets `composites`: canonically equivalent, ordered and fully composed output. C60_normal_form, C60_nfc: src:NFC:dst as the engine runs it (tables, Hangul, ordering, _NFC, Hangul composition), for any tables that meet normal_tables; same full decomposition, fully composed, idempotent, equal for equivalent texts, any cuts, any encodings. C60_shipped, C60_unicode: the 2061 lines of _NFD.txt and the 941 lines of _NFC-MAP.txt meet them. C60_created: instances exist. C60_abandoned_refuted: a text given up before its end leaves a dangling starter (double free). Simplified: the inner instance \"_NFC-MAP,COUNT#ERR\" is the pair table, and marks put back into the previous phase's list are a recursion in the module."
  },
  {
   "property": "C61",
   "status": "proved",
   "theorems": [
    "C61_conversion",
    "C61_created",
    "C61_has_counter",
    "C61_total",
    "C61_unique",
    "C61_only_counts"
   ],
   "note": "C61_conversion: whole streams through conversions whose phases are the links of C59 or table files followed by COUNT (any table files mktable reads, any FOR filter); result and counters given by the relation `passed`, total and unique (C61_total, C61_unique). Proved by a simulation with an engine run in which COUNT marks what it passes. Not covered: COUNT with a codec after it in the same phase."
  },
  {
   "property": "C62",
   "status": "proved",
   "theorems": [
    "C62_lookup",
    "C62_total",
    "C62_exact",
    "C62_result",
    "C62_shipped_tables",
    "C62_shipped",
    "C62_only_aliases_refuted"
   ],
   "note": "C62_lookup, C62_total: the result of the modelled function for every table and ASCII name; C62_exact, C62_result, C62_shipped (shipped tables, '?' lines of LOCALE/UNICODE left out). C62_only_aliases_refuted: \"BIG5BIG5\" is no alias and is solved to \"UAO250UAO250\". Names with bytes outside 1..127 are not covered."
  },
  {
   "property": "C63",
   "status": "proved",
   "theorems": [
    "C63_list",
    "C63_in_bounds",
    "C63_determined",
    "C63_check",
    "C63_listed_is_found",
    "C63_found_is_listed",
    "C63_listed_not_found_refuted",
    "C63_no_tab_refuted"
   ],
   "note": "C63_list for alias files whose lines are comments or have a tab and fit the buffer; C63_in_bounds for any content. qsort is modelled by insertion sort (elements that compare equal are equal strings, so the sorted permutation is unique). Refuted: a lower-case file name, or NAME.so.old for a filter, is listed and not found; a line without a tab is listed with its newline."
  },
  {
   "property": "C64",
   "status": "proved",
   "theorems": [
    "C64_image_links",
    "C64_links_distinct",
    "C64_references",
    "C64_raw",
    "C64_raw_ambiguous"
   ],
   "note": "C64_image_links and C64_references: every text is written, ASCII as it is and the rest in the notation (S_Writers: shortest upper-case hexadecimal; S_Escape: numeric references, U+0000 excluded), over all chunkings and repeated streams (converts, S_Rest). C64_links_distinct: links determine the character. C64_raw: the bytes of the codes; C64_raw_ambiguous: they cannot be read back. The links of ASCII-HTML-INFO (an embedded CNS11643 conversion) are not modelled."
  },
  {
   "property": "C65",
   "status": "proved",
   "theorems": [
    "C65_completion",
    "C65_bare_unique",
    "C65_last_unique",
    "C65_kind_unique",
    "C65_lines",
    "C65_modules_offered",
    "C65_no_argument_refuted"
   ],
   "note": "C65_completion: the program completes every non-empty argument and no write leaves the array or a line (the model returns None if one does); S_Complete says what the argument without quotes, its last name and the kind of module are (relations, shown to be functional by C65_bare_unique, C65_last_unique, C65_kind_unique). C65_lines: the printed lines are exactly the completions, without repetition, each beginning with the argument. C65_modules_offered: with the lists of C63, every installed module that fits is offered. C65_no_argument_refuted: arg[-1] is read for an empty argument."
  },
  {
   "property": "C66",
   "status": "proved",
   "theorems": [
    "C66_conversion",
    "C66_created",
    "C66_total",
    "C66_unique",
    "C66_text",
    "C66_text_kept",
    "C66_text_kept_refuted",
    "C66_phrase_refuted"
   ],
   "note": "C66_conversion (any conversion around the module), C66_created, C66_total, C66_unique; C66_text / C66_text_kept for ZH-BONUS, and C66_text_kept_refuted: U+C5C0 is written as U+00C5. ZH-BONUS-PHRASE has a key that begins another one and is outside the theorem (C66_phrase_refuted). The sharing of the counter SCORE between modules is not modelled."
  },
  {
   "property": "C67",
   "status": "proved",
   "theorems": [
    "C67_train",
    "C67_trained_unique",
    "C67_newly_unique",
    "C67_train_conversion",
    "C67_train_created",
    "C67_score_conversion",
    "C67_train_then_score",
    "C67_score_uncovered_refuted"
   ],
   "note": "C67_train, C67_trained_unique, C67_newly_unique: the rule for data, and its results are determined; C67_train_conversion / C67_train_created: in a conversion. C67_score_conversion: SCORE#WITH=TRAINED on covered text, whatever the uninitialised variable holds; C67_train_then_score: trained texts are covered and every character counts; C67_score_uncovered_refuted: a character behind the end of the file counts what is in memory. fopen is assumed to succeed for SCORE-TRAIN, and the file is written at once and by nobody else."
  },
  {
   "property": "C68",
   "status": "proved",
   "theorems": [
    "C68_read",
    "C68_write",
    "C68_between",
    "C68_round_trip",
    "C68_spoiled_refuted",
    "C68_put_total",
    "C68_put_unique",
    "C68_write_any",
    "C68_writer_created"
   ],
   "note": "C68_read (ten charsets), C68_write, C68_between, C68_round_trip (five charsets). The code pages (S_Pages) come from Python's codecs, not from the repository; the tables (D_Charsets) are the files, verbatim, compiled by the model of mktable; the agreement of the tables is computed in the kernel for all bytes, texts are treated by the engine theorems. C68_spoiled_refuted: A3 (the pound sign) in CP1253:CP1253 is lost. C68_write_any: every text, with characters the charset does not have: they are left out and counted as output errors (the small tilde is written as ~); C68_put_total / C68_put_unique: what is written is defined and determined; C68_writer_created."
  }
 ]
}