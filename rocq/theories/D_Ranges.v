(** Generated by tools/gen_ranges.py from /repo/modules: the range tables of the filters, the scorers and the
    intermediate modules, verbatim. *)
From Verif Require Import Base.
Local Open Scope N_scope.

(** modules/filter/ARABIC.c, ranges[] *)
Definition filter_ARABIC : list (N * N) := [(0x600, 0x6ff); (0x750, 0x77f); (0x8a0, 0x8ff); (0xfb50, 0xfdff); (0xfe70, 0xfeff); (0x10a60, 0x10a7f); (0x10a80, 0x10a9f); (0x1ee00, 0x1eeff)].
(** modules/filter/ARMENIAN.c, ranges[] *)
Definition filter_ARMENIAN : list (N * N) := [(0x530, 0x58f)].
(** modules/filter/ARROWS.c, ranges[] *)
Definition filter_ARROWS : list (N * N) := [(0x2190, 0x21ff); (0x27f0, 0x27ff); (0x2900, 0x297f); (0x2b00, 0x2bff); (0x1f800, 0x1f8ff)].
(** modules/filter/BRAILLE.c, ranges[] *)
Definition filter_BRAILLE : list (N * N) := [(0x2800, 0x28ff)].
(** modules/filter/CHEROKEE.c, ranges[] *)
Definition filter_CHEROKEE : list (N * N) := [(0x13a0, 0x13ff)].
(** modules/filter/CJK.c, ranges[] *)
Definition filter_CJK : list (N * N) := [(0x1100, 0x11ff); (0x2e80, 0x2eff); (0x2f00, 0x2fdf); (0x2ff0, 0x2fff); (0x3000, 0x303f); (0x3040, 0x309f); (0x30a0, 0x30ff); (0x3100, 0x312f); (0x3130, 0x318f); (0x3190, 0x319f); (0x31a0, 0x31bf); (0x31c0, 0x31ef); (0x31f0, 0x31ff); (0x3200, 0x32ff); (0x3300, 0x33ff); (0x3400, 0x4dbf); (0x4dc0, 0x4dff); (0x4e00, 0x9fff); (0xa000, 0xa48f); (0xa490, 0xa4cf); (0xa960, 0xa97f); (0xac00, 0xd7af); (0xd7b0, 0xd7ff); (0xf900, 0xfaff); (0xfe30, 0xfe4f); (0x1b000, 0x1b0ff); (0x1b100, 0x1b12f); (0x1d300, 0x1d35f); (0x20000, 0x2a6df); (0x2a700, 0x2b73f); (0x2b740, 0x2b81f); (0x2b820, 0x2ceaf); (0x2ceb0, 0x2ebef); (0x2f800, 0x2fa1f); (0x30000, 0x3134f)].
(** modules/filter/CUNEIFORM.c, ranges[] *)
Definition filter_CUNEIFORM : list (N * N) := [(0x12000, 0x123ff); (0x12400, 0x1247f)].
(** modules/filter/CURRENCY.c, ranges[] *)
Definition filter_CURRENCY : list (N * N) := [(0x20a0, 0x20cf)].
(** modules/filter/CYRILLIC.c, ranges[] *)
Definition filter_CYRILLIC : list (N * N) := [(0x400, 0x4ff); (0x500, 0x52f); (0x1c80, 0x1c8f); (0x2de0, 0x2dff); (0xa640, 0xa69f)].
(** modules/filter/DEVANAGARI.c, ranges[] *)
Definition filter_DEVANAGARI : list (N * N) := [(0x900, 0x97f); (0xa8e0, 0xa8ff)].
(** modules/filter/EGYPTIAN.c, ranges[] *)
Definition filter_EGYPTIAN : list (N * N) := [(0x13000, 0x1342f); (0x13430, 0x1343f)].
(** modules/filter/EMOTICON.c, ranges[] *)
Definition filter_EMOTICON : list (N * N) := [(0x1f600, 0x1f64f)].
(** modules/filter/ETHIOPIC.c, ranges[] *)
Definition filter_ETHIOPIC : list (N * N) := [(0x1200, 0x137f); (0x1380, 0x139f); (0x2d80, 0x2ddf); (0xab00, 0xab2f)].
(** modules/filter/GEORGIAN.c, ranges[] *)
Definition filter_GEORGIAN : list (N * N) := [(0x10a0, 0x10ff); (0x1c90, 0x1cbf); (0x2d00, 0x2d2f)].
(** modules/filter/GREEK.c, ranges[] *)
Definition filter_GREEK : list (N * N) := [(0x370, 0x3ff); (0x1f00, 0x1fff); (0x10140, 0x1018f); (0x1d200, 0x1d24f)].
(** modules/filter/HANGUL.c, ranges[] *)
Definition filter_HANGUL : list (N * N) := [(0x1100, 0x11ff); (0x3130, 0x318f); (0xa960, 0xa97f); (0xac00, 0xd7af); (0xd7b0, 0xd7ff)].
(** modules/filter/HEBREW.c, ranges[] *)
Definition filter_HEBREW : list (N * N) := [(0x590, 0x5ff)].
(** modules/filter/HIRAGANA.c, ranges[] *)
Definition filter_HIRAGANA : list (N * N) := [(0x3040, 0x309f)].
(** modules/filter/IPA.c, ranges[] *)
Definition filter_IPA : list (N * N) := [(0x250, 0x2af)].
(** modules/filter/JAVANESE.c, ranges[] *)
Definition filter_JAVANESE : list (N * N) := [(0xa980, 0xa9df)].
(** modules/filter/KANNADA.c, ranges[] *)
Definition filter_KANNADA : list (N * N) := [(0xc80, 0xcff)].
(** modules/filter/KATAKANA.c, ranges[] *)
Definition filter_KATAKANA : list (N * N) := [(0x30a0, 0x30ff); (0x31f0, 0x31ff)].
(** modules/filter/KHMER.c, ranges[] *)
Definition filter_KHMER : list (N * N) := [(0x1780, 0x17ff); (0x19e0, 0x19ff)].
(** modules/filter/LAO.c, ranges[] *)
Definition filter_LAO : list (N * N) := [(0xe80, 0xeff)].
(** modules/filter/LATIN.c, ranges[] *)
Definition filter_LATIN : list (N * N) := [(0x0, 0x7f); (0x80, 0xff); (0x100, 0x17f); (0x180, 0x24f); (0x1e00, 0x1eff); (0x2c60, 0x2c7f); (0xa720, 0xa7ff); (0xab30, 0xab6f)].
(** modules/filter/LATIN1.c, ranges[] *)
Definition filter_LATIN1 : list (N * N) := [(0x0, 0x80); (0x82, 0x8c); (0x8e, 0x8e); (0x91, 0x9c); (0x9e, 0xff)].
(** modules/filter/MAHJONG.c, ranges[] *)
Definition filter_MAHJONG : list (N * N) := [(0x1f000, 0x1f02f)].
(** modules/filter/MALAYALAM.c, ranges[] *)
Definition filter_MALAYALAM : list (N * N) := [(0xd00, 0xd7f)].
(** modules/filter/MATH.c, ranges[] *)
Definition filter_MATH : list (N * N) := [(0x2200, 0x22ff); (0x27c0, 0x27ef); (0x2980, 0x29ff); (0x2a00, 0x2aff); (0x1d400, 0x1d7ff); (0x1ee00, 0x1eeff)].
(** modules/filter/MIAO.c, ranges[] *)
Definition filter_MIAO : list (N * N) := [(0x16f00, 0x16f9f)].
(** modules/filter/MONGOLIAN.c, ranges[] *)
Definition filter_MONGOLIAN : list (N * N) := [(0x1800, 0x18af)].
(** modules/filter/MUSIC.c, ranges[] *)
Definition filter_MUSIC : list (N * N) := [(0x1d000, 0x1d0ff); (0x1d100, 0x1d1ff); (0x1d200, 0x1d24f)].
(** modules/filter/MYANMAR.c, ranges[] *)
Definition filter_MYANMAR : list (N * N) := [(0x1000, 0x109f); (0xa9e0, 0xa9ff); (0xaa60, 0xaa7f)].
(** modules/filter/PHONETIC.c, ranges[] *)
Definition filter_PHONETIC : list (N * N) := [(0x250, 0x2af); (0x1d00, 0x1d7f); (0x1d80, 0x1dbf)].
(** modules/filter/PRINT.c, ranges[] *)
Definition filter_PRINT : list (N * N) := [(0x1f, 0x7e)].
(** modules/filter/PUA.c, ranges[] *)
Definition filter_PUA : list (N * N) := [(0xe000, 0xf8ff); (0xf0000, 0xfffff); (0x100000, 0x10ffff)].
(** modules/filter/PUNCTUATION.c, ranges[] *)
Definition filter_PUNCTUATION : list (N * N) := [(0x2000, 0x206f); (0x2e00, 0x2e7f); (0x3000, 0x303f); (0x12400, 0x1247f); (0x16fe0, 0x16fff)].
(** modules/filter/ROMAN.c, ranges[] *)
Definition filter_ROMAN : list (N * N) := [(0x30, 0x39); (0x41, 0x5a); (0x61, 0x7a)].
(** modules/filter/SAMARITAN.c, ranges[] *)
Definition filter_SAMARITAN : list (N * N) := [(0x800, 0x83f)].
(** modules/filter/SINHALA.c, ranges[] *)
Definition filter_SINHALA : list (N * N) := [(0xd80, 0xdff); (0x111e0, 0x111ff)].
(** modules/filter/SUNDANESE.c, ranges[] *)
Definition filter_SUNDANESE : list (N * N) := [(0x1b80, 0x1bbf); (0x1cc0, 0x1ccf)].
(** modules/filter/SYRIAC.c, ranges[] *)
Definition filter_SYRIAC : list (N * N) := [(0x700, 0x74f)].
(** modules/filter/TAGALOG.c, ranges[] *)
Definition filter_TAGALOG : list (N * N) := [(0x1700, 0x171f)].
(** modules/filter/TAMIL.c, ranges[] *)
Definition filter_TAMIL : list (N * N) := [(0xb80, 0xbff)].
(** modules/filter/TELUGU.c, ranges[] *)
Definition filter_TELUGU : list (N * N) := [(0xc00, 0xc7f)].
(** modules/filter/THAI.c, ranges[] *)
Definition filter_THAI : list (N * N) := [(0xe00, 0xe7f)].
(** modules/filter/TIBETAN.c, ranges[] *)
Definition filter_TIBETAN : list (N * N) := [(0xf00, 0xfff)].
(** modules/filter/TIFINAGH.c, ranges[] *)
Definition filter_TIFINAGH : list (N * N) := [(0x2d30, 0x2d7f)].
(** modules/filter/YI.c, ranges[] *)
Definition filter_YI : list (N * N) := [(0xa000, 0xa48f); (0xa490, 0xa4cf)].
Definition filter_tables : list (str * list (N * N)) := [(s_ "ARABIC", filter_ARABIC); (s_ "ARMENIAN", filter_ARMENIAN); (s_ "ARROWS", filter_ARROWS); (s_ "BRAILLE", filter_BRAILLE); (s_ "CHEROKEE", filter_CHEROKEE); (s_ "CJK", filter_CJK); (s_ "CUNEIFORM", filter_CUNEIFORM); (s_ "CURRENCY", filter_CURRENCY); (s_ "CYRILLIC", filter_CYRILLIC); (s_ "DEVANAGARI", filter_DEVANAGARI); (s_ "EGYPTIAN", filter_EGYPTIAN); (s_ "EMOTICON", filter_EMOTICON); (s_ "ETHIOPIC", filter_ETHIOPIC); (s_ "GEORGIAN", filter_GEORGIAN); (s_ "GREEK", filter_GREEK); (s_ "HANGUL", filter_HANGUL); (s_ "HEBREW", filter_HEBREW); (s_ "HIRAGANA", filter_HIRAGANA); (s_ "IPA", filter_IPA); (s_ "JAVANESE", filter_JAVANESE); (s_ "KANNADA", filter_KANNADA); (s_ "KATAKANA", filter_KATAKANA); (s_ "KHMER", filter_KHMER); (s_ "LAO", filter_LAO); (s_ "LATIN", filter_LATIN); (s_ "LATIN1", filter_LATIN1); (s_ "MAHJONG", filter_MAHJONG); (s_ "MALAYALAM", filter_MALAYALAM); (s_ "MATH", filter_MATH); (s_ "MIAO", filter_MIAO); (s_ "MONGOLIAN", filter_MONGOLIAN); (s_ "MUSIC", filter_MUSIC); (s_ "MYANMAR", filter_MYANMAR); (s_ "PHONETIC", filter_PHONETIC); (s_ "PRINT", filter_PRINT); (s_ "PUA", filter_PUA); (s_ "PUNCTUATION", filter_PUNCTUATION); (s_ "ROMAN", filter_ROMAN); (s_ "SAMARITAN", filter_SAMARITAN); (s_ "SINHALA", filter_SINHALA); (s_ "SUNDANESE", filter_SUNDANESE); (s_ "SYRIAC", filter_SYRIAC); (s_ "TAGALOG", filter_TAGALOG); (s_ "TAMIL", filter_TAMIL); (s_ "TELUGU", filter_TELUGU); (s_ "THAI", filter_THAI); (s_ "TIBETAN", filter_TIBETAN); (s_ "TIFINAGH", filter_TIFINAGH); (s_ "YI", filter_YI)].
(** modules/filter/{ANSI,BYTE,CNS11643,UNICODE}.c, #define TYPE *)
Definition filter_types : list (str * N) := [(s_ "ANSI", 0x1b); (s_ "BYTE", 0x3); (s_ "CNS11643", 0x2); (s_ "UNICODE", 0x1)].
(** modules/scorer/CJK.c, ranges[] *)
Definition scorer_CJK : list (N * N * N) := [(0x0, 0x7f, 4); (0x3000, 0x303f, 4); (0x3040, 0x309f, 5); (0x30a0, 0x30ff, 5); (0x3100, 0x312f, 4); (0x3400, 0x4db5, 3); (0x4e00, 0x6fff, 5); (0x7000, 0x9fa5, 4); (0x9fa6, 0x9fbb, 3); (0xac00, 0xd7af, 3); (0xf900, 0xfa2d, 4); (0xfa30, 0xfa6a, 4); (0xfa70, 0xfad9, 2); (0xff00, 0xffef, 3); (0x20000, 0x2a6d6, 1); (0x2f800, 0x2fa1d, 1)].
(** modules/scorer/LATIN1.c, ranges[] *)
Definition scorer_LATIN1 : list (N * N * N) := [(0x0, 0x80, 2); (0x82, 0x8c, 2); (0x8e, 0x8e, 2); (0x91, 0x9c, 2); (0x9e, 0xff, 2)].
Definition scorer_tables : list (str * list (N * N * N)) := [(s_ "CJK", scorer_CJK); (s_ "LATIN1", scorer_LATIN1)].
(** modules/inter/_WIDTH.h, width_table[]; widths: HALF 1, FULL 2, AMBI written 3 (-1 in C, WIDTH.c:3-5) *)
Definition width_table : list (N * N * N) := [(0x20, 0x7e, 1); (0xa0, 0xa0, 1); (0xa1, 0xa1, 3); (0xa2, 0xa3, 1); (0xa4, 0xa4, 3); (0xa5, 0xa6, 1); (0xa7, 0xa8, 3); (0xa9, 0xa9, 1); (0xaa, 0xaa, 3); (0xab, 0xac, 1); (0xad, 0xae, 3); (0xaf, 0xaf, 1); (0xb0, 0xb4, 3); (0xb5, 0xb5, 1); (0xb6, 0xba, 3); (0xbb, 0xbb, 1); (0xbc, 0xbf, 3); (0xc0, 0xc5, 1); (0xc6, 0xc6, 3); (0xc7, 0xcf, 1); (0xd0, 0xd0, 3); (0xd1, 0xd6, 1); (0xd7, 0xd8, 3); (0xd9, 0xdd, 1); (0xde, 0xe1, 3); (0xe2, 0xe5, 1); (0xe6, 0xe6, 3); (0xe7, 0xe7, 1); (0xe8, 0xea, 3); (0xeb, 0xeb, 1); (0xec, 0xed, 3); (0xee, 0xef, 1); (0xf0, 0xf0, 3); (0xf1, 0xf1, 1); (0xf2, 0xf3, 3); (0xf4, 0xf6, 1); (0xf7, 0xfa, 3); (0xfb, 0xfb, 1); (0xfc, 0xfc, 3); (0xfd, 0xfd, 1); (0xfe, 0xfe, 3); (0xff, 0x100, 1); (0x101, 0x101, 3); (0x102, 0x110, 1); (0x111, 0x111, 3); (0x112, 0x112, 1); (0x113, 0x113, 3); (0x114, 0x11a, 1); (0x11b, 0x11b, 3); (0x11c, 0x125, 1); (0x126, 0x127, 3); (0x128, 0x12a, 1); (0x12b, 0x12b, 3); (0x12c, 0x130, 1); (0x131, 0x133, 3); (0x134, 0x137, 1); (0x138, 0x138, 3); (0x139, 0x13e, 1); (0x13f, 0x142, 3); (0x143, 0x143, 1); (0x144, 0x144, 3); (0x145, 0x147, 1); (0x148, 0x14b, 3); (0x14c, 0x14c, 1); (0x14d, 0x14d, 3); (0x14e, 0x151, 1); (0x152, 0x153, 3); (0x154, 0x165, 1); (0x166, 0x167, 3); (0x168, 0x16a, 1); (0x16b, 0x16b, 3); (0x16c, 0x1cd, 1); (0x1ce, 0x1ce, 3); (0x1cf, 0x1cf, 1); (0x1d0, 0x1d0, 3); (0x1d1, 0x1d1, 1); (0x1d2, 0x1d2, 3); (0x1d3, 0x1d3, 1); (0x1d4, 0x1d4, 3); (0x1d5, 0x1d5, 1); (0x1d6, 0x1d6, 3); (0x1d7, 0x1d7, 1); (0x1d8, 0x1d8, 3); (0x1d9, 0x1d9, 1); (0x1da, 0x1da, 3); (0x1db, 0x1db, 1); (0x1dc, 0x1dc, 3); (0x1dd, 0x250, 1); (0x251, 0x251, 3); (0x252, 0x260, 1); (0x261, 0x261, 3); (0x262, 0x2c3, 1); (0x2c4, 0x2c4, 3); (0x2c5, 0x2c6, 1); (0x2c7, 0x2c7, 3); (0x2c8, 0x2c8, 1); (0x2c9, 0x2cb, 3); (0x2cc, 0x2cc, 1); (0x2cd, 0x2cd, 3); (0x2ce, 0x2cf, 1); (0x2d0, 0x2d0, 3); (0x2d1, 0x2d7, 1); (0x2d8, 0x2db, 3); (0x2dc, 0x2dc, 1); (0x2dd, 0x2dd, 3); (0x2de, 0x2de, 1); (0x2df, 0x2df, 3); (0x2e0, 0x2ff, 1); (0x300, 0x36f, 3); (0x370, 0x377, 1); (0x37a, 0x37f, 1); (0x384, 0x38a, 1); (0x38c, 0x38c, 1); (0x38e, 0x390, 1); (0x391, 0x3a1, 3); (0x3a3, 0x3a9, 3); (0x3aa, 0x3b0, 1); (0x3b1, 0x3c1, 3); (0x3c2, 0x3c2, 1); (0x3c3, 0x3c9, 3); (0x3ca, 0x400, 1); (0x401, 0x401, 3); (0x402, 0x40f, 1); (0x410, 0x44f, 3); (0x450, 0x450, 1); (0x451, 0x451, 3); (0x452, 0x52f, 1); (0x531, 0x556, 1); (0x559, 0x58a, 1); (0x58d, 0x58f, 1); (0x591, 0x5c7, 1); (0x5d0, 0x5ea, 1); (0x5ef, 0x5f4, 1); (0x600, 0x61c, 1); (0x61e, 0x70d, 1); (0x70f, 0x74a, 1); (0x74d, 0x7b1, 1); (0x7c0, 0x7fa, 1); (0x7fd, 0x82d, 1); (0x830, 0x83e, 1); (0x840, 0x85b, 1); (0x85e, 0x85e, 1); (0x860, 0x86a, 1); (0x8a0, 0x8b4, 1); (0x8b6, 0x8c7, 1); (0x8d3, 0x983, 1); (0x985, 0x98c, 1); (0x98f, 0x990, 1); (0x993, 0x9a8, 1); (0x9aa, 0x9b0, 1); (0x9b2, 0x9b2, 1); (0x9b6, 0x9b9, 1); (0x9bc, 0x9c4, 1); (0x9c7, 0x9c8, 1); (0x9cb, 0x9ce, 1); (0x9d7, 0x9d7, 1); (0x9dc, 0x9dd, 1); (0x9df, 0x9e3, 1); (0x9e6, 0x9fe, 1); (0xa01, 0xa03, 1); (0xa05, 0xa0a, 1); (0xa0f, 0xa10, 1); (0xa13, 0xa28, 1); (0xa2a, 0xa30, 1); (0xa32, 0xa33, 1); (0xa35, 0xa36, 1); (0xa38, 0xa39, 1); (0xa3c, 0xa3c, 1); (0xa3e, 0xa42, 1); (0xa47, 0xa48, 1); (0xa4b, 0xa4d, 1); (0xa51, 0xa51, 1); (0xa59, 0xa5c, 1); (0xa5e, 0xa5e, 1); (0xa66, 0xa76, 1); (0xa81, 0xa83, 1); (0xa85, 0xa8d, 1); (0xa8f, 0xa91, 1); (0xa93, 0xaa8, 1); (0xaaa, 0xab0, 1); (0xab2, 0xab3, 1); (0xab5, 0xab9, 1); (0xabc, 0xac5, 1); (0xac7, 0xac9, 1); (0xacb, 0xacd, 1); (0xad0, 0xad0, 1); (0xae0, 0xae3, 1); (0xae6, 0xaf1, 1); (0xaf9, 0xaff, 1); (0xb01, 0xb03, 1); (0xb05, 0xb0c, 1); (0xb0f, 0xb10, 1); (0xb13, 0xb28, 1); (0xb2a, 0xb30, 1); (0xb32, 0xb33, 1); (0xb35, 0xb39, 1); (0xb3c, 0xb44, 1); (0xb47, 0xb48, 1); (0xb4b, 0xb4d, 1); (0xb55, 0xb57, 1); (0xb5c, 0xb5d, 1); (0xb5f, 0xb63, 1); (0xb66, 0xb77, 1); (0xb82, 0xb83, 1); (0xb85, 0xb8a, 1); (0xb8e, 0xb90, 1); (0xb92, 0xb95, 1); (0xb99, 0xb9a, 1); (0xb9c, 0xb9c, 1); (0xb9e, 0xb9f, 1); (0xba3, 0xba4, 1); (0xba8, 0xbaa, 1); (0xbae, 0xbb9, 1); (0xbbe, 0xbc2, 1); (0xbc6, 0xbc8, 1); (0xbca, 0xbcd, 1); (0xbd0, 0xbd0, 1); (0xbd7, 0xbd7, 1); (0xbe6, 0xbfa, 1); (0xc00, 0xc0c, 1); (0xc0e, 0xc10, 1); (0xc12, 0xc28, 1); (0xc2a, 0xc39, 1); (0xc3d, 0xc44, 1); (0xc46, 0xc48, 1); (0xc4a, 0xc4d, 1); (0xc55, 0xc56, 1); (0xc58, 0xc5a, 1); (0xc60, 0xc63, 1); (0xc66, 0xc6f, 1); (0xc77, 0xc8c, 1); (0xc8e, 0xc90, 1); (0xc92, 0xca8, 1); (0xcaa, 0xcb3, 1); (0xcb5, 0xcb9, 1); (0xcbc, 0xcc4, 1); (0xcc6, 0xcc8, 1); (0xcca, 0xccd, 1); (0xcd5, 0xcd6, 1); (0xcde, 0xcde, 1); (0xce0, 0xce3, 1); (0xce6, 0xcef, 1); (0xcf1, 0xcf2, 1); (0xd00, 0xd0c, 1); (0xd0e, 0xd10, 1); (0xd12, 0xd44, 1); (0xd46, 0xd48, 1); (0xd4a, 0xd4f, 1); (0xd54, 0xd63, 1); (0xd66, 0xd7f, 1); (0xd81, 0xd83, 1); (0xd85, 0xd96, 1); (0xd9a, 0xdb1, 1); (0xdb3, 0xdbb, 1); (0xdbd, 0xdbd, 1); (0xdc0, 0xdc6, 1); (0xdca, 0xdca, 1); (0xdcf, 0xdd4, 1); (0xdd6, 0xdd6, 1); (0xdd8, 0xddf, 1); (0xde6, 0xdef, 1); (0xdf2, 0xdf4, 1); (0xe01, 0xe3a, 1); (0xe3f, 0xe5b, 1); (0xe81, 0xe82, 1); (0xe84, 0xe84, 1); (0xe86, 0xe8a, 1); (0xe8c, 0xea3, 1); (0xea5, 0xea5, 1); (0xea7, 0xebd, 1); (0xec0, 0xec4, 1); (0xec6, 0xec6, 1); (0xec8, 0xecd, 1); (0xed0, 0xed9, 1); (0xedc, 0xedf, 1); (0xf00, 0xf47, 1); (0xf49, 0xf6c, 1); (0xf71, 0xf97, 1); (0xf99, 0xfbc, 1); (0xfbe, 0xfcc, 1); (0xfce, 0xfda, 1); (0x1000, 0x10c5, 1); (0x10c7, 0x10c7, 1); (0x10cd, 0x10cd, 1); (0x10d0, 0x10ff, 1); (0x1100, 0x115f, 2); (0x1160, 0x1248, 1); (0x124a, 0x124d, 1); (0x1250, 0x1256, 1); (0x1258, 0x1258, 1); (0x125a, 0x125d, 1); (0x1260, 0x1288, 1); (0x128a, 0x128d, 1); (0x1290, 0x12b0, 1); (0x12b2, 0x12b5, 1); (0x12b8, 0x12be, 1); (0x12c0, 0x12c0, 1); (0x12c2, 0x12c5, 1); (0x12c8, 0x12d6, 1); (0x12d8, 0x1310, 1); (0x1312, 0x1315, 1); (0x1318, 0x135a, 1); (0x135d, 0x137c, 1); (0x1380, 0x1399, 1); (0x13a0, 0x13f5, 1); (0x13f8, 0x13fd, 1); (0x1400, 0x169c, 1); (0x16a0, 0x16f8, 1); (0x1700, 0x170c, 1); (0x170e, 0x1714, 1); (0x1720, 0x1736, 1); (0x1740, 0x1753, 1); (0x1760, 0x176c, 1); (0x176e, 0x1770, 1); (0x1772, 0x1773, 1); (0x1780, 0x17dd, 1); (0x17e0, 0x17e9, 1); (0x17f0, 0x17f9, 1); (0x1800, 0x180e, 1); (0x1810, 0x1819, 1); (0x1820, 0x1878, 1); (0x1880, 0x18aa, 1); (0x18b0, 0x18f5, 1); (0x1900, 0x191e, 1); (0x1920, 0x192b, 1); (0x1930, 0x193b, 1); (0x1940, 0x1940, 1); (0x1944, 0x196d, 1); (0x1970, 0x1974, 1); (0x1980, 0x19ab, 1); (0x19b0, 0x19c9, 1); (0x19d0, 0x19da, 1); (0x19de, 0x1a1b, 1); (0x1a1e, 0x1a5e, 1); (0x1a60, 0x1a7c, 1); (0x1a7f, 0x1a89, 1); (0x1a90, 0x1a99, 1); (0x1aa0, 0x1aad, 1); (0x1ab0, 0x1ac0, 1); (0x1b00, 0x1b4b, 1); (0x1b50, 0x1b7c, 1); (0x1b80, 0x1bf3, 1); (0x1bfc, 0x1c37, 1); (0x1c3b, 0x1c49, 1); (0x1c4d, 0x1c88, 1); (0x1c90, 0x1cba, 1); (0x1cbd, 0x1cc7, 1); (0x1cd0, 0x1cfa, 1); (0x1d00, 0x1df9, 1); (0x1dfb, 0x1f15, 1); (0x1f18, 0x1f1d, 1); (0x1f20, 0x1f45, 1); (0x1f48, 0x1f4d, 1); (0x1f50, 0x1f57, 1); (0x1f59, 0x1f59, 1); (0x1f5b, 0x1f5b, 1); (0x1f5d, 0x1f5d, 1); (0x1f5f, 0x1f7d, 1); (0x1f80, 0x1fb4, 1); (0x1fb6, 0x1fc4, 1); (0x1fc6, 0x1fd3, 1); (0x1fd6, 0x1fdb, 1); (0x1fdd, 0x1fef, 1); (0x1ff2, 0x1ff4, 1); (0x1ff6, 0x1ffe, 1); (0x2000, 0x200f, 1); (0x2010, 0x2010, 3); (0x2011, 0x2012, 1); (0x2013, 0x2016, 3); (0x2017, 0x2017, 1); (0x2018, 0x2019, 3); (0x201a, 0x201b, 1); (0x201c, 0x201d, 3); (0x201e, 0x201f, 1); (0x2020, 0x2022, 3); (0x2023, 0x2023, 1); (0x2024, 0x2027, 3); (0x2028, 0x202f, 1); (0x2030, 0x2030, 3); (0x2031, 0x2031, 1); (0x2032, 0x2033, 3); (0x2034, 0x2034, 1); (0x2035, 0x2035, 3); (0x2036, 0x203a, 1); (0x203b, 0x203b, 3); (0x203c, 0x203d, 1); (0x203e, 0x203e, 3); (0x203f, 0x2064, 1); (0x2066, 0x2071, 1); (0x2074, 0x2074, 3); (0x2075, 0x207e, 1); (0x207f, 0x207f, 3); (0x2080, 0x2080, 1); (0x2081, 0x2084, 3); (0x2085, 0x208e, 1); (0x2090, 0x209c, 1); (0x20a0, 0x20ab, 1); (0x20ac, 0x20ac, 3); (0x20ad, 0x20bf, 1); (0x20d0, 0x20f0, 1); (0x2100, 0x2102, 1); (0x2103, 0x2103, 3); (0x2104, 0x2104, 1); (0x2105, 0x2105, 3); (0x2106, 0x2108, 1); (0x2109, 0x2109, 3); (0x210a, 0x2112, 1); (0x2113, 0x2113, 3); (0x2114, 0x2115, 1); (0x2116, 0x2116, 3); (0x2117, 0x2120, 1); (0x2121, 0x2122, 3); (0x2123, 0x2125, 1); (0x2126, 0x2126, 3); (0x2127, 0x212a, 1); (0x212b, 0x212b, 3); (0x212c, 0x2152, 1); (0x2153, 0x2154, 3); (0x2155, 0x215a, 1); (0x215b, 0x215e, 3); (0x215f, 0x215f, 1); (0x2160, 0x216b, 3); (0x216c, 0x216f, 1); (0x2170, 0x2179, 3); (0x217a, 0x2188, 1); (0x2189, 0x2189, 3); (0x218a, 0x218b, 1); (0x2190, 0x2199, 3); (0x219a, 0x21b7, 1); (0x21b8, 0x21b9, 3); (0x21ba, 0x21d1, 1); (0x21d2, 0x21d2, 3); (0x21d3, 0x21d3, 1); (0x21d4, 0x21d4, 3); (0x21d5, 0x21e6, 1); (0x21e7, 0x21e7, 3); (0x21e8, 0x21ff, 1); (0x2200, 0x2200, 3); (0x2201, 0x2201, 1); (0x2202, 0x2203, 3); (0x2204, 0x2206, 1); (0x2207, 0x2208, 3); (0x2209, 0x220a, 1); (0x220b, 0x220b, 3); (0x220c, 0x220e, 1); (0x220f, 0x220f, 3); (0x2210, 0x2210, 1); (0x2211, 0x2211, 3); (0x2212, 0x2214, 1); (0x2215, 0x2215, 3); (0x2216, 0x2219, 1); (0x221a, 0x221a, 3); (0x221b, 0x221c, 1); (0x221d, 0x2220, 3); (0x2221, 0x2222, 1); (0x2223, 0x2223, 3); (0x2224, 0x2224, 1); (0x2225, 0x2225, 3); (0x2226, 0x2226, 1); (0x2227, 0x222c, 3); (0x222d, 0x222d, 1); (0x222e, 0x222e, 3); (0x222f, 0x2233, 1); (0x2234, 0x2237, 3); (0x2238, 0x223b, 1); (0x223c, 0x223d, 3); (0x223e, 0x2247, 1); (0x2248, 0x2248, 3); (0x2249, 0x224b, 1); (0x224c, 0x224c, 3); (0x224d, 0x2251, 1); (0x2252, 0x2252, 3); (0x2253, 0x225f, 1); (0x2260, 0x2261, 3); (0x2262, 0x2263, 1); (0x2264, 0x2267, 3); (0x2268, 0x2269, 1); (0x226a, 0x226b, 3); (0x226c, 0x226d, 1); (0x226e, 0x226f, 3); (0x2270, 0x2281, 1); (0x2282, 0x2283, 3); (0x2284, 0x2285, 1); (0x2286, 0x2287, 3); (0x2288, 0x2294, 1); (0x2295, 0x2295, 3); (0x2296, 0x2298, 1); (0x2299, 0x2299, 3); (0x229a, 0x22a4, 1); (0x22a5, 0x22a5, 3); (0x22a6, 0x22be, 1); (0x22bf, 0x22bf, 3); (0x22c0, 0x2311, 1); (0x2312, 0x2312, 3); (0x2313, 0x2319, 1); (0x231a, 0x231b, 2); (0x231c, 0x2328, 1); (0x2329, 0x232a, 2); (0x232b, 0x23e8, 1); (0x23e9, 0x23ec, 2); (0x23ed, 0x23ef, 1); (0x23f0, 0x23f0, 2); (0x23f1, 0x23f2, 1); (0x23f3, 0x23f3, 2); (0x23f4, 0x2426, 1); (0x2440, 0x244a, 1); (0x2460, 0x24e9, 3); (0x24ea, 0x24ea, 1); (0x24eb, 0x254b, 3); (0x254c, 0x254f, 1); (0x2550, 0x2573, 3); (0x2574, 0x257f, 1); (0x2580, 0x258f, 3); (0x2590, 0x2591, 1); (0x2592, 0x2595, 3); (0x2596, 0x259f, 1); (0x25a0, 0x25a1, 3); (0x25a2, 0x25a2, 1); (0x25a3, 0x25a9, 3); (0x25aa, 0x25b1, 1); (0x25b2, 0x25b3, 3); (0x25b4, 0x25b5, 1); (0x25b6, 0x25b7, 3); (0x25b8, 0x25bb, 1); (0x25bc, 0x25bd, 3); (0x25be, 0x25bf, 1); (0x25c0, 0x25c1, 3); (0x25c2, 0x25c5, 1); (0x25c6, 0x25c8, 3); (0x25c9, 0x25ca, 1); (0x25cb, 0x25cb, 3); (0x25cc, 0x25cd, 1); (0x25ce, 0x25d1, 3); (0x25d2, 0x25e1, 1); (0x25e2, 0x25e5, 3); (0x25e6, 0x25ee, 1); (0x25ef, 0x25ef, 3); (0x25f0, 0x25fc, 1); (0x25fd, 0x25fe, 2); (0x25ff, 0x2604, 1); (0x2605, 0x2606, 3); (0x2607, 0x2608, 1); (0x2609, 0x2609, 3); (0x260a, 0x260d, 1); (0x260e, 0x260f, 3); (0x2610, 0x2613, 1); (0x2614, 0x2615, 2); (0x2616, 0x261b, 1); (0x261c, 0x261c, 3); (0x261d, 0x261d, 1); (0x261e, 0x261e, 3); (0x261f, 0x263f, 1); (0x2640, 0x2640, 3); (0x2641, 0x2641, 1); (0x2642, 0x2642, 3); (0x2643, 0x2647, 1); (0x2648, 0x2653, 2); (0x2654, 0x265f, 1); (0x2660, 0x2661, 3); (0x2662, 0x2662, 1); (0x2663, 0x2665, 3); (0x2666, 0x2666, 1); (0x2667, 0x266a, 3); (0x266b, 0x266b, 1); (0x266c, 0x266d, 3); (0x266e, 0x266e, 1); (0x266f, 0x266f, 3); (0x2670, 0x267e, 1); (0x267f, 0x267f, 2); (0x2680, 0x2692, 1); (0x2693, 0x2693, 2); (0x2694, 0x269d, 1); (0x269e, 0x269f, 3); (0x26a0, 0x26a0, 1); (0x26a1, 0x26a1, 2); (0x26a2, 0x26a9, 1); (0x26aa, 0x26ab, 2); (0x26ac, 0x26bc, 1); (0x26bd, 0x26be, 2); (0x26bf, 0x26bf, 3); (0x26c0, 0x26c3, 1); (0x26c4, 0x26c5, 2); (0x26c6, 0x26cd, 3); (0x26ce, 0x26ce, 2); (0x26cf, 0x26d3, 3); (0x26d4, 0x26d4, 2); (0x26d5, 0x26e1, 3); (0x26e2, 0x26e2, 1); (0x26e3, 0x26e3, 3); (0x26e4, 0x26e7, 1); (0x26e8, 0x26e9, 3); (0x26ea, 0x26ea, 2); (0x26eb, 0x26f1, 3); (0x26f2, 0x26f3, 2); (0x26f4, 0x26f4, 3); (0x26f5, 0x26f5, 2); (0x26f6, 0x26f9, 3); (0x26fa, 0x26fa, 2); (0x26fb, 0x26fc, 3); (0x26fd, 0x26fd, 2); (0x26fe, 0x26ff, 3); (0x2700, 0x2704, 1); (0x2705, 0x2705, 2); (0x2706, 0x2709, 1); (0x270a, 0x270b, 2); (0x270c, 0x2727, 1); (0x2728, 0x2728, 2); (0x2729, 0x273c, 1); (0x273d, 0x273d, 3); (0x273e, 0x274b, 1); (0x274c, 0x274c, 2); (0x274d, 0x274d, 1); (0x274e, 0x274e, 2); (0x274f, 0x2752, 1); (0x2753, 0x2755, 2); (0x2756, 0x2756, 1); (0x2757, 0x2757, 2); (0x2758, 0x2775, 1); (0x2776, 0x277f, 3); (0x2780, 0x2794, 1); (0x2795, 0x2797, 2); (0x2798, 0x27af, 1); (0x27b0, 0x27b0, 2); (0x27b1, 0x27be, 1); (0x27bf, 0x27bf, 2); (0x27c0, 0x2b1a, 1); (0x2b1b, 0x2b1c, 2); (0x2b1d, 0x2b4f, 1); (0x2b50, 0x2b50, 2); (0x2b51, 0x2b54, 1); (0x2b55, 0x2b55, 2); (0x2b56, 0x2b59, 3); (0x2b5a, 0x2b73, 1); (0x2b76, 0x2b95, 1); (0x2b97, 0x2c2e, 1); (0x2c30, 0x2c5e, 1); (0x2c60, 0x2cf3, 1); (0x2cf9, 0x2d25, 1); (0x2d27, 0x2d27, 1); (0x2d2d, 0x2d2d, 1); (0x2d30, 0x2d67, 1); (0x2d6f, 0x2d70, 1); (0x2d7f, 0x2d96, 1); (0x2da0, 0x2da6, 1); (0x2da8, 0x2dae, 1); (0x2db0, 0x2db6, 1); (0x2db8, 0x2dbe, 1); (0x2dc0, 0x2dc6, 1); (0x2dc8, 0x2dce, 1); (0x2dd0, 0x2dd6, 1); (0x2dd8, 0x2dde, 1); (0x2de0, 0x2e52, 1); (0x2e80, 0x2e99, 2); (0x2e9b, 0x2ef3, 2); (0x2f00, 0x2fd5, 2); (0x2ff0, 0x2ffb, 2); (0x3000, 0x303e, 2); (0x303f, 0x303f, 1); (0x3041, 0x3096, 2); (0x3099, 0x30ff, 2); (0x3105, 0x312f, 2); (0x3131, 0x318e, 2); (0x3190, 0x31e3, 2); (0x31f0, 0x321e, 2); (0x3220, 0x3247, 2); (0x3248, 0x324f, 3); (0x3250, 0x4dbf, 2); (0x4dc0, 0x4dff, 1); (0x4e00, 0xa48c, 2); (0xa490, 0xa4c6, 2); (0xa4d0, 0xa62b, 1); (0xa640, 0xa6f7, 1); (0xa700, 0xa7bf, 1); (0xa7c2, 0xa7ca, 1); (0xa7f5, 0xa82c, 1); (0xa830, 0xa839, 1); (0xa840, 0xa877, 1); (0xa880, 0xa8c5, 1); (0xa8ce, 0xa8d9, 1); (0xa8e0, 0xa953, 1); (0xa95f, 0xa95f, 1); (0xa960, 0xa97c, 2); (0xa980, 0xa9cd, 1); (0xa9cf, 0xa9d9, 1); (0xa9de, 0xa9fe, 1); (0xaa00, 0xaa36, 1); (0xaa40, 0xaa4d, 1); (0xaa50, 0xaa59, 1); (0xaa5c, 0xaac2, 1); (0xaadb, 0xaaf6, 1); (0xab01, 0xab06, 1); (0xab09, 0xab0e, 1); (0xab11, 0xab16, 1); (0xab20, 0xab26, 1); (0xab28, 0xab2e, 1); (0xab30, 0xab6b, 1); (0xab70, 0xabed, 1); (0xabf0, 0xabf9, 1); (0xac00, 0xd7a3, 2); (0xd7b0, 0xd7c6, 1); (0xd7cb, 0xd7fb, 1); (0xd800, 0xdfff, 1); (0xe000, 0xf8ff, 3); (0xf900, 0xfaff, 2); (0xfb00, 0xfb06, 1); (0xfb13, 0xfb17, 1); (0xfb1d, 0xfb36, 1); (0xfb38, 0xfb3c, 1); (0xfb3e, 0xfb3e, 1); (0xfb40, 0xfb41, 1); (0xfb43, 0xfb44, 1); (0xfb46, 0xfbc1, 1); (0xfbd3, 0xfd3f, 1); (0xfd50, 0xfd8f, 1); (0xfd92, 0xfdc7, 1); (0xfdf0, 0xfdfd, 1); (0xfe00, 0xfe0f, 3); (0xfe10, 0xfe19, 2); (0xfe20, 0xfe2f, 1); (0xfe30, 0xfe52, 2); (0xfe54, 0xfe66, 2); (0xfe68, 0xfe6b, 2); (0xfe70, 0xfe74, 1); (0xfe76, 0xfefc, 1); (0xfeff, 0xfeff, 1); (0xff01, 0xff60, 2); (0xff61, 0xffbe, 1); (0xffc2, 0xffc7, 1); (0xffca, 0xffcf, 1); (0xffd2, 0xffd7, 1); (0xffda, 0xffdc, 1); (0xffe0, 0xffe6, 2); (0xffe8, 0xffee, 1); (0xfff9, 0xfffc, 1); (0xfffd, 0xfffd, 3); (0x10000, 0x1000b, 1); (0x1000d, 0x10026, 1); (0x10028, 0x1003a, 1); (0x1003c, 0x1003d, 1); (0x1003f, 0x1004d, 1); (0x10050, 0x1005d, 1); (0x10080, 0x100fa, 1); (0x10100, 0x10102, 1); (0x10107, 0x10133, 1); (0x10137, 0x1018e, 1); (0x10190, 0x1019c, 1); (0x101a0, 0x101a0, 1); (0x101d0, 0x101fd, 1); (0x10280, 0x1029c, 1); (0x102a0, 0x102d0, 1); (0x102e0, 0x102fb, 1); (0x10300, 0x10323, 1); (0x1032d, 0x1034a, 1); (0x10350, 0x1037a, 1); (0x10380, 0x1039d, 1); (0x1039f, 0x103c3, 1); (0x103c8, 0x103d5, 1); (0x10400, 0x1049d, 1); (0x104a0, 0x104a9, 1); (0x104b0, 0x104d3, 1); (0x104d8, 0x104fb, 1); (0x10500, 0x10527, 1); (0x10530, 0x10563, 1); (0x1056f, 0x1056f, 1); (0x10600, 0x10736, 1); (0x10740, 0x10755, 1); (0x10760, 0x10767, 1); (0x10800, 0x10805, 1); (0x10808, 0x10808, 1); (0x1080a, 0x10835, 1); (0x10837, 0x10838, 1); (0x1083c, 0x1083c, 1); (0x1083f, 0x10855, 1); (0x10857, 0x1089e, 1); (0x108a7, 0x108af, 1); (0x108e0, 0x108f2, 1); (0x108f4, 0x108f5, 1); (0x108fb, 0x1091b, 1); (0x1091f, 0x10939, 1); (0x1093f, 0x1093f, 1); (0x10980, 0x109b7, 1); (0x109bc, 0x109cf, 1); (0x109d2, 0x10a03, 1); (0x10a05, 0x10a06, 1); (0x10a0c, 0x10a13, 1); (0x10a15, 0x10a17, 1); (0x10a19, 0x10a35, 1); (0x10a38, 0x10a3a, 1); (0x10a3f, 0x10a48, 1); (0x10a50, 0x10a58, 1); (0x10a60, 0x10a9f, 1); (0x10ac0, 0x10ae6, 1); (0x10aeb, 0x10af6, 1); (0x10b00, 0x10b35, 1); (0x10b39, 0x10b55, 1); (0x10b58, 0x10b72, 1); (0x10b78, 0x10b91, 1); (0x10b99, 0x10b9c, 1); (0x10ba9, 0x10baf, 1); (0x10c00, 0x10c48, 1); (0x10c80, 0x10cb2, 1); (0x10cc0, 0x10cf2, 1); (0x10cfa, 0x10d27, 1); (0x10d30, 0x10d39, 1); (0x10e60, 0x10e7e, 1); (0x10e80, 0x10ea9, 1); (0x10eab, 0x10ead, 1); (0x10eb0, 0x10eb1, 1); (0x10f00, 0x10f27, 1); (0x10f30, 0x10f59, 1); (0x10fb0, 0x10fcb, 1); (0x10fe0, 0x10ff6, 1); (0x11000, 0x1104d, 1); (0x11052, 0x1106f, 1); (0x1107f, 0x110c1, 1); (0x110cd, 0x110cd, 1); (0x110d0, 0x110e8, 1); (0x110f0, 0x110f9, 1); (0x11100, 0x11134, 1); (0x11136, 0x11147, 1); (0x11150, 0x11176, 1); (0x11180, 0x111df, 1); (0x111e1, 0x111f4, 1); (0x11200, 0x11211, 1); (0x11213, 0x1123e, 1); (0x11280, 0x11286, 1); (0x11288, 0x11288, 1); (0x1128a, 0x1128d, 1); (0x1128f, 0x1129d, 1); (0x1129f, 0x112a9, 1); (0x112b0, 0x112ea, 1); (0x112f0, 0x112f9, 1); (0x11300, 0x11303, 1); (0x11305, 0x1130c, 1); (0x1130f, 0x11310, 1); (0x11313, 0x11328, 1); (0x1132a, 0x11330, 1); (0x11332, 0x11333, 1); (0x11335, 0x11339, 1); (0x1133b, 0x11344, 1); (0x11347, 0x11348, 1); (0x1134b, 0x1134d, 1); (0x11350, 0x11350, 1); (0x11357, 0x11357, 1); (0x1135d, 0x11363, 1); (0x11366, 0x1136c, 1); (0x11370, 0x11374, 1); (0x11400, 0x1145b, 1); (0x1145d, 0x11461, 1); (0x11480, 0x114c7, 1); (0x114d0, 0x114d9, 1); (0x11580, 0x115b5, 1); (0x115b8, 0x115dd, 1); (0x11600, 0x11644, 1); (0x11650, 0x11659, 1); (0x11660, 0x1166c, 1); (0x11680, 0x116b8, 1); (0x116c0, 0x116c9, 1); (0x11700, 0x1171a, 1); (0x1171d, 0x1172b, 1); (0x11730, 0x1173f, 1); (0x11800, 0x1183b, 1); (0x118a0, 0x118f2, 1); (0x118ff, 0x11906, 1); (0x11909, 0x11909, 1); (0x1190c, 0x11913, 1); (0x11915, 0x11916, 1); (0x11918, 0x11935, 1); (0x11937, 0x11938, 1); (0x1193b, 0x11946, 1); (0x11950, 0x11959, 1); (0x119a0, 0x119a7, 1); (0x119aa, 0x119d7, 1); (0x119da, 0x119e4, 1); (0x11a00, 0x11a47, 1); (0x11a50, 0x11aa2, 1); (0x11ac0, 0x11af8, 1); (0x11c00, 0x11c08, 1); (0x11c0a, 0x11c36, 1); (0x11c38, 0x11c45, 1); (0x11c50, 0x11c6c, 1); (0x11c70, 0x11c8f, 1); (0x11c92, 0x11ca7, 1); (0x11ca9, 0x11cb6, 1); (0x11d00, 0x11d06, 1); (0x11d08, 0x11d09, 1); (0x11d0b, 0x11d36, 1); (0x11d3a, 0x11d3a, 1); (0x11d3c, 0x11d3d, 1); (0x11d3f, 0x11d47, 1); (0x11d50, 0x11d59, 1); (0x11d60, 0x11d65, 1); (0x11d67, 0x11d68, 1); (0x11d6a, 0x11d8e, 1); (0x11d90, 0x11d91, 1); (0x11d93, 0x11d98, 1); (0x11da0, 0x11da9, 1); (0x11ee0, 0x11ef8, 1); (0x11fb0, 0x11fb0, 1); (0x11fc0, 0x11ff1, 1); (0x11fff, 0x12399, 1); (0x12400, 0x1246e, 1); (0x12470, 0x12474, 1); (0x12480, 0x12543, 1); (0x13000, 0x1342e, 1); (0x13430, 0x13438, 1); (0x14400, 0x14646, 1); (0x16800, 0x16a38, 1); (0x16a40, 0x16a5e, 1); (0x16a60, 0x16a69, 1); (0x16a6e, 0x16a6f, 1); (0x16ad0, 0x16aed, 1); (0x16af0, 0x16af5, 1); (0x16b00, 0x16b45, 1); (0x16b50, 0x16b59, 1); (0x16b5b, 0x16b61, 1); (0x16b63, 0x16b77, 1); (0x16b7d, 0x16b8f, 1); (0x16e40, 0x16e9a, 1); (0x16f00, 0x16f4a, 1); (0x16f4f, 0x16f87, 1); (0x16f8f, 0x16f9f, 1); (0x16fe0, 0x16fe4, 2); (0x16ff0, 0x16ff1, 2); (0x17000, 0x187f7, 2); (0x18800, 0x18cd5, 2); (0x18d00, 0x18d08, 2); (0x1b000, 0x1b11e, 2); (0x1b150, 0x1b152, 2); (0x1b164, 0x1b167, 2); (0x1b170, 0x1b2fb, 2); (0x1bc00, 0x1bc6a, 1); (0x1bc70, 0x1bc7c, 1); (0x1bc80, 0x1bc88, 1); (0x1bc90, 0x1bc99, 1); (0x1bc9c, 0x1bca3, 1); (0x1d000, 0x1d0f5, 1); (0x1d100, 0x1d126, 1); (0x1d129, 0x1d1e8, 1); (0x1d200, 0x1d245, 1); (0x1d2e0, 0x1d2f3, 1); (0x1d300, 0x1d356, 1); (0x1d360, 0x1d378, 1); (0x1d400, 0x1d454, 1); (0x1d456, 0x1d49c, 1); (0x1d49e, 0x1d49f, 1); (0x1d4a2, 0x1d4a2, 1); (0x1d4a5, 0x1d4a6, 1); (0x1d4a9, 0x1d4ac, 1); (0x1d4ae, 0x1d4b9, 1); (0x1d4bb, 0x1d4bb, 1); (0x1d4bd, 0x1d4c3, 1); (0x1d4c5, 0x1d505, 1); (0x1d507, 0x1d50a, 1); (0x1d50d, 0x1d514, 1); (0x1d516, 0x1d51c, 1); (0x1d51e, 0x1d539, 1); (0x1d53b, 0x1d53e, 1); (0x1d540, 0x1d544, 1); (0x1d546, 0x1d546, 1); (0x1d54a, 0x1d550, 1); (0x1d552, 0x1d6a5, 1); (0x1d6a8, 0x1d7cb, 1); (0x1d7ce, 0x1da8b, 1); (0x1da9b, 0x1da9f, 1); (0x1daa1, 0x1daaf, 1); (0x1e000, 0x1e006, 1); (0x1e008, 0x1e018, 1); (0x1e01b, 0x1e021, 1); (0x1e023, 0x1e024, 1); (0x1e026, 0x1e02a, 1); (0x1e100, 0x1e12c, 1); (0x1e130, 0x1e13d, 1); (0x1e140, 0x1e149, 1); (0x1e14e, 0x1e14f, 1); (0x1e2c0, 0x1e2f9, 1); (0x1e2ff, 0x1e2ff, 1); (0x1e800, 0x1e8c4, 1); (0x1e8c7, 0x1e8d6, 1); (0x1e900, 0x1e94b, 1); (0x1e950, 0x1e959, 1); (0x1e95e, 0x1e95f, 1); (0x1ec71, 0x1ecb4, 1); (0x1ed01, 0x1ed3d, 1); (0x1ee00, 0x1ee03, 1); (0x1ee05, 0x1ee1f, 1); (0x1ee21, 0x1ee22, 1); (0x1ee24, 0x1ee24, 1); (0x1ee27, 0x1ee27, 1); (0x1ee29, 0x1ee32, 1); (0x1ee34, 0x1ee37, 1); (0x1ee39, 0x1ee39, 1); (0x1ee3b, 0x1ee3b, 1); (0x1ee42, 0x1ee42, 1); (0x1ee47, 0x1ee47, 1); (0x1ee49, 0x1ee49, 1); (0x1ee4b, 0x1ee4b, 1); (0x1ee4d, 0x1ee4f, 1); (0x1ee51, 0x1ee52, 1); (0x1ee54, 0x1ee54, 1); (0x1ee57, 0x1ee57, 1); (0x1ee59, 0x1ee59, 1); (0x1ee5b, 0x1ee5b, 1); (0x1ee5d, 0x1ee5d, 1); (0x1ee5f, 0x1ee5f, 1); (0x1ee61, 0x1ee62, 1); (0x1ee64, 0x1ee64, 1); (0x1ee67, 0x1ee6a, 1); (0x1ee6c, 0x1ee72, 1); (0x1ee74, 0x1ee77, 1); (0x1ee79, 0x1ee7c, 1); (0x1ee7e, 0x1ee7e, 1); (0x1ee80, 0x1ee89, 1); (0x1ee8b, 0x1ee9b, 1); (0x1eea1, 0x1eea3, 1); (0x1eea5, 0x1eea9, 1); (0x1eeab, 0x1eebb, 1); (0x1eef0, 0x1eef1, 1); (0x1f000, 0x1f003, 1); (0x1f004, 0x1f004, 2); (0x1f005, 0x1f02b, 1); (0x1f030, 0x1f093, 1); (0x1f0a0, 0x1f0ae, 1); (0x1f0b1, 0x1f0bf, 1); (0x1f0c1, 0x1f0ce, 1); (0x1f0cf, 0x1f0cf, 2); (0x1f0d1, 0x1f0f5, 1); (0x1f100, 0x1f10a, 3); (0x1f10b, 0x1f10f, 1); (0x1f110, 0x1f12d, 3); (0x1f12e, 0x1f12f, 1); (0x1f130, 0x1f169, 3); (0x1f16a, 0x1f16f, 1); (0x1f170, 0x1f18d, 3); (0x1f18e, 0x1f18e, 2); (0x1f18f, 0x1f190, 3); (0x1f191, 0x1f19a, 2); (0x1f19b, 0x1f1ac, 3); (0x1f1ad, 0x1f1ad, 1); (0x1f1e6, 0x1f1ff, 1); (0x1f200, 0x1f202, 2); (0x1f210, 0x1f23b, 2); (0x1f240, 0x1f248, 2); (0x1f250, 0x1f251, 2); (0x1f260, 0x1f265, 2); (0x1f300, 0x1f320, 2); (0x1f321, 0x1f32c, 1); (0x1f32d, 0x1f335, 2); (0x1f336, 0x1f336, 1); (0x1f337, 0x1f37c, 2); (0x1f37d, 0x1f37d, 1); (0x1f37e, 0x1f393, 2); (0x1f394, 0x1f39f, 1); (0x1f3a0, 0x1f3ca, 2); (0x1f3cb, 0x1f3ce, 1); (0x1f3cf, 0x1f3d3, 2); (0x1f3d4, 0x1f3df, 1); (0x1f3e0, 0x1f3f0, 2); (0x1f3f1, 0x1f3f3, 1); (0x1f3f4, 0x1f3f4, 2); (0x1f3f5, 0x1f3f7, 1); (0x1f3f8, 0x1f43e, 2); (0x1f43f, 0x1f43f, 1); (0x1f440, 0x1f440, 2); (0x1f441, 0x1f441, 1); (0x1f442, 0x1f4fc, 2); (0x1f4fd, 0x1f4fe, 1); (0x1f4ff, 0x1f53d, 2); (0x1f53e, 0x1f54a, 1); (0x1f54b, 0x1f54e, 2); (0x1f54f, 0x1f54f, 1); (0x1f550, 0x1f567, 2); (0x1f568, 0x1f579, 1); (0x1f57a, 0x1f57a, 2); (0x1f57b, 0x1f594, 1); (0x1f595, 0x1f596, 2); (0x1f597, 0x1f5a3, 1); (0x1f5a4, 0x1f5a4, 2); (0x1f5a5, 0x1f5fa, 1); (0x1f5fb, 0x1f64f, 2); (0x1f650, 0x1f67f, 1); (0x1f680, 0x1f6c5, 2); (0x1f6c6, 0x1f6cb, 1); (0x1f6cc, 0x1f6cc, 2); (0x1f6cd, 0x1f6cf, 1); (0x1f6d0, 0x1f6d2, 2); (0x1f6d3, 0x1f6d4, 1); (0x1f6d5, 0x1f6d7, 2); (0x1f6e0, 0x1f6ea, 1); (0x1f6eb, 0x1f6ec, 2); (0x1f6f0, 0x1f6f3, 1); (0x1f6f4, 0x1f6fc, 2); (0x1f700, 0x1f773, 1); (0x1f780, 0x1f7d8, 1); (0x1f7e0, 0x1f7eb, 2); (0x1f800, 0x1f80b, 1); (0x1f810, 0x1f847, 1); (0x1f850, 0x1f859, 1); (0x1f860, 0x1f887, 1); (0x1f890, 0x1f8ad, 1); (0x1f8b0, 0x1f8b1, 1); (0x1f900, 0x1f90b, 1); (0x1f90c, 0x1f93a, 2); (0x1f93b, 0x1f93b, 1); (0x1f93c, 0x1f945, 2); (0x1f946, 0x1f946, 1); (0x1f947, 0x1f978, 2); (0x1f97a, 0x1f9cb, 2); (0x1f9cd, 0x1f9ff, 2); (0x1fa00, 0x1fa53, 1); (0x1fa60, 0x1fa6d, 1); (0x1fa70, 0x1fa74, 2); (0x1fa78, 0x1fa7a, 2); (0x1fa80, 0x1fa86, 2); (0x1fa90, 0x1faa8, 2); (0x1fab0, 0x1fab6, 2); (0x1fac0, 0x1fac2, 2); (0x1fad0, 0x1fad6, 2); (0x1fb00, 0x1fb92, 1); (0x1fb94, 0x1fbca, 1); (0x1fbf0, 0x1fbf9, 1); (0x20000, 0x2fffd, 2); (0x30000, 0x3fffd, 2); (0xe0001, 0xe0001, 1); (0xe0020, 0xe007f, 1); (0xe0100, 0xe01ef, 3); (0xf0000, 0xffffd, 3); (0x100000, 0x10fffd, 3)].
(** modules/inter/_AMBIGUOUS.h, ambiguous[] *)
Definition ambiguous_table : list (N * N) := [(0xa1, 0xa1); (0xa4, 0xa4); (0xa7, 0xa8); (0xaa, 0xaa); (0xad, 0xae); (0xb0, 0xb4); (0xb6, 0xba); (0xbc, 0xbf); (0xc6, 0xc6); (0xd0, 0xd0); (0xd7, 0xd8); (0xde, 0xe1); (0xe6, 0xe6); (0xe8, 0xea); (0xec, 0xed); (0xf0, 0xf0); (0xf2, 0xf3); (0xf7, 0xfa); (0xfc, 0xfc); (0xfe, 0xfe); (0x101, 0x101); (0x111, 0x111); (0x113, 0x113); (0x11b, 0x11b); (0x126, 0x127); (0x12b, 0x12b); (0x131, 0x133); (0x138, 0x138); (0x13f, 0x142); (0x144, 0x144); (0x148, 0x14b); (0x14d, 0x14d); (0x152, 0x153); (0x166, 0x167); (0x16b, 0x16b); (0x1ce, 0x1ce); (0x1d0, 0x1d0); (0x1d2, 0x1d2); (0x1d4, 0x1d4); (0x1d6, 0x1d6); (0x1d8, 0x1d8); (0x1da, 0x1da); (0x1dc, 0x1dc); (0x251, 0x251); (0x261, 0x261); (0x2c4, 0x2c4); (0x2c7, 0x2c7); (0x2c9, 0x2cb); (0x2cd, 0x2cd); (0x2d0, 0x2d0); (0x2d8, 0x2db); (0x2dd, 0x2dd); (0x2df, 0x2df); (0x300, 0x36f); (0x391, 0x3a1); (0x3a3, 0x3a9); (0x3b1, 0x3c1); (0x3c3, 0x3c9); (0x401, 0x401); (0x410, 0x44f); (0x451, 0x451); (0x2010, 0x2010); (0x2013, 0x2016); (0x2018, 0x2019); (0x201c, 0x201d); (0x2020, 0x2022); (0x2024, 0x2027); (0x2030, 0x2030); (0x2032, 0x2033); (0x2035, 0x2035); (0x203b, 0x203b); (0x203e, 0x203e); (0x2074, 0x2074); (0x207f, 0x207f); (0x2081, 0x2084); (0x20ac, 0x20ac); (0x2103, 0x2103); (0x2105, 0x2105); (0x2109, 0x2109); (0x2113, 0x2113); (0x2116, 0x2116); (0x2121, 0x2122); (0x2126, 0x2126); (0x212b, 0x212b); (0x2153, 0x2154); (0x215b, 0x215e); (0x2160, 0x216b); (0x2170, 0x2179); (0x2189, 0x2189); (0x2190, 0x2199); (0x21b8, 0x21b9); (0x21d2, 0x21d2); (0x21d4, 0x21d4); (0x21e7, 0x21e7); (0x2200, 0x2200); (0x2202, 0x2203); (0x2207, 0x2208); (0x220b, 0x220b); (0x220f, 0x220f); (0x2211, 0x2211); (0x2215, 0x2215); (0x221a, 0x221a); (0x221d, 0x2220); (0x2223, 0x2223); (0x2225, 0x2225); (0x2227, 0x222c); (0x222e, 0x222e); (0x2234, 0x2237); (0x223c, 0x223d); (0x2248, 0x2248); (0x224c, 0x224c); (0x2252, 0x2252); (0x2260, 0x2261); (0x2264, 0x2267); (0x226a, 0x226b); (0x226e, 0x226f); (0x2282, 0x2283); (0x2286, 0x2287); (0x2295, 0x2295); (0x2299, 0x2299); (0x22a5, 0x22a5); (0x22bf, 0x22bf); (0x2312, 0x2312); (0x2460, 0x24e9); (0x24eb, 0x254b); (0x2550, 0x2573); (0x2580, 0x258f); (0x2592, 0x2595); (0x25a0, 0x25a1); (0x25a3, 0x25a9); (0x25b2, 0x25b3); (0x25b6, 0x25b7); (0x25bc, 0x25bd); (0x25c0, 0x25c1); (0x25c6, 0x25c8); (0x25cb, 0x25cb); (0x25ce, 0x25d1); (0x25e2, 0x25e5); (0x25ef, 0x25ef); (0x2605, 0x2606); (0x2609, 0x2609); (0x260e, 0x260f); (0x261c, 0x261c); (0x261e, 0x261e); (0x2640, 0x2640); (0x2642, 0x2642); (0x2660, 0x2661); (0x2663, 0x2665); (0x2667, 0x266a); (0x266c, 0x266d); (0x266f, 0x266f); (0x269e, 0x269f); (0x26bf, 0x26bf); (0x26c6, 0x26cd); (0x26cf, 0x26d3); (0x26d5, 0x26e1); (0x26e3, 0x26e3); (0x26e8, 0x26e9); (0x26eb, 0x26f1); (0x26f4, 0x26f4); (0x26f6, 0x26f9); (0x26fb, 0x26fc); (0x26fe, 0x26ff); (0x273d, 0x273d); (0x2776, 0x277f); (0x2b56, 0x2b59); (0x3248, 0x324f); (0xe000, 0xf8ff); (0xfe00, 0xfe0f); (0xfffd, 0xfffd); (0x1f100, 0x1f10a); (0x1f110, 0x1f12d); (0x1f130, 0x1f169); (0x1f170, 0x1f18d); (0x1f18f, 0x1f190); (0x1f19b, 0x1f1ac); (0xe0100, 0xe01ef); (0xf0000, 0xffffd); (0x100000, 0x10fffd)].
(** modules/inter/_NF-CCC.h, ccc_table[] *)
Definition ccc_table : list (N * N * N) := [(0x300, 0x314, 230); (0x315, 0x315, 232); (0x316, 0x319, 220); (0x31a, 0x31a, 232); (0x31b, 0x31b, 216); (0x31c, 0x320, 220); (0x321, 0x322, 202); (0x323, 0x326, 220); (0x327, 0x328, 202); (0x329, 0x333, 220); (0x334, 0x338, 1); (0x339, 0x33c, 220); (0x33d, 0x344, 230); (0x345, 0x345, 240); (0x346, 0x346, 230); (0x347, 0x349, 220); (0x34a, 0x34c, 230); (0x34d, 0x34e, 220); (0x350, 0x352, 230); (0x353, 0x356, 220); (0x357, 0x357, 230); (0x358, 0x358, 232); (0x359, 0x35a, 220); (0x35b, 0x35b, 230); (0x35c, 0x35c, 233); (0x35d, 0x35e, 234); (0x35f, 0x35f, 233); (0x360, 0x361, 234); (0x362, 0x362, 233); (0x363, 0x36f, 230); (0x483, 0x487, 230); (0x591, 0x591, 220); (0x592, 0x595, 230); (0x596, 0x596, 220); (0x597, 0x599, 230); (0x59a, 0x59a, 222); (0x59b, 0x59b, 220); (0x59c, 0x5a1, 230); (0x5a2, 0x5a7, 220); (0x5a8, 0x5a9, 230); (0x5aa, 0x5aa, 220); (0x5ab, 0x5ac, 230); (0x5ad, 0x5ad, 222); (0x5ae, 0x5ae, 228); (0x5af, 0x5af, 230); (0x5b0, 0x5b0, 10); (0x5b1, 0x5b1, 11); (0x5b2, 0x5b2, 12); (0x5b3, 0x5b3, 13); (0x5b4, 0x5b4, 14); (0x5b5, 0x5b5, 15); (0x5b6, 0x5b6, 16); (0x5b7, 0x5b7, 17); (0x5b8, 0x5b8, 18); (0x5b9, 0x5ba, 19); (0x5bb, 0x5bb, 20); (0x5bc, 0x5bc, 21); (0x5bd, 0x5bd, 22); (0x5bf, 0x5bf, 23); (0x5c1, 0x5c1, 24); (0x5c2, 0x5c2, 25); (0x5c4, 0x5c4, 230); (0x5c5, 0x5c5, 220); (0x5c7, 0x5c7, 18); (0x610, 0x617, 230); (0x618, 0x618, 30); (0x619, 0x619, 31); (0x61a, 0x61a, 32); (0x64b, 0x64b, 27); (0x64c, 0x64c, 28); (0x64d, 0x64d, 29); (0x64e, 0x64e, 30); (0x64f, 0x64f, 31); (0x650, 0x650, 32); (0x651, 0x651, 33); (0x652, 0x652, 34); (0x653, 0x654, 230); (0x655, 0x656, 220); (0x657, 0x65b, 230); (0x65c, 0x65c, 220); (0x65d, 0x65e, 230); (0x65f, 0x65f, 220); (0x670, 0x670, 35); (0x6d6, 0x6dc, 230); (0x6df, 0x6e2, 230); (0x6e3, 0x6e3, 220); (0x6e4, 0x6e4, 230); (0x6e7, 0x6e8, 230); (0x6ea, 0x6ea, 220); (0x6eb, 0x6ec, 230); (0x6ed, 0x6ed, 220); (0x711, 0x711, 36); (0x730, 0x730, 230); (0x731, 0x731, 220); (0x732, 0x733, 230); (0x734, 0x734, 220); (0x735, 0x736, 230); (0x737, 0x739, 220); (0x73a, 0x73a, 230); (0x73b, 0x73c, 220); (0x73d, 0x73d, 230); (0x73e, 0x73e, 220); (0x73f, 0x741, 230); (0x742, 0x742, 220); (0x743, 0x743, 230); (0x744, 0x744, 220); (0x745, 0x745, 230); (0x746, 0x746, 220); (0x747, 0x747, 230); (0x748, 0x748, 220); (0x749, 0x74a, 230); (0x7eb, 0x7f1, 230); (0x7f2, 0x7f2, 220); (0x7f3, 0x7f3, 230); (0x7fd, 0x7fd, 220); (0x816, 0x819, 230); (0x81b, 0x823, 230); (0x825, 0x827, 230); (0x829, 0x82d, 230); (0x859, 0x85b, 220); (0x8d3, 0x8d3, 220); (0x8d4, 0x8e1, 230); (0x8e3, 0x8e3, 220); (0x8e4, 0x8e5, 230); (0x8e6, 0x8e6, 220); (0x8e7, 0x8e8, 230); (0x8e9, 0x8e9, 220); (0x8ea, 0x8ec, 230); (0x8ed, 0x8ef, 220); (0x8f0, 0x8f0, 27); (0x8f1, 0x8f1, 28); (0x8f2, 0x8f2, 29); (0x8f3, 0x8f5, 230); (0x8f6, 0x8f6, 220); (0x8f7, 0x8f8, 230); (0x8f9, 0x8fa, 220); (0x8fb, 0x8ff, 230); (0x93c, 0x93c, 7); (0x94d, 0x94d, 9); (0x951, 0x951, 230); (0x952, 0x952, 220); (0x953, 0x954, 230); (0x9bc, 0x9bc, 7); (0x9cd, 0x9cd, 9); (0x9fe, 0x9fe, 230); (0xa3c, 0xa3c, 7); (0xa4d, 0xa4d, 9); (0xabc, 0xabc, 7); (0xacd, 0xacd, 9); (0xb3c, 0xb3c, 7); (0xb4d, 0xb4d, 9); (0xbcd, 0xbcd, 9); (0xc4d, 0xc4d, 9); (0xc55, 0xc55, 84); (0xc56, 0xc56, 91); (0xcbc, 0xcbc, 7); (0xccd, 0xccd, 9); (0xd3b, 0xd3c, 9); (0xd4d, 0xd4d, 9); (0xdca, 0xdca, 9); (0xe38, 0xe39, 103); (0xe3a, 0xe3a, 9); (0xe48, 0xe4b, 107); (0xeb8, 0xeb9, 118); (0xeba, 0xeba, 9); (0xec8, 0xecb, 122); (0xf18, 0xf19, 220); (0xf35, 0xf35, 220); (0xf37, 0xf37, 220); (0xf39, 0xf39, 216); (0xf71, 0xf71, 129); (0xf72, 0xf72, 130); (0xf74, 0xf74, 132); (0xf7a, 0xf7d, 130); (0xf80, 0xf80, 130); (0xf82, 0xf83, 230); (0xf84, 0xf84, 9); (0xf86, 0xf87, 230); (0xfc6, 0xfc6, 220); (0x1037, 0x1037, 7); (0x1039, 0x103a, 9); (0x108d, 0x108d, 220); (0x135d, 0x135f, 230); (0x1714, 0x1714, 9); (0x1734, 0x1734, 9); (0x17d2, 0x17d2, 9); (0x17dd, 0x17dd, 230); (0x18a9, 0x18a9, 228); (0x1939, 0x1939, 222); (0x193a, 0x193a, 230); (0x193b, 0x193b, 220); (0x1a17, 0x1a17, 230); (0x1a18, 0x1a18, 220); (0x1a60, 0x1a60, 9); (0x1a75, 0x1a7c, 230); (0x1a7f, 0x1a7f, 220); (0x1ab0, 0x1ab4, 230); (0x1ab5, 0x1aba, 220); (0x1abb, 0x1abc, 230); (0x1abd, 0x1abd, 220); (0x1abf, 0x1ac0, 220); (0x1b34, 0x1b34, 7); (0x1b44, 0x1b44, 9); (0x1b6b, 0x1b6b, 230); (0x1b6c, 0x1b6c, 220); (0x1b6d, 0x1b73, 230); (0x1baa, 0x1bab, 9); (0x1be6, 0x1be6, 7); (0x1bf2, 0x1bf3, 9); (0x1c37, 0x1c37, 7); (0x1cd0, 0x1cd2, 230); (0x1cd4, 0x1cd4, 1); (0x1cd5, 0x1cd9, 220); (0x1cda, 0x1cdb, 230); (0x1cdc, 0x1cdf, 220); (0x1ce0, 0x1ce0, 230); (0x1ce2, 0x1ce8, 1); (0x1ced, 0x1ced, 220); (0x1cf4, 0x1cf4, 230); (0x1cf8, 0x1cf9, 230); (0x1dc0, 0x1dc1, 230); (0x1dc2, 0x1dc2, 220); (0x1dc3, 0x1dc9, 230); (0x1dca, 0x1dca, 220); (0x1dcb, 0x1dcc, 230); (0x1dcd, 0x1dcd, 234); (0x1dce, 0x1dce, 214); (0x1dcf, 0x1dcf, 220); (0x1dd0, 0x1dd0, 202); (0x1dd1, 0x1df5, 230); (0x1df6, 0x1df6, 232); (0x1df7, 0x1df8, 228); (0x1df9, 0x1df9, 220); (0x1dfb, 0x1dfb, 230); (0x1dfc, 0x1dfc, 233); (0x1dfd, 0x1dfd, 220); (0x1dfe, 0x1dfe, 230); (0x1dff, 0x1dff, 220); (0x20d0, 0x20d1, 230); (0x20d2, 0x20d3, 1); (0x20d4, 0x20d7, 230); (0x20d8, 0x20da, 1); (0x20db, 0x20dc, 230); (0x20e1, 0x20e1, 230); (0x20e5, 0x20e6, 1); (0x20e7, 0x20e7, 230); (0x20e8, 0x20e8, 220); (0x20e9, 0x20e9, 230); (0x20ea, 0x20eb, 1); (0x20ec, 0x20ef, 220); (0x20f0, 0x20f0, 230); (0x2cef, 0x2cf1, 230); (0x2d7f, 0x2d7f, 9); (0x2de0, 0x2dff, 230); (0x302a, 0x302a, 218); (0x302b, 0x302b, 228); (0x302c, 0x302c, 232); (0x302d, 0x302d, 222); (0x302e, 0x302f, 224); (0x3099, 0x309a, 8); (0xa66f, 0xa66f, 230); (0xa674, 0xa67d, 230); (0xa69e, 0xa69f, 230); (0xa6f0, 0xa6f1, 230); (0xa806, 0xa806, 9); (0xa82c, 0xa82c, 9); (0xa8c4, 0xa8c4, 9); (0xa8e0, 0xa8f1, 230); (0xa92b, 0xa92d, 220); (0xa953, 0xa953, 9); (0xa9b3, 0xa9b3, 7); (0xa9c0, 0xa9c0, 9); (0xaab0, 0xaab0, 230); (0xaab2, 0xaab3, 230); (0xaab4, 0xaab4, 220); (0xaab7, 0xaab8, 230); (0xaabe, 0xaabf, 230); (0xaac1, 0xaac1, 230); (0xaaf6, 0xaaf6, 9); (0xabed, 0xabed, 9); (0xfb1e, 0xfb1e, 26); (0xfe20, 0xfe26, 230); (0xfe27, 0xfe2d, 220); (0xfe2e, 0xfe2f, 230); (0x101fd, 0x101fd, 220); (0x102e0, 0x102e0, 220); (0x10376, 0x1037a, 230); (0x10a0d, 0x10a0d, 220); (0x10a0f, 0x10a0f, 230); (0x10a38, 0x10a38, 230); (0x10a39, 0x10a39, 1); (0x10a3a, 0x10a3a, 220); (0x10a3f, 0x10a3f, 9); (0x10ae5, 0x10ae5, 230); (0x10ae6, 0x10ae6, 220); (0x10d24, 0x10d27, 230); (0x10eab, 0x10eac, 230); (0x10f46, 0x10f47, 220); (0x10f48, 0x10f4a, 230); (0x10f4b, 0x10f4b, 220); (0x10f4c, 0x10f4c, 230); (0x10f4d, 0x10f50, 220); (0x11046, 0x11046, 9); (0x1107f, 0x1107f, 9); (0x110b9, 0x110b9, 9); (0x110ba, 0x110ba, 7); (0x11100, 0x11102, 230); (0x11133, 0x11134, 9); (0x11173, 0x11173, 7); (0x111c0, 0x111c0, 9); (0x111ca, 0x111ca, 7); (0x11235, 0x11235, 9); (0x11236, 0x11236, 7); (0x112e9, 0x112e9, 7); (0x112ea, 0x112ea, 9); (0x1133b, 0x1133c, 7); (0x1134d, 0x1134d, 9); (0x11366, 0x1136c, 230); (0x11370, 0x11374, 230); (0x11442, 0x11442, 9); (0x11446, 0x11446, 7); (0x1145e, 0x1145e, 230); (0x114c2, 0x114c2, 9); (0x114c3, 0x114c3, 7); (0x115bf, 0x115bf, 9); (0x115c0, 0x115c0, 7); (0x1163f, 0x1163f, 9); (0x116b6, 0x116b6, 9); (0x116b7, 0x116b7, 7); (0x1172b, 0x1172b, 9); (0x11839, 0x11839, 9); (0x1183a, 0x1183a, 7); (0x1193d, 0x1193e, 9); (0x11943, 0x11943, 7); (0x119e0, 0x119e0, 9); (0x11a34, 0x11a34, 9); (0x11a47, 0x11a47, 9); (0x11a99, 0x11a99, 9); (0x11c3f, 0x11c3f, 9); (0x11d42, 0x11d42, 7); (0x11d44, 0x11d45, 9); (0x11d97, 0x11d97, 9); (0x16af0, 0x16af4, 1); (0x16b30, 0x16b36, 230); (0x16ff0, 0x16ff1, 6); (0x1bc9e, 0x1bc9e, 1); (0x1d165, 0x1d166, 216); (0x1d167, 0x1d169, 1); (0x1d16d, 0x1d16d, 226); (0x1d16e, 0x1d172, 216); (0x1d17b, 0x1d182, 220); (0x1d185, 0x1d189, 230); (0x1d18a, 0x1d18b, 220); (0x1d1aa, 0x1d1ad, 230); (0x1d242, 0x1d244, 230); (0x1e000, 0x1e006, 230); (0x1e008, 0x1e018, 230); (0x1e01b, 0x1e021, 230); (0x1e023, 0x1e024, 230); (0x1e026, 0x1e02a, 230); (0x1e130, 0x1e136, 230); (0x1e2ec, 0x1e2ef, 230); (0x1e8d0, 0x1e8d6, 220); (0x1e944, 0x1e949, 230); (0x1e94a, 0x1e94a, 7)].
(** modules/from/_GB18030.c:43-57 and modules/to/_GB18030.c:10-24, gb18030_table[] *)
Definition gb_from_table : list (N * N * N) := [(0x19c1e6, 0x19dda3, 1106); (0x19e2b5, 0x19eaf2, 9795); (0x19f15f, 0x19f45b, 13851); (0x19f81c, 0x19fb90, 15585); (0x19fc99, 0x19fe6f, 16736); (0x1a000b, 0x1a017f, 17623); (0x1a02bc, 0x1a0474, 18318); (0x1a04db, 0x1a0799, 18872); (0x1a0915, 0x1a416e, 40870); (0x1a41c0, 0x1a5286, 59493); (0x1a5370, 0x1a5775, 64042); (0x1a5894, 0x1a58ad, 65510); (0x1ca0fa, 0x2ca0f9, 65536)].
Definition gb_to_table : list (N * N * N) := [(0x452, 0x200f, 1688038); (0x2643, 0x2e80, 1696437); (0x361b, 0x3917, 1700191); (0x3ce1, 0x4055, 1701916); (0x4160, 0x4336, 1703065); (0x44d7, 0x464b, 1703947); (0x478e, 0x4946, 1704636); (0x49b8, 0x4c76, 1705179); (0x9fa6, 0xd7ff, 1706261); (0xe865, 0xf92b, 1720768); (0xfa2a, 0xfe2f, 1725296); (0xffe6, 0xffff, 1726612); (0x10000, 0x10ffff, 1876218)].
