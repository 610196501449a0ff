# Formal model of buganini/bsdconv in Rocq (Coq 8.16.1)

Layout of `/verif/rocq/theories` (logical name `Verif`):

* `M_*.v`  – the model: executable Gallina transcriptions of the C functions; each definition cites `/repo` file and lines.
* `S_*.v`  – specifications: small, independent of the model (they never import an `M_*` file except for shared
  data types such as byte lists).
* `P_*.v`  – proofs.
* `T_*.v`  – the property theorems only (`Theorem … Proof. exact … Qed. Print Assumptions …`) with an `Example`
  next to each that exhibits a concrete non-trivial instance of its hypotheses.

`properties.jsonl` is generated by `tools/gen_props.py`. `MANIFEST.json` maps properties to theorems.

## Trusted base

* Coq 8.16.1 kernel (including `vm_compute`'s conversion).
* Axioms: **none of our own**. Every property theorem is followed by `Print Assumptions` in its `T_*` file, and each prints
  "Closed under the global context". The build-wide context report (`coqchk -o`) additionally lists the module parameters
  `Coq.ssr.ssrunder.Under_rel.Under_rel`, `Under_rel_from_rel`, `Under_relE`, `over_rel`, `over_rel_done`, `under_rel_done`,
  `Over_rel` of the standard library (they come in with the standard library files loaded by `lia`/ssreflect support; no theorem
  depends on them).
* `tools/gen_alias.py`, `gen_maps.py`, `gen_ranges.py`, which copy data of `/repo` (alias files, `hex`/`dec`/`oct` maps, range
  tables) into `D_*.v`; the copies are compared with nothing else.
* The reading of the C code into Gallina. No code was run. Conventions:
  * bytes are `N` values (`< 256` where it matters, stated as a hypothesis), byte strings are `list N`;
    C strings are `list ascii` without NUL;
  * `malloc` never fails; `int`/`size_t` are unbounded unless the property is about wrap-around (then `mod 2^k` is written);
  * undefined behaviour (out-of-bounds index, dereference of freed memory, uninitialised read, double free) is an explicit outcome
    (`UB`/`None`/`LUB`), never a default value; "returns" in a theorem therefore also says "without undefined behaviour";
  * linked lists of `struct data_rt` are lists of data; a pointer into such a list is an index into it (0 = the sentinel
    `data_head`). The node pool is not modelled (recycling nodes is unobservable unless a stale pointer is used, which the model
    reports as UB);
  * environment behaviour (how much `write` accepts, short reads, `malloc` addresses, uninitialised memory) is universally quantified.

## What is modelled

| Code in /repo | Model | Level |
|---|---|---|
| `src/libbsdconv.c` pack, unpack, create's whitespace/alias loop, `_cbcreate` argument parsing, `bsdconv_error`; `src/libbsdconv_util.c` phase/codec editing | `M_ConvString` | function by function on strings |
| `src/libbsdconv_counter.c`, `libbsdconv_hash.c` | `M_Store` | function by function, cells with identity |
| `str2data`, `str2datum` and the digit maps | `M_Hex`, `D_Maps` | with the log of bytes written |
| `bsdconv()` (594-1013), `bsdconv_init`, `RESET`, `LISTFREE`, `LISTCPY_ST`, `get_offset`, `read_state` | `M_Engine` | small-step machine with program points, all phases, all codecs |
| output switch of `bsdconv()` (1015-1116), chained instances | `M_Output` | all output modes |
| the instance `bsdconv_create` builds from loaded codecs | `M_Create` | |
| `src/bsdconv-mktable.c` | `M_Mktable` (text to states), `M_Layout` (states to file bytes) | whole compiler; little-endian |
| `src/libfmalloc.c` | `M_Arena` | |
| `src/bsdconv.c` read loop and in-place replacement | `M_Tool` | file-system trace, crash after any operation |
| `loadcodec`, module search and working directory | `M_Cwd` | system-call trace |
| codec callbacks `from/_UTF-8`, `UTF-16*`, `UTF-32*`, `_GB18030`, `CP950-UDA`, `ESCAPE`, `ASCII-NUMERIC-HTML-ENTITY`; `to/_UTF-8`, `UTF-16*`, `UTF-32*`, `_GB18030`, `ESCAPE`, `BSDCONV` | `M_UTF8 M_UTF16 M_GB18030 M_UDA M_Escape M_Notation`, attached to the engine by `M_Callback`/`M_Modules` | inside the engine (GB18030: callback level) |
| callbacks that edit the phase: `from/BSDCONV`, `from/EBCDIC`, `to/EBCDIC` | `M_Raw`, `M_Notation`, `M_Ebcdic` | one phase of the engine, fed by arbitrary calls |
| `inter/` WIDTH, TRIM-WIDTH, AMBIGUOUS-PAD/UNPAD, COUNT, PASS, SCORE, INSERT, NULL, REPLACE, `_NF-*`, WHITESPACE-DERAIL/RERAIL | `M_Inter M_Norm M_Rail` | callbacks driven by `M_Star` (one phase); INSERT and NULL inside the engine |
| `from/_JIS`, `from/ANSI-CONTROL`, `from/BYTE`, `to/PASS` without arguments, `inter/STRINGS`, `inter/BIG5-DEFRAG` | `M_Jis M_Strings M_Defrag` | callbacks inside whole conversions |
| conversions with table, encoding and module phases mixed | `M_Stage` (instances only; the phases are those above) | engine |
| `modules/inter/_NFC.c`, `_NFD.txt`, `_NFC-MAP.txt` | `M_Nfc`, `D_Nf` (generated by `tools/gen_nf.py`) | the inner instance `_NFC-MAP,COUNT#ERR` is the pair table itself; marks put back into the previous phase's list are a recursion inside the module; second free of the starter = NOMATCH |
| phases of table files followed by `modules/inter/COUNT.c` (cbcreate's counter is the private state) | `M_Count` | engine |
| `src/libbsdconv_module.c` `bsdconv_solve_alias` | `M_SolveAlias` (the conversion ASCII:ALIAS-x,COUNT#ERR:ASCII run by the engine model) | the '?' lines (LOCALE, UNICODE); a failing create |
| `src/libbsdconv_module.c` `bsdconv_modules_list`, `bsdconv_module_check`, `scmp` | `M_List` | directories as lists of names; names with '/'; libc's qsort |
| `modules/to/ASCII-HTML-UNICODE-IMG.c`, `modules/to/RAW.c` | `M_Writers` | the size of the buffer of the image link (128 bytes: codes of up to 25 bytes); empty data |
| `src/bsdconv-completion.c` | `M_Complete` | the environment (locale, output); the lists come from `M_List` |
| `modules/inter/BONUS.c`, `ZH-BONUS.txt`, `ZH-BONUS-PHRASE.txt` | `M_Bonus`, `D_Bonus` | one counter SCORE shared by several modules; tables in which a key begins another one (ZH-BONUS-PHRASE) are modelled but outside the theorems |
| `modules/inter/SCORE-TRAIN.c`, `SCORE.c` (WITH=TRAINED) | `M_Train` | the score file is a list of bytes, the list file what was appended; fopen succeeds, nobody else writes; the uninitialised `v` of SCORE.c:90 is an arbitrary function |
| `modules/from/_CP125?.txt`, `_CP874.txt`, `_ISO-8859-1.txt`, `FALLBACK-UNICODE.txt`, `modules/to/_CP1251.txt` ... | `M_Charsets`, `D_Charsets` (generated by `tools/gen_charsets.py`) | the lines verbatim, compiled by the model of mktable |
| `filter/*`, `scorer/*` with their tables | `M_Filter M_Bsearch D_Ranges` | functions |

Not modelled: dynamic loading (`dlopen`), `mmap`, Windows-only paths, the large data tables (`modules/*/*.txt`: the engine theorems
hold for every table), memory exhaustion, `bsdconv-man`, `bsdconv-dbg`, the language bindings, the SCORE
module's file handling (fopen, cbctl), chewing/pinyin/Han-variant data, performance.

## Structure of the engine proof

* `S_Engine`: the specification. A codec is a verdict on symbol sequences (`csem`: dead / prefix / match / match-but-longer); a phase
  is `trans` (longest match of the first codec that matches); a conversion is the composition `pipeline`. No queues, chunks, pointers.
* `P_Engine1..4`: one phase. `codec_spec` gives a codec's verdict, its private-state invariant and the states in which it may be
  restarted; `from_ok`/`data_ok` are the local obligations, proved for table codecs (`P_Dict`, `P_Convert`) and for callbacks
  (`P_Callback`, `P_UTF8`, ...). `pinv` relates a phase's cursor/backup/flags to the symbols held back.
* `P_Engine5..6`: all phases; the denotation "what the held-back symbols and the unread input will still produce" is preserved by each
  step and a lexicographic measure decreases, so every call terminates. `P_Session*`: histories of calls, output modes, streams,
  re-initialisation, errors. `P_CbSession`, `P_Pair`, `P_Tri`: the same for conversions with callbacks. `P_Safe*`: no UB and
  termination for every conversion of table modules from any past.
* `M_Raw`/`P_Raw`: phases whose callback edits lists itself; `Machine` reduces a stream in any chunking to a byte automaton.

## Plan per property

| Id | Model | Proof |
|----|-------|-------|
| C01–C03 | `unpack`/`pack` over strings with `strsep`/`strchr` | split/join algebra; grammar predicate as spec; refutation for single-phase segments and `a#` |
| C04 | length computation and emitted length | induction on phases/codecs |
| C05 | `pack` on comma-containing names | join/split lemma |
| C06 | whitespace handling of `bsdconv_create` | `S_Resolve.spaced`: two strings that differ only in white space create the same instance; only white space is skipped |
| C07 | alias loop as step function on strings | measure from a rank on names; acyclicity of the shipped tables by computation; big-step spec `resolves` with unique outcome; refutation with a 2-cycle |
| C08 | `_cbcreate` loop | split/join |
| C09–C11 | util functions, C remainder on Z, UB on out-of-range | list splices; refutation for out-of-range |
| C12–C13 | counter list with cell identities | invariant over histories |
| C14–C15 | hash list with move-to-front | refinement to finite map for has-then-get; refutations for get/del of non-head key |
| C16 | hex parsers with buffer write log | value and write bounds; refutation for odd lengths |
| C17–C20 | output switch | byte conservation over histories; refutation for short writes, size query after a decoder, second PASS |
| C21 | step machine with UB outcome | well-founded measure, shape invariant from any past; refutation for empty keys |
| C22–C27 | step machine | denotational invariant; refutations for chunked decode errors and adjacent decoders |
| C28 | `bsdconv_init` | any used instance re-initialised behaves as new |
| C29–C30 | `mktable` | trie invariant relating states to source lines; serialise/deserialise |
| C31–C34 | UTF decoders/encoders in the engine | byte automata as `codec_spec`; all 25 pairs |
| C35 | GB18030 callbacks | arithmetic on ranges |
| C36, C37 | UDA, escapes in the engine | `pair_converts` |
| C38 | `from/BSDCONV` in one phase, `to/BSDCONV` in the engine | `Machine`; `pair_converts`; refutations for data boundaries, separators, re-initialisation |
| C39 | EBCDIC codecs in one phase (`M_Raw`) and as codecs of whole conversions (`M_Shift`), any compiled table | `Machine`, `P_Machine`, `P_Shift`, `P_Flow6`; mixed-text relation as spec |
| C40, C41 | normalisation callbacks over all streams | relational specs of decomposition, composition, stable sort |
| C42–C44, C48 | width, trim, pad, observers over all streams | counting relations; refutations |
| C40–C44, C48 (whole conversions) | `M_Stars`: the modules as codecs with the one-entry table `*`; `via` is `src:M1:...:Mn:dst` | `S_Flow` says what a stream through an initialised instance delivers; `P_Flow`–`P_Flow5` carry an invariant per phase (what is still to come out of it for every continuation of its input) through the engine's calls, table phases and stateful phases mixed |
| C45–C46 | filters, scorers with shipped tables | sortedness by computation, binary search correctness |
| C47 | INSERT/NULL as middle phase of the engine; REPLACE | `tri_converts` |
| C49 | two phases sharing a structure, all interleavings | restoration invariant |
| C50 | file-system trace model | every prefix of the operation trace |
| C51 | read loop with arbitrary short reads | induction on reads, composed with C26 |
| C52 | cwd state machine | per call; refutation for invalid type / threads |
| C53 | bump allocator | invariant; refutation for oversized block |
| C54 | `bsdconv_error` | case analysis |
| C55 | `M_Fallback`: ANY's argument parsing and callbacks as last codec of phases of table codecs | `S_Fallback` substitutes per unmatched symbol; `P_Fallback` instantiates the engine theorem with ANY's `codec_spec`; totality by the fallback's match |
| C56 | `M_Jis`: `_JIS.c` as callback codec beside ASCII in the decoding phase of whole conversions | `S_Jis` defines the texts; `P_Byte` (two-codec byte machines), `P_Machine`, `P_Flow6` |
| C57 | `M_Strings`: `STRINGS.c` as a star module with any filter | `S_Strings` defines maximal runs; induction over the data, `T_Flow` for conversions |
| C58 | `M_Defrag`: ANSI-CONTROL, BYTE, BIG5-DEFRAG and PASS as codecs of one whole conversion | `S_Defrag` (items, `defragmented`); `P_Byte` for the decoding phase, star stream lemma, `P_Flow6` |
| C59 | `M_Stage.linked`: a phase is a list of compiled sources (+ANY), a Unicode codec or a module | `S_Stage.run_links` composes one relation per phase; `P_Weak` (a module behind phases that take matches back), `P_Flow4.flow_fresh_gen` |
| C60 | `M_Nfc.NFC`, `T_Nfc.nfc_links` (NFD:_NFC:_NF-HANGUL-COMPOSITION between Unicode encodings) | `S_Nfc`: equivalence, blocking, full composition, canonical decomposition. `P_Nfc`: invariant of the module (starter, settled pending marks); `P_Nfc2`: equivalence implies equal decompositions up to exchange of marks, hence idempotence; tables checked by `vm_compute` |
| C61 | `M_Count.staged`: links of C59 and phases `tables, COUNT` | `S_Count.passed`; `P_Count`: simulation of the phase by one whose COUNT marks what it passes (so its output is a function of the data), then the composition of C59 |
| C62 | `M_SolveAlias.solve_alias` | `S_SolveAlias.spelled` (longest-match split of the name); `P_SolveAlias` instantiates C61 with the alias table, and C19 for the buffer |
| C63 | `M_List.modules_list`, `module_check`: array with explicit capacity, fgets, strsep, strstr | `S_List` (which files and lines count, byte order); invariant `good` of the growing array, induction over the lines |
| C64 | written forms behind ASCII | `M_Writers`: HTML-IMG and RAW as callback codecs; `S_Writers`: shortest hexadecimal form, links, bytes of the code; proved through `P_Pair` (decoder side of C31-C34, encoder side = ASCII table and a `*` callback), so for all chunkings and streams |
| C65 | completion of a partial conversion | `M_Complete`: main with the sizes of its blocks (a write outside gives None); `S_Complete`: the parts of an argument and the offered names as relations; induction over the argument and the lists, and C63 for the lists |
| C66 | bonus modules | `M_Bonus` (callback with its counter, table with callback leaves), `SBonus` in `M_Count`; `S_Bonus`: keys found from left to right; the codec answers as a marked table (weights of the marks = bonuses), so the generic flow theorem of C61 applies; `D_Bonus` is generated from the file |
| C67 | trained scores | `M_Train` (star modules with the file as state); `S_Train`: numbers capped at 3, characters met for the first time; induction on the text from its end (the numbers of a prefix), then the generic flow theorem for star modules |
| C68 | single byte charsets | `M_Charsets`; `S_Pages` (generated from Python's codecs), `S_Charsets`; the verdict of each codec list on one datum is computed for the 256 bytes of each table, the rest is the generic pair theorem |

Properties that fail on the faithful model are given as `…_refuted` theorems with a witness plus the strongest positive
statement (`_partial` or with explicit hypotheses).

## Mutation testing

`seeded/mutate.py` applies the edits of `seeded/*.json` to a scratch copy of the model, rebuilds (theorems whose proofs break are
recorded and replaced by a hole so that the following files still build) and writes one line per edit to `seeded/LOG.jsonl`.
Survivors were either tightened (new theorem named in the log) or shown to be equivalent programs.
