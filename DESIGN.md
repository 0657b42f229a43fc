# Formal model of pyembroidery in Rocq (Coq 8.16.1)

The source under study is `/repo` (EmbroidePy/pyembroidery, pinned commit).  Nothing
in `/repo` is executed or changed: the model is a function-by-function transcription
made by reading the Python text.  Every definition in `rocq/theories/*Model.v`
carries a comment citing the file and lines it models and the simplifications made.

## Layout

| file group | content |
|---|---|
| `PyBase.v`, `EmbConst.v` | results and exceptions as values, stitches, Python `round` (half to even); the constants of EmbConstant.py |
| `NumModel.v`, `NumQ.v` | the arithmetic as a record of operations without laws; its exact rational instance |
| `*Model.v` | transcription of one group of Python modules, computable, total, no proofs |
| `*Spec.v` | small vocabulary used only by the property statements, independent of the model's helper functions |
| `*Proofs.v`, `BitLemmas.v` | lemmas |
| `Properties*.v` | the property theorems, each followed by `Print Assumptions`, and examples showing that the hypotheses can be met |

## Modelling decisions

* **Integers** are `Z`; Python's `&`, `|`, `<<`, `>>`, `//`, `%` on ints are the
  corresponding `Z` functions (both are two's-complement/floor semantics).
* **Coordinates.**  Python coordinates may be int or float.  Code that only moves
  coordinates around (encoder control flow, pattern editing) is modelled over an
  arbitrary number system (`Num`, a record of operations without laws), so its
  theorems hold for *any* arithmetic, binary64 included.  Theorems about lengths and
  drift are about the exact rational instance: floating-point rounding is
  abstracted there and is part of the trusted base.  C164-C167 repeat the central ones
  for doubles (`FloatModel.v`, on Flocq: real numbers rounded to 53 bits after every
  operation; no overflow, NaN or signed zero; Flocq's theorems are used, it has no
  axioms of its own).  Rotations and the direction of
  lock stitches are over the reals (`PropertiesReal.v`).
* **Byte streams** are `list Z`; `f.read(n)` returns the (possibly shorter) prefix.
  `seek`/`tell` are modelled by absolute offsets.  `struct` packing of values out of
  range is an explicit error.
* **Text** is the list of its code points; UTF-8 is modelled as in RFC 3629
  (`Utf8Model.v`), strict on encoding, with failure as a value on decoding.
* **Exceptions** are an explicit result type; no totalised default hides one.
* **Loops** are structural recursion on the data, or recursion on explicit fuel with
  a distinguished out-of-fuel error; the theorems either exclude that error or, for the
  readers, say that it does not occur with fuel as long as the file.
* **Random filler threads** (`get_random_thread`) are a distinguished value, because
  the library makes no promise about their colour.
* **Aliasing** properties use an explicit heap (references to mutable stitches).

## How the properties are proved

| id | model | proof |
|---|---|---|
| C01, C02 | `encode_thread_change`, `decode_embroidery_command` on `Z` | bit-field lemma (disjoint `lor` = `+`); C02 false at 255: refutation by witness |
| C03 | all `write_int_*`, `read_int_*`, `signed*` | arithmetic on `Z.modulo` |
| C04, C05 | `encode_record`, `decode_dx/dy`, reader dispatch | greedy balanced-ternary invariant; finite sweep over each axis |
| C06 - C08 | DST writer loop, reader loop | induction over the pattern / the byte list |
| C09 | EXP, JEF, U01, TBF, PEC reader loops | induction over the byte list |
| C10, C11, C53 | EXP, JEF writer and reader loops | induction, escape byte excluded by range |
| C12, C13 | PEC `write_value`, `pec_encode`, `read_pec_stitches` | field lemma + induction with encoder state |
| C14 - C16 | U01, TBF, XXX loops | induction; boundary case of XXX false |
| C17, C18, C64 | VP3 whole file with nested length fields | induction; C18 false when one axis is 0 |
| C19 | running quantisation loop over `Q` | invariant |
| C20, C21, C55 | gap interpolation over `Q`, composition with C19 and the writers | exact rational argument |
| C22 - C28, C115, C122 | Transcoder over arbitrary arithmetic | one-step invariants, induction over the source |
| C29, C39, C40 | lock stitches and EmbMatrix over `R` and over any ring | `ring`/`field`, trigonometric identities |
| C30 - C32, C59 - C63 | heap model of patterns | frame lemmas / refutation by witness |
| C33 - C38, C52, C56 - C58 | EmbPattern editing functions | refinement of the index loops to list recursions |
| C41 - C44, C54 | EmbThread palette functions | fold invariants |
| C45, C46, C66 - C68 | name tables, CSV and JSON files | finite sweep over the names + decimal parser lemma; CSV quoting inverse |
| C47, C48, C69, C70 | EmbCompress bit reader | bit-list abstraction, canonical prefix codes |
| C49, C65 | EDR/COL/INF writers, readers | induction |
| C50 | settings as a finite map | case analysis |
| C51 | JEF header | arithmetic on lengths |
| C71 - C75 | PEC and PES whole files, previews | section offsets, induction; refutation by witness |
| C76 - C80 | DST whole file with text header | parser lemmas for the header lines, composition with C06 |
| C81 - C86 | read-only record formats | encodings written as tables, decoding by induction over the records |
| C87 - C91 | PCD, PCM, PCQ, PCS, MAX, SHV, HUS | as C81, compressed streams through C47 |
| C92 - C94 | PMV | rational scaling bounds; refutation by witness |
| C95, C96 | PHB, PHC | offset chains, composition with C13 |
| C97 - C101 | G-code | scanner and number printer lemmas |
| C102 - C107 | generic, TXT and SVG writers | induction over the commands; refutation by witness |
| C108 - C114 | PNG line drawing, picture, file | rational line invariant, frame lemmas on the buffer; refutation by witness |
| C116, C117, C123 - C125 | encoder followed by writer and reader | composition of the encoder theorems, the walk invariant and the whole-file theorems |
| C118 - C121 | TBF, U01, XXX whole files | header layout lemmas |
| C126 | U01 with speed commands | refutation by witness |
| C127 - C132 | values of dynamic type given as colours, threads, stitches | lookup and parser lemmas, induction; the colour names against a separate table |
| C133 - C135 | patterns put together of blocks | colour blocks refined to a list recursion |
| C136 - C138, C140, C141, C143, C145 | file names, table of formats, reading, writing, converting over a map from names to contents | extension parser lemmas, case analysis; C137, C143, C145 false |
| C139 | what a failed save leaves | frame lemma; refuted by a DST save that stops half way |
| C142, C144 | the version settings of PES | case analysis over the ways to ask |
| C146, C147 | which thread sews each stitch, from the design to the encoded pattern | invariant over the interpreter: what a step appends, and the number of changes so far |
| C148, C149 | blocks through encoder, writer and reader | composition of C147, C20 and the round trips; lists of (block, point) carried through each format's view |
| C150, C151 | JEF's thread table with C149's palette numbers | pointwise reading of the numbers, C41's nearest colour; C151 false |
| C152 | a design as readers deliver it, through encoder, writer and reader again | C147 and C20 for such designs, the round trips of the formats, the trim interpolation keeps sewing and shape |
| C153 | readers on arbitrary bytes | induction on the length of the input, invariant of the trim interpolation |
| C154 | sequences of conversions | induction over the sequence, C152 and C153 |
| C155 | what a step of the encoder may append | invariant of the interpreter |
| C156 | patterns made by histories of drawing calls | invariant: the stored position is that of the last command; false after translate, add_command, or an insertion into nothing |
| C157, C158 | queries over thread and command lists | induction on the lists, equality of threads from C132, C01 |
| C159 | VP3 files of any size and place | the shift of a block is a function of its start and of the parity of the centre; induction over blocks |
| C160, C161 | where an encoded pattern goes | invariant over the encoder's loop for any two convex sets of positions, then boxes |
| C162, C163 | saving a loaded file again | the encoder's output is settled (invariant), rounding and EXP keep it settled, and a settled design is encoded to itself (invariant relating encoder state and what was already read) |
| C164, C165 | the writers' rounded differences on doubles | invariant of the running sum with one rounding error; C165 false next to a half |
| C166, C167 | encoder, writer and reader on doubles | the invariants of C20 and C117 with a margin for rounding errors: interpolated steps stay below M + 1/2 |
| C168, C169 | ZHS files | texts with "&" only before one character split as a homomorphism; the outcome by where the offsets point |
| C170 | CSV metadata | induction on rows: the metadata so far are the last ones given |
| C171 | equal threads are written the same | relation on thread lists preserved by every writer; TXT refuted |
| C172 | stitches independent of the threads | simulation between two runs of the encoder |
| C173 | design part of PES files | independent reader of the sections; induction over command blocks; refuted for adjacent changes |
| C174, C175 | matrices as objects | induction over the history of calls; comparison, printing and @= refuted |
| C176, C177 | saving loaded PEC stitches again | the reader adds trims before jumps; the encoder drops trims of cut thread; bytes compared along pec_view |
| C178, C179 | lengths and header of VP3 files | composable readers: a writer part followed by anything is read as itself; nesting by the block lemma |
| C180, C181, C182 | saving loaded DST files again | invariant of the trim interpolation over any bytes: what it leaves is tidy; the encoder adds nothing; refuted for leading and moving colour changes |
| C183, C184 | fractional designs in VP3 files | the file is byte for byte that of a design of whole coordinates, which is near; then as C159 |
| C185, C186, C187 | speed commands, accumulated rounding, repeated saving in VP3 | refuted by computation |
| C188 | arbitrary bytes read as JEF, PEC, PES, TBF, VP3, XXX | induction over the remaining bytes; only what is left of the stream matters; XXX records are prefix-free |
| C189 | designs with transformation commands | invariant of the encoder loop: map in force = matrix, needle = last place gone to; inverse of the inverse is the matrix |
| C190 | pairs of patterns, placement arguments | composition of C60 and C189; three centred maps collapse to one about the needle |
| C191 | patterns and appended translations | same composition; witness computed through the encoder over reals |
| C192 | pictures | the flat list of characters cut in rows, each byte giving eight columns |
| C193 | sequences of strokes | induction; a stroke changes one bit of one byte |
| C194 | patterns with pictures | the texts of pictures are storable cells; then C66 |
| C195 | loaded PEC files | induction on the metadata; witness of 525 zero bytes |
| C196 | designs, settings, doubles | invariant: commands stand where the last movement ended and repeat their own word; the second thread plan recomputed from the numbers in the colour changes; induction over the encoded list with the output monitor |
| C197 | designs | witnesses by computation |
| C198 | patterns, settings, object sharing | frame conditions of the object store; copy and clear composed with the encoder's appends |
| C199 | PEC sections, named threads | induction over the sections; invariant relating the table so far to the numbers seen |
| C200 | thread lists | induction over the records |
| C201 | tables, ways of writing them | induction over fields and rows of the reader's states |
| C202 | compressed streams (blocks, codes, tokens), sizes | induction over the derivation of the stream in its grammar; each table reader against its bits |
| C203 | plain JEF files, trim distances, threads, settings | the trim interpolation as a function of the raw commands, one generation (load, encode, write) as `stored (interp b)`; after one generation the needle lands where it stands, and then the next generation is the identity; the palette is fixed because the table's colours are distinct |
| C204 | JEF files without stops, trim distances | run by run, from the closed form of the trim interpolation; the relation determines one list |
| C205 | patterns, streams with contents and a position | a stream with write, tell and seek; each piece of a writer overwrites a segment, a filled-in length is the length of its piece; the readers commute with a shift of the position |
| C206 | DST, U01, JEF on streams | witnesses; the bytes a DST file has at a position |
| C207 | pairs of patterns, histories of building calls, further calls | relational invariant (same stitches, same threads, same pen) kept by every call; induction over the calls; refuted by three histories |
| C208 | byte strings that load as CSV, column layouts, numbers of saves | invariant of the row reader (every cell is storable but for quotes), round trip C66, induction over the saves; refuted by a file with a quote |
| C209 | XXX files with steps up to 123, threads, settings | shape of what the reader gives by induction on the file; the encoder on such designs drops only cut trims (from C162's proof); dropping is idempotent; the writer depends only on commands and places |
| C210 | patterns with named commands, any text without a surrogate pair, any floats that repr and float() carry | escaping read back by induction on the text; nested induction on the JSON value for dump and scan; fuel shown to suffice by a length argument |
| C211 | all patterns, all cuts, all text behind the file | reading is stable under more text behind; hence a readable prefix would leave the rest over |
| C212 | all texts that parse as a JSON design | what the scanner gives holds no surrogate pair (induction on the text); keys made unique; name tables swept; then the round trip of C210 with commands mod 2^32 |
| C213 | all loadable texts, all blanks for a line feed | the scanner accepts no raw line feed inside a string, so replacing commutes with every scanning step |
| C214 | all patterns and templates of words and plain fields | two runs side by side: templates related by putting the number in, dictionaries by knowing it; names swept for clashes |
| C215 | all patterns, all pairs of metadata | two runs side by side whose dictionaries differ only below the statistics |
| C216 | all patterns and entries | induction on the items |
| C217 | all patterns and templates | refuted by two colours; what is shown instead by two runs side by side |
| C218 | all colour files, all sequences of conversions | readers mask every colour to 24 bits; round trips of C49 chained by induction on the sequence |
| C219 | all patterns of named commands, all templates of words and the command's values | induction on the commands: the dictionary's newest entries decide |
| C220 | histories of assignments, indices, names | induction on the history; index modulo length |
| C221 | slice ends, new stitches | arithmetic of limits; firstn/skipn |
| C222 | patterns | induction on the rest of the stitches |
| C223 | pairs of patterns, names | uniqueness of the split at the last colons |
| C224 | patterns in heaps | refuted by a general computation; copy.copy from C31 |
| C225 | patterns, tables, keys, templates | induction on the commands; refuted by computation |
| C226 | HUS and SHV files | induction on the colour numbers; the finite palettes by computation |
| C227 | patterns, lists of EXP and U01 files | induction on the files and calls; needle points by C24 |
| C228 | patterns, shifts by whole units | rounding lemmas on exact rationals |
| C229 | designs, settings, arithmetics | induction on the design; the encoder's state read as what is asked for |
| C230 | designs, settings | C229 composed with the EXP round trip |
| C231 | designs, settings, trim settings | C229 composed with the DST and JEF round trips |
| C232 | designs, settings | C229 for needle changes composed with reading U01 records |
| C233 | designs, settings | C229 composed with the XXX round trip |
| C234 | designs, settings | C229 for needle changes composed with reading TBF records; refuted for jumps in place |
| C235 | designs, settings, threads | C229 composed with C71 and C73; a relation for the stitches PEC adds where a jump lands |
| C236 | designs, settings, threads | C229 composed with the VP3 round trip behind C183; commands kept through the cutting into blocks |
| C237 | designs, settings, threads, comment texts | C24, C115 and C229 composed with C97; the two flips cancel |
| C238 | designs, settings, threads | C146 composed with C97; refuted for designs with stops |
| C239 | designs, settings and threads of both saves | the loaded form is told by its stitches and the commands between them; C24, C229 and C97 applied to it again; refuted for designs that begin with a colour change |
| C240 | designs, settings, threads | the thread number of a stitch is told by the commands before it; C146 composed with C230, C231 and C233 |
| C241 | designs, settings, threads | what a design asks for told by the numbers of its threads (induction); composed with C232 and C234 |
| C242 | designs, settings | the plan of changes stays empty of numbers (induction over the commands), finishing it counts threads and needles up (induction); composed with C123 and C124 |
| C243 | designs, settings, threads | the needle in force told by the count of needle changes (induction); composed with C241 and C242 |
| C244 | designs, settings, pairs of stitches | C243 and injectivity of the needle numbers; refuted for fifteen needles in U01 by a witness |
| C245 | designs, settings, threads | C235 with the numbers of the threads, by induction over what the file carries; composed with C146 |
| C246 | designs, settings, threads | the JEF round trip of C20 with the thread numbers of C240; stops excluded through C229 |

## Theorems per property

246 properties: 167 proved as stated, 79 partial (mostly refuted in full generality, see the note in `MANIFEST.json`).
Theorems named `_refuted` exhibit an input on which the stated property is false of the model.

| id | property | status | theorems | file |
|---|---|---|---|---|
| C01 | Thread-change packing round trip | proved | `C01_thread_change_round_trip` | PropertiesCore.v |
| C02 | Thread-change packing never damages a neighbouring field | partial | `C02_thread_change_refuted`, `C02_thread_change_partial` | PropertiesCore.v |
| C03 | Fixed-width integer writers and readers agree | proved | `C03_unsigned_round_trip`, `C03_written_bytes`, `C03_signed_representative`, `C03_short_stream` | PropertiesCore.v |
| C04 | DST record round trip | proved | `C04_dst_record_round_trip` | PropertiesDst.v |
| C05 | DST record encoder rejects exactly the unencodable moves | proved | `C05_dst_record_rejects_exactly` | PropertiesDst.v |
| C06 | DST write-then-read preserves the design | proved | `C06_dst_write_read` | PropertiesDst.v |
| C07 | DST trims leave no displacement | proved | `C07_dst_trim_no_displacement` | PropertiesDst.v |
| C08 | Truncated DST data reads as a prefix | proved | `C08_dst_truncated_prefix` | PropertiesDst.v |
| C09 | Truncated EXP, JEF, U01, TBF, PEC stitch data read as a prefix | partial | `C09_truncated_prefix`, `C09_truncated_prefix_partial`, `C09_never_raises_refuted` | PropertiesFormats.v |
| C10 | EXP write-then-read preserves the design | proved | `C10_exp_write_read` | PropertiesFormats.v |
| C11 | JEF write-then-read preserves the stitch sequence | proved | `C11_jef_write_read`, `C11_jef_view_plain` | PropertiesFormats.v |
| C12 | PEC displacement coding round trip | proved | `C12_pec_displacement` | PropertiesFormats.v |
| C13 | PEC write-then-read preserves stitches and colours | proved | `C13_pec_write_read` | PropertiesFormats.v |
| C14 | U01 write-then-read preserves the design | proved | `C14_u01_write_read`, `C14_u01_view_plain` | PropertiesFormats.v |
| C15 | TBF write-then-read preserves the design | proved | `C15_tbf_write_read` | PropertiesFormats.v |
| C16 | XXX write-then-read preserves the design | partial | `C16_xxx_boundary_refuted`, `C16_xxx_write_read_partial` | PropertiesFormats.v |
| C17 | VP3 colour-block stitch data round trip | proved | `C17_vp3_block_stitches` | PropertiesVp3.v |
| C18 | VP3 colour-block start positions are restored | partial | `C18_vp3_write_read_partial`, `C18_start_on_axis_refuted`, `C18_odd_extents_refuted` | PropertiesVp3.v |
| C19 | Writer quantisation does not drift | proved | `C19_no_drift`, `C19_no_displacement` | PropertiesMetric.v |
| C20 | Encoded patterns always fit the DST/EXP/JEF/PEC step range | proved | `C20_steps_fit`, `C20_dst`, `C20_exp`, `C20_pec`, `C20_jef`, `C20_default_settings` | PropertiesPipeline.v |
| C21 | Encoder gap filling respects the maximum length | proved | `C21_gap_filling` | PropertiesMetric.v |
| C22 | Encoded pattern ends with exactly one END | proved | `C22_single_end` | PropertiesEncoder.v |
| C23 | Encoded pattern contains only core commands | proved | `C23_core_commands` | PropertiesEncoder.v |
| C24 | Encoding keeps every needle penetration in order | proved | `C24_penetrations_kept`, `C24_no_other_penetrations` | PropertiesEncoder.v |
| C25 | Encoder thread sequencing never fails and matches colours | proved | `C25_plan_never_missing`, `C25_threads_match_changes` | PropertiesEncoder.v |
| C26 | Explicit thread numbers on colour commands are honoured | partial | `C26_explicit_thread_refuted`, `C26_explicit_thread_partial` | PropertiesEncoder.v |
| C27 | Trimmed state discipline | proved | `C27_trims_after_sewing` | PropertiesEncoder.v |
| C28 | Sequin mode is off whenever a jump or trim is emitted and toggles alternate | proved | `C28_sequin_discipline` | PropertiesEncoder.v |
| C29 | Lock stitches stay within the limit and return to the start | proved | `C29_tie_on`, `C29_tie_off`, `C29_locks_read` | PropertiesReal.v |
| C30 | Writing and normalising do not change the source pattern | proved | `C30_encoding_keeps_source`, `C30_encoded_keeps_result` | PropertiesHeap.v |
| C31 | A copied pattern is independent of the original | partial | `C31_copy_equal`, `C31_copy_independent_partial`, `C31_translate_copy_refuted` | PropertiesHeap.v |
| C32 | Adding a pattern leaves the added pattern unchanged | partial | `C32_add_pattern_partial`, `C32_plus_partial`, `C32_add_pattern_refuted` | PropertiesHeap.v |
| C33 | Trim interpolation keeps all sewing | partial | `C33_interpolate_trims_partial`, `C33_keeps_commands`, `C33_sewing_kept`, `C79_interpolate_trims_total`, `C33_clipping_deletes_stop_refuted` | PropertiesDstFile.v, PropertiesFidelity.v, PropertiesPattern.v |
| C34 | Stop/duplicate-colour conversions are inverse | proved | `C34_stops_as_colours_and_back`, `C34_unsewn_stop_refuted` | PropertiesPattern.v |
| C35 | Frame-eject interpolation terminates and keeps sewing | proved | `C35_frame_eject`, `C35_keeps_sewing`, `C35_sequin_lost_refuted` | PropertiesPattern.v |
| C36 | Block decompositions partition the pattern | proved | `C36_command_blocks`, `C36_colour_blocks`, `C36_stitch_blocks` | PropertiesPattern.v |
| C37 | Bounds are tight and translation moves them | proved | `C37_bounds`, `C37_translate`, `C37_translate_back`, `C37_centre`, `C37_centre_empty_refuted` | PropertiesPattern.v |
| C38 | Colour count is complete after fixing | proved | `C38_fix_color_count`, `C38_sections_determined` | PropertiesPattern.v |
| C39 | Matrix algebra | proved | `C39_product_is_composition`, `C39_product_affine`, `C39_associative_identity`, `C39_inverse`, `C39_elementary`, `C39_post_operations`, `C39_pre_operations`, `C39_centre_fixed`, `C39_needle_fixed` | PropertiesReal.v |
| C40 | Transform settings apply in the documented order | partial | `C40_documented_order_refuted`, `C40_transform_settings_partial` | PropertiesReal.v |
| C41 | Nearest palette colour is a true minimum | proved | `C41_nearest_minimum` | PropertiesThread.v |
| C42 | Unique palette assignment | proved | `C42_unique_palette`, `C42_short_palette_refuted` | PropertiesThread.v |
| C43 | Non-repeating palette assignment | proved | `C43_nonrepeat_palette` | PropertiesThread.v |
| C44 | Thread colour text round trip | proved | `C44_hex_colour` | PropertiesThread.v |
| C45 | CSV/JSON command names round trip | proved | `C45_command_names`, `C45_other_values_refused`, `C45_thread_changes` | PropertiesCsv.v |
| C46 | CSV/JSON are lossless for every command | partial | `C46_json_loading_refuted`, `C46_csv_loading_refuted`, `C66_csv_round_trip`, `C67_json_round_trip` | PropertiesCsv.v |
| C47 | Compression round trip | partial | `C47_stored_round_trip`, `C47_short_data`, `C47_refuted` | PropertiesCompress.v |
| C48 | Decompression is total | proved | `C48_expand_terminates` | PropertiesCompress.v |
| C49 | Colour-file round trips (EDR, COL, INF) | proved | `C49_edr_round_trip`, `C49_col_round_trip`, `C49_inf_round_trip` | PropertiesColorFile.v |
| C50 | User settings override format defaults | proved | `C50_settings_override`, `C50_callers_settings_unchanged` | PropertiesSettings.v |
| C51 | JEF header describes the body | partial | `C51_jef_header_partial`, `C51_jef_leading_color_change_refuted` | PropertiesFormats.v |
| C52 | Inserting relative stitches | proved | `C52_insert_relative`, `C52_insert_at_end`, `C52_out_of_range`, `C52_insert_empty_refuted` | PropertiesPattern.v |
| C53 | JEF keeps stops as stops | partial | `C53_jef_stops_refuted`, `C53_jef_stops_partial` | PropertiesFormats.v |
| C54 | Repeated threads keep their palette entry | partial | `C54_equal_threads_refuted`, `C54_equal_threads_partial` | PropertiesThread.v |
| C55 | Encoding and writing with a format's own defaults keeps the sewing | partial | `C55_dst_speed_refuted`, `C55_xxx_long_stitch_refuted`, `C55_jef_leading_changes_refuted`, `C55_tbf_jump_refuted`, `C20_dst`, `C20_exp`, `C20_pec`, `C20_jef` | PropertiesPipeline.v |
| C56 | Stitch blocks and colour blocks agree on threads | partial | `C56_block_threads_refuted`, `C56_block_threads_partial` | PropertiesPattern.v |
| C57 | The trim-interpolated copy only merges jumps | proved | `C57_interpolate_trim_copy` | PropertiesPattern.v |
| C58 | Merging jumps leaves a break for every run of jumps | partial | `C58_merge_jumps_partial`, `C58_merge_jumps_refuted` | PropertiesPattern.v |
| C59 | Joining patterns keeps colours | proved | `C59_joined_colours` | PropertiesHeap.v |
| C60 | Any pattern can be added to any pattern | partial | `C60_add_pattern_partial`, `C60_add_to_empty_refuted`, `C60_add_to_unsewn_refuted` | PropertiesHeap.v |
| C61 | A vertical scale given to add_pattern takes effect | partial | `C61_vertical_scale_refuted`, `C61_vertical_scale_partial` | PropertiesHeap.v |
| C62 | Translating moves every stitch once | partial | `C62_translate_once_partial`, `C62_translate_doubled_refuted` | PropertiesHeap.v |
| C63 | Writing with encoding switched off leaves the pattern unchanged | partial | `C63_complete_threads_partial`, `C63_png_moves_source_refuted`, `C63_threads_added_refuted` | PropertiesHeap.v |
| C64 | VP3 threads survive | partial | `C64_vp3_threads_partial`, `C64_non_ascii_refuted` | PropertiesVp3.v |
| C65 | INF keeps colours whatever the thread texts | partial | `C65_inf_non_ascii_refuted`, `C49_inf_round_trip` | PropertiesColorFile.v |
| C66 | CSV files load back what was saved | proved | `C66_csv_round_trip` | PropertiesCsv.v |
| C67 | JSON files load back what was saved | proved | `C67_json_round_trip` | PropertiesCsv.v |
| C68 | CSV keeps every text | partial | `C68_csv_text_refuted`, `C66_csv_round_trip` | PropertiesCsv.v |
| C69 | Back references repeat earlier output | proved | `C69_back_reference` | PropertiesCompress.v |
| C70 | Prefix codes are decoded canonically | proved | `C70_canonical_codes` | PropertiesCompress.v |
| C71 | PEC files give back stitches, stops, colours and label | proved | `C71_pec_file` | PropertiesPes.v |
| C72 | PES version 1 files give back stitches, stops, colours and label | proved | `C72_pes_version_1` | PropertiesPes.v |
| C73 | PES version 6 files give back threads and metadata | proved | `C73_pes_version_6` | PropertiesPes.v |
| C74 | Preview pictures show exactly the stitches | proved | `C74_pictures`, `C74_pictures_read` | PropertiesPes.v |
| C75 | PEC and PES version 1 files keep names and thread sections | partial | `C71_pec_file`, `C75_name_refuted`, `C75_non_ascii_refuted`, `C75_same_colour_refuted`, `C75_no_thread_refuted` | PropertiesPes.v |
| C76 | Whole DST file: stitches, trims and header round trip | proved | `C76_dst_file` | PropertiesDstFile.v |
| C77 | DST extended header keeps the threads | proved | `C77_extended_threads` | PropertiesDstFile.v |
| C78 | A DST file keeps the pattern whatever its texts and threads | partial | `C78_long_name_refuted`, `C78_many_threads_refuted`, `C78_comma_refuted`, `C78_no_description_refuted`, `C78_line_end_refuted`, `C78_empty_refuted`, `C76_dst_file`, `C77_extended_threads` | PropertiesDstFile.v |
| C79 | Reading any bytes as DST ends, and fails only on a malformed thread line | proved | `C79_dst_read_any`, `C79_interpolate_trims_total` | PropertiesDstFile.v |
| C80 | A DST file keeps the trims and jumps of every pattern | partial | `C80_trim_after_jump_refuted`, `C80_jumps_gain_trim_refuted`, `C80_other_count_refuted`, `C80_round_trip_jumps_refuted`, `C76_dst_file` | PropertiesDstFile.v |
| C81 | Readers of fixed-size record formats decode exactly what the records store | proved | `C81_100`, `C81_10o`, `C81_dsb`, `C81_dsz`, `C81_fxy`, `C81_gt`, `C81_inb`, `C81_ksm`, `C81_mit`, `C81_new`, `C81_stc`, `C81_zxy`, `C81_spx`, `C81_zhs` | PropertiesRecord.v |
| C82 | Readers of escape-coded formats and of formats with offsets decode exactly what is stored | proved | `C82_bro`, `C82_emd`, `C82_jpx`, `C82_sew`, `C82_stx`, `C82_barudan`, `C82_sunstar` | PropertiesRecord.v |
| C83 | A cut or arbitrary file of a record format is read as far as it goes | proved | `C83_cut` | PropertiesRecord.v |
| C84 | Which files make the readers of BRO, JPX, SEW, SPX, STX and ZXY fail | proved | `C84_spx`, `C84_jpx`, `C84_zxy`, `C84_stx`, `C84_sew`, `C84_bro` | PropertiesRecord.v |
| C85 | A pattern that was read has END as its last command and nowhere else | partial | `C85_one_end`, `C85_spx_refuted`, `C85_mit_refuted` | PropertiesRecord.v |
| C86 | DAT files with needle changes, and DAT files with any header, are read | partial | `C86_needle_refuted`, `C86_needle_always`, `C86_header_refuted`, `C82_barudan`, `C82_sunstar` | PropertiesRecord.v |
| C87 | Files of PCD, PCM, PCQ, PCS and MAX are decoded exactly | proved | `C87_pcd`, `C87_pcm`, `C87_max`, `C87_units` | PropertiesBlock.v |
| C88 | An SHV file is decoded exactly, colour by colour | proved | `C88_shv` | PropertiesBlock.v |
| C89 | A HUS file is decoded exactly | proved | `C89_hus`, `C89_hus_stored` | PropertiesBlock.v |
| C90 | Which files make the readers of PCD, PCM, MAX and SHV fail | proved | `C90_pcd`, `C90_pcm`, `C90_max`, `C90_shv` | PropertiesBlock.v |
| C91 | A cut file of PCD, PCM, PCQ, PCS, MAX or SHV is read as far as it goes | partial | `C91_pcd`, `C91_pcm`, `C91_max_refuted`, `C91_shv_refuted` | PropertiesBlock.v |
| C92 | A short run of stitches written to PMV is read back within an eighth of a millimetre | proved | `C92_pmv_round_trip` | PropertiesPmv.v |
| C93 | A PMV file written by the library can be read by it | partial | `C93_refuted`, `C93_invented_refuted`, `C92_pmv_round_trip` | PropertiesPmv.v |
| C94 | Reading any PMV file ends with stitches or a TypeError | proved | `C94_pmv_any` | PropertiesPmv.v |
| C95 | PHB and PHC files are read as the design they store | proved | `C95_phb_design`, `C95_phc_design` | PropertiesPhb.v |
| C96 | What the PHB and PHC readers do with an arbitrary file | proved | `C96_phb_any`, `C96_phc_any`, `C96_phc_cut`, `C96_phb_cut` | PropertiesPhb.v |
| C97 | A pattern written as G-code reads back with its stitches and colours | proved | `C97_gcode_round_trip` | PropertiesGcode.v |
| C98 | A G-code program is read as it is meant | proved | `C98_gcode_program` | PropertiesGcode.v |
| C99 | Writing G-code keeps every stitch, whatever the texts and other commands of the pattern | partial | `C99_refuted`, `C99_injected_refuted`, `C99_truncated`, `C97_gcode_round_trip` | PropertiesGcode.v |
| C100 | G-code written in other common styles is understood | partial | `C100_refuted`, `C98_gcode_program` | PropertiesGcode.v |
| C101 | What the G-code reader does with an arbitrary file | proved | `C101_gcode_any`, `C101_gcode_cut` | PropertiesGcode.v |
| C102 | The generic writer writes each command once, with positions that do not drift | proved | `C102_generic_segments`, `C102_generic_known` | PropertiesGeneric.v |
| C103 | The generic writer closes what it opens | partial | `C103_refuted`, `C103_generic_nested_partial` | PropertiesGeneric.v |
| C104 | The generic writer's join templates stand only between two items | partial | `C104_refuted`, `C104_generic_joins` | PropertiesGeneric.v |
| C105 | A TXT file has one line per command | proved | `C105_txt_lines`, `C105_txt_mimic_lines`, `C105_txt_known` | PropertiesTextOut.v |
| C106 | A TXT file names the colour each command is sewn with | partial | `C106_refuted`, `C105_txt_lines` | PropertiesTextOut.v |
| C107 | An SVG file draws each run of stitches once, in its colour | proved | `C107_svg_paths` | PropertiesTextOut.v |
| C108 | The dots drawn for a thread are a straight line without gaps | proved | `C108_line` | PropertiesPng.v |
| C109 | A PNG picture shows the last thread over every dot and the background elsewhere | proved | `C109_picture` | PropertiesPng.v |
| C110 | Every non-empty design can be drawn and every byte is a byte | proved | `C110_total`, `C110_empty` | PropertiesPng.v |
| C111 | The PNG file contains exactly the picture | proved | `C111_file` | PropertiesPng.v |
| C112 | Shading runs along every thread | partial | `C112_shading_refuted`, `C112_shading_partial` | PropertiesPng.v |
| C113 | Ink stays near the thread | partial | `C113_wide_pen_refuted`, `C109_picture` | PropertiesPng.v |
| C114 | Guides can be drawn on every design | partial | `C114_guides_refuted`, `C114_flat_refuted`, `C114_guides_partial` | PropertiesPng.v |
| C115 | Encoding a pattern raises no exception | proved | `C115_encode_total`, `C115_conditions_needed` | PropertiesFidelity.v |
| C116 | Saving as DST and loading keeps the stitches | proved | `C116_dst`, `C116_default_settings` | PropertiesFidelity.v |
| C117 | Saving as EXP, JEF and PEC and loading keeps the stitches | proved | `C117_exp`, `C117_jef`, `C117_pec`, `C116_default_settings` | PropertiesFidelity.v |
| C118 | A TBF file holds the name, the threads, the needles and the stitches, and its header describes them | proved | `C118_tbf_file`, `C118_empty_refused` | PropertiesWhole.v |
| C119 | A U01 file holds the stitches, and its header describes them | proved | `C119_u01_file`, `C119_u01_empty` | PropertiesWhole.v |
| C120 | An XXX file holds the stitches and the threads, and its header describes them | proved | `C120_xxx_file`, `C120_empty_refused` | PropertiesWhole.v |
| C121 | The name of a design does not disturb the rest of its TBF file | partial | `C121_any_name_refuted`, `C118_tbf_file` | PropertiesWhole.v |
| C122 | Encoding for machines that change threads by needle names only needles that exist | proved | `C122_needles` | PropertiesMachines.v |
| C123 | A design saved as TBF and loaded again has its stitches, its threads and its needles | proved | `C123_tbf`, `C123_default_settings` | PropertiesMachines.v |
| C124 | A design without speed commands saved as U01 and loaded again has its stitches and its needles | proved | `C124_u01`, `C123_default_settings` | PropertiesMachines.v |
| C125 | A design saved as XXX with lengths of at most 123 and loaded again has its stitches and its colours | proved | `C125_xxx` | PropertiesMachines.v |
| C126 | U01 files keep the stitches of designs with speed commands | partial | `C126_u01_speeds_refuted`, `C124_u01` | PropertiesMachines.v |
| C127 | Every way of writing a colour as text gives that colour | proved | `C127_color_text`, `C127_other_names` | PropertiesValues.v |
| C128 | A thread given as a dict takes its attributes from the documented keys | proved | `C128_dict`, `C128_order` | PropertiesValues.v |
| C129 | A text given as a colour gives a colour of 24 bits or is refused | partial | `C129_color_text_refuted`, `C129_any_text_partial` | PropertiesValues.v |
| C130 | Every documented form of a list of points adds the stitches it means | proved | `C130_points` | PropertiesValues.v |
| C131 | pattern += value gives back the pattern and adds all of the value or nothing | partial | `C131_iadd_refuted`, `C131_only_adds_partial`, `C131_add_color` | PropertiesValues.v |
| C132 | Equality of threads is an equivalence that agrees with the hash | partial | `C132_equality`, `C132_mixed_refuted` | PropertiesValues.v |
| C133 | A design put together with add_block has those colour blocks | proved | `C133_blocks` | PropertiesValues.v |
| C134 | The stable form of a pattern keeps stitches and threads | proved | `C134_stable` | PropertiesValues.v |
| C135 | The stable form of a stable pattern is the same | partial | `C135_stable_again_refuted`, `C134_stable` | PropertiesValues.v |
| C136 | The extension of a file name decides the format | proved | `C136_read_by_name`, `C136_write_by_name`, `C136_other_names`, `C136_one_format`, `C136_own_modules` | PropertiesFiles.v |
| C137 | Every extension a format lists is recognised | partial | `C137_listed_extensions_refuted`, `C137_listed_extensions_partial` | PropertiesFiles.v |
| C138 | A save touches only the file it is given | proved | `C138_save_touches_one_file` | PropertiesFiles.v |
| C139 | A save that fails does not destroy the file it was to replace | partial | `C139_failed_save_refuted`, `C139_failed_save_partial` | PropertiesFiles.v |
| C140 | A conversion writes what was read | proved | `C140_convert`, `C140_convert_fails` | PropertiesFiles.v |
| C141 | What is saved under a name is what is read under that name | proved | `C141_saved_and_read`, `C141_dst_by_name` | PropertiesFiles.v |
| C142 | The version asked for is the version of the PES file | proved | `C142_version` | PropertiesFiles.v |
| C143 | Opening a file gives its content or raises | partial | `C143_open_refuted`, `C143_open_partial` | PropertiesFiles.v |
| C144 | Every PES file written without an exception can be read | partial | `C144_pes_readable_refuted`, `C144_pes_readable_partial` | PropertiesFiles.v |
| C145 | A conversion that writes nothing raises | partial | `C145_silent_refuted`, `C145_silent_partial` | PropertiesFiles.v |
| C146 | Encoding sews every stitch with the thread the design gives it | proved | `C146_threads_kept` | PropertiesColor.v |
| C147 | Blocks keep their threads when encoded | proved | `C147_blocks` | PropertiesColor.v |
| C148 | A design of colour blocks keeps its blocks and colours in a PES or PEC file | proved | `C148_pes_version_6`, `C148_pes_version_1`, `C148_pec`, `C148_default_settings` | PropertiesBlockFiles.v |
| C149 | A design of colour blocks keeps its blocks in DST, EXP and JEF files | proved | `C149_dst`, `C149_exp`, `C149_jef`, `C149_jef_neighbours`, `C148_default_settings` | PropertiesBlockFiles.v |
| C150 | The colours of a design of blocks in a JEF file | proved | `C150_jef_colours` | PropertiesJefColors.v |
| C151 | Neighbouring blocks of one thread have one colour in a JEF file | partial | `C151_same_thread_refuted`, `C151_same_thread_partial` | PropertiesJefColors.v |
| C152 | Converting a loaded file keeps every stitch in its colour section | proved | `C152_dst`, `C152_exp`, `C152_jef`, `C152_pec`, `C152_pes_version_6`, `C152_default_settings` | PropertiesConvert.v |
| C153 | Readers deliver closed designs of few commands | proved | `C153_exp`, `C153_pec`, `C153_dst`, `C153_jef` | PropertiesConvert.v |
| C154 | Any number of conversions keeps every stitch | proved | `C154_conversions` | PropertiesConvert.v |
| C155 | Encoding makes no sequins of its own | proved | `C155_no_sequins` | PropertiesConvert.v |
| C156 | An offset counts from the last command | partial | `C156_offset_partial`, `C156_offset_refuted` | PropertiesDraw.v |
| C157 | Thread lists without repetition | proved | `C157_singleton`, `C157_unique` | PropertiesDraw.v |
| C158 | Commands by kind and by number | proved | `C158_match`, `C158_numbered` | PropertiesDraw.v |
| C159 | A VP3 file keeps each colour section in shape, and within one unit in place | proved | `C159_vp3_sections` | PropertiesVp3Any.v |
| C160 | Encoding stays in the area of the design | proved | `C160_stays_in_frame` | PropertiesFrame.v |
| C161 | The needle goes down only in the area of the design | partial | `C161_pierces_in_frame_partial`, `C161_pierces_in_frame_refuted` | PropertiesFrame.v |
| C162 | Saving a loaded EXP file again writes the same file | proved | `C162_exp_plain`, `C162_exp_resaved`, `C162_encoded_again` | PropertiesResave.v |
| C163 | Loading and saving again never changes a file | partial | `C163_leading_changes_lost_refuted`, `C162_exp_plain` | PropertiesResave.v |
| C164 | Rounding differences never accumulate, on floats | proved | `C164_no_drift` | PropertiesFloat.v |
| C165 | A command at an unchanged position is written without displacement, on floats | partial | `C165_no_displacement_refuted`, `C165_no_displacement_on_grid` | PropertiesFloat.v |
| C166 | Encoding and writing on floats never leave the format's range | proved | `C166_encodes`, `C166_steps_fit`, `C166_dst`, `C166_exp`, `C166_pec`, `C166_jef`, `C166_direction` | PropertiesFloatPipeline.v |
| C167 | Stitches with float coordinates come back within half a unit | proved | `C167_exp`, `C167_dst`, `C167_jef`, `C167_pec`, `C167_put_plain` | PropertiesFloatPipeline.v |
| C168 | A ZHS file gives back its design and the texts of its threads | proved | `C168_zhs` | PropertiesZhs.v |
| C169 | Any bytes read as ZHS give a pattern, or fail for one of two reasons | proved | `C169_type_error`, `C169_any` | PropertiesZhs.v |
| C170 | Metadata given again in a CSV file replaces what was given before | proved | `C170_last_value` | PropertiesCsvMeta.v |
| C171 | Equal threads are saved the same | partial | `C171_encoded`, `C171_written`, `C171_txt_refuted`, `C171_txt` | PropertiesEqual.v |
| C172 | What is sewn does not depend on the threads | proved | `C172_stitches`, `C172_recolour` | PropertiesEqual.v |
| C173 | The design part of a PES file shows every stitch in its colour | partial | `C173_refuted`, `C173_design`, `C173_version_6_exact` | PropertiesSeg.v |
| C174 | Any history of calls on a matrix does what the calls say | proved | `C174_history`, `C174_fails`, `C174_product` | PropertiesMatrixOps.v |
| C175 | Matrices can be compared, printed and multiplied in place | partial | `C175_equal_refuted`, `C175_print_refuted`, `C175_in_place_refuted`, `C175_equal`, `C175_print` | PropertiesMatrixOps.v |
| C176 | Loading and saving PEC stitches settles | proved | `C176_pec_stable`, `C176_pec_same`, `C176_loaded`, `C176_third`, `C176_resaved`, `C176_encoded` | PropertiesPecAgain.v |
| C177 | Loading a PEC file and saving it again never changes its stitches | partial | `C177_pec_resaved_refuted`, `C176_pec_same`, `C176_pec_stable` | PropertiesPecAgain.v |
| C178 | The lengths, extents and counts in a VP3 file are right | proved | `C178_vp3_document` | PropertiesVp3File.v |
| C179 | The number of colours in a VP3 header is the number of colour blocks | partial | `C179_vp3_colours_partial`, `C179_vp3_colours_refuted` | PropertiesVp3File.v |
| C180 | A loaded DST file survives being saved | proved | `C180_dst_loaded_again` | PropertiesDstAgain.v |
| C181 | Saving a loaded DST file reaches a fixed point at once | proved | `C181_dst_same_file` | PropertiesDstAgain.v |
| C182 | Loading and saving DST files never changes the design | partial | `C182_dst_resave_refuted`, `C180_dst_loaded_again`, `C181_dst_same_file` | PropertiesDstAgain.v |
| C183 | Fractional designs survive VP3 files to within a unit | proved | `C183_vp3_fractions`, `C183_whole_coordinates` | PropertiesVp3Q.v |
| C184 | Whole way through a VP3 file | proved | `C184_vp3_pipeline`, `C184_default_settings` | PropertiesVp3Q.v |
| C185 | Speed commands do not move stitches in VP3 files | partial | `C185_speed_refuted`, `C185_speed_in_place_partial` | PropertiesVp3Q.v |
| C186 | No stitch of a VP3 file is far off | partial | `C186_far_off_refuted`, `C183_vp3_fractions` | PropertiesVp3Q.v |
| C187 | Saving a loaded VP3 file again and again keeps it | partial | `C187_wanders_refuted`, `C18_vp3_write_read_partial`, `C159_vp3_sections` | PropertiesVp3.v, PropertiesVp3Any.v, PropertiesVp3Q.v |
| C188 | Which files make the readers of JEF, PEC, PES, TBF, VP3 and XXX fail | proved | `C188_jef`, `C188_pec`, `C188_pes`, `C188_pes_cut_table`, `C188_tbf`, `C188_xxx`, `C188_xxx_cut`, `C188_vp3` | PropertiesReadable.v |
| C189 | Transformation commands in a design move exactly the commands after them | proved | `C189_matrix_commands` | PropertiesPlacement.v |
| C190 | Where an added pattern is sewn | proved | `C190_added_pattern_placed` | PropertiesPlacement.v |
| C191 | An appended translation moves what follows by the given amount | partial | `C191_append_translation_refuted`, `C191_append_translation_partial`, `C191_append_translation_at_origin_partial` | PropertiesPlacement.v |
| C192 | A preview picture printed as text shows its pixels | proved | `C192_picture_text`, `C192_whole`, `C192_no_stride` | PropertiesGraphic.v |
| C193 | The last stroke on a pixel decides it | proved | `C193_strokes` | PropertiesGraphic.v |
| C194 | Preview pictures survive CSV files as text | proved | `C194_csv_pictures` | PropertiesGraphic.v |
| C195 | A loaded PEC file can be saved as CSV | partial | `C195_saving_values`, `C195_csv_from_pec_refuted` | PropertiesGraphic.v |
| C196 | Encoding a design again changes nothing | proved | `C196_encoding_again_changes_nothing` | PropertiesEncodeAgain.v |
| C197 | Encoding a design again never changes anything, whatever it holds | partial | `C197_encoding_again_refuted` | PropertiesEncodeAgain.v |
| C198 | Encoding a pattern onto itself leaves exactly its encoding | proved | `C198_encode_onto_itself`, `C198_succeeds` | PropertiesSelf.v |
| C199 | Colour sections with the same palette number are sewn with the same thread | proved | `C199_section_threads` | PropertiesTabled.v |
| C200 | The lengths in an INF file lead to every thread | proved | `C200_inf_lengths` | PropertiesQuote.v |
| C201 | A CSV file reads the same however its fields are quoted | proved | `C201_same_table` | PropertiesQuote.v |
| C202 | Compressed HUS data expands to what the format says | proved | `C202_compressed_streams`, `C202_one_meaning` | PropertiesExpand.v |
| C203 | Saving a JEF file over and over settles at the second save | proved | `C203_jef_saved_again`, `C203_jef_settles`, `C203_jef_settled`, `C203_jef_defaults`, `C203_two_saves_needed` | PropertiesJefAgain.v |
| C204 | Where trims appear in a loaded JEF file | proved | `C204_jef_trims`, `C204_one_list` | PropertiesJefTrims.v |
| C205 | VP3, PEC and INF files can be written and read anywhere in a stream | proved | `C205_vp3_anywhere`, `C205_pec_anywhere`, `C205_inf_anywhere`, `C205_vp3_read`, `C205_pec_read`, `C205_two_designs` | PropertiesOut.v |
| C206 | DST, U01 and JEF files can be written and read anywhere in a stream | partial | `C206_dst_refuted`, `C206_u01_refuted`, `C206_jef_refuted`, `C206_dst_at`, `C206_dst_alone`, `C206_jef_alone` | PropertiesOut.v |
| C207 | Equal patterns stay equal under the same calls | partial | `C207_equality`, `C207_same_calls_partial`, `C207_same_calls_refuted` | PropertiesEqualCalls.v |
| C208 | Saving a loaded CSV file reaches a fixed point at once | partial | `C208_csv_settles`, `C208_quote_refuted` | PropertiesCsvAgain.v |
| C209 | Saving a loaded XXX file settles at the first save | proved | `C209_xxx_saved_again`, `C209_xxx_settles`, `C209_xxx_defaults`, `C209_long_stitch_lost` | PropertiesXxxAgain.v |
| C210 | A pattern saved as JSON comes back from the text of the file | proved | `C210_json_file_round_trip`, `C210_json_ascii`, `C210_pair_merged` | PropertiesJsonText.v |
| C211 | A JSON file that was cut short is refused | proved | `C211_truncated_refused`, `C211_trailing_blanks`, `C211_trailing_text_refused` | PropertiesJsonText.v |
| C212 | Loading a JSON file and saving it settles at the first save | proved | `C212_json_settles`, `C212_json_saved`, `C212_no_command_refuted` | PropertiesJsonAgain.v |
| C213 | JSON files load the same with any line ends | proved | `C213_line_ends`, `C213_windows` | PropertiesJsonLines.v |
| C214 | The generic writer's statistics are true of the pattern | proved | `C214_statistics`, `C214_words` | PropertiesGenericText.v |
| C215 | Metadata does not falsify the generic writer's own values | proved | `C215_metadata_harmless` | PropertiesGenericText.v |
| C216 | The generic writer lists all metadata and threads | proved | `C216_entries` | PropertiesGenericText.v |
| C217 | A colour's template shows that colour's thread | partial | `C217_last_thread_partial`, `C217_refuted` | PropertiesGenericText.v |
| C218 | Colour files can be converted into each other any number of times | proved | `C218_conversions`, `C218_no_texts`, `C218_settles` | PropertiesColorChain.v |
| C219 | The generic writer writes one line for each command, with that command's values | proved | `C219_lines` | PropertiesGenericLines.v |
| C220 | Reading and assigning stitches by index and metadata by name | proved | `C220_assigned` | PropertiesItems.v |
| C221 | Slices of a pattern | proved | `C221_read`, `C221_cut`, `C221_write` | PropertiesItems.v |
| C222 | Iterating over a pattern gives its stitches | proved | `C222_iteration` | PropertiesItems.v |
| C223 | The printed form of a pattern tells its size | proved | `C223_printed` | PropertiesItems.v |
| C224 | Patterns can be copied with the copy module | partial | `C224_refuted`, `C224_copy_partial`, `C31_copy_equal` | PropertiesDeepCopy.v, PropertiesHeap.v |
| C225 | Templates chosen from a table follow the command being written | partial | `C225_refuted`, `C225_chosen_partial`, `C225_without_tables` | PropertiesGenericTables.v |
| C226 | HUS and SHV files load with the colours of their palettes | proved | `C226_hus`, `C226_hus_distinct`, `C226_shv`, `C226_shv_distinct` | PropertiesPalette.v |
| C227 | Reading further files into a pattern adds their designs | partial | `C227_appended_partial`, `C227_only_first_sewn`, `C227_refuted` | PropertiesReadInto.v |
| C228 | Centring a design gives the same result wherever it stood | partial | `C228_again`, `C228_same_partial`, `C228_refuted` | PropertiesCentre.v |
| C229 | Encoding keeps every cut, stop, colour change and speed in its place between the stitches | proved | `C229_work`, `C229_stops_and_speeds` | PropertiesWork.v |
| C230 | A design saved as EXP loads with its cuts and colour changes between the same stitches | proved | `C230_exp` | PropertiesWorkFile.v |
| C231 | A design saved as DST or JEF loads with its thread changes between the same stitches | proved | `C231_dst`, `C231_jef` | PropertiesWorkFiles.v |
| C232 | A design saved as U01 loads with its cuts, needle changes and stops between the same stitches | proved | `C232_u01` | PropertiesWorkU01.v |
| C233 | A design saved as XXX loads with its cuts and colour changes between the same stitches | proved | `C233_xxx` | PropertiesWorkXxx.v |
| C234 | A design saved as TBF loads with its cuts, needle changes and stops between the same stitches | partial | `C234_tbf_partial`, `C234_refuted` | PropertiesWorkTbf.v |
| C235 | A design saved as PEC or PES loads with its colour changes and stops between the same stitches | proved | `C235_pec`, `C235_pes` | PropertiesWorkPec.v |
| C236 | A design saved as VP3 loads with its cuts and colour changes between the same stitches | proved | `C236_vp3` | PropertiesWorkVp3.v |
| C237 | A design saved as G-code and loaded comes back unflipped, stitch by stitch, with its colour changes | proved | `C237_gcode`, `C237_default_settings` | PropertiesWorkGcode.v |
| C238 | G-code files keep the thread of every stitch | partial | `C238_gcode_colours_partial`, `C238_refuted` | PropertiesColorGcode.v |
| C239 | Saving a loaded G-code file again keeps it exactly | partial | `C239_again_partial`, `C239_refuted` | PropertiesGcodeAgain.v |
| C240 | A design without stops saved as EXP, DST or XXX keeps the thread of every stitch | proved | `C240_exp`, `C240_dst`, `C240_xxx`, `C240_stop_shifts_threads` | PropertiesColorFiles.v |
| C241 | A design saved as U01 or TBF keeps the needle of every stitch | proved | `C241_u01`, `C241_tbf` | PropertiesNeedleFiles.v |
| C242 | Needles are used in turn when the design names none | proved | `C242_needles_in_turn`, `C242_u01`, `C242_tbf`, `C242_256_threads_refuted` | PropertiesNeedleOrder.v |
| C243 | Every stitch of a U01 or TBF file is sewn by the needle of its thread | proved | `C243_u01`, `C243_tbf` | PropertiesNeedleStitch.v |
| C244 | A design with no more threads than the machine has needles gets a needle for each thread | partial | `C244_tbf`, `C244_u01_partial`, `C244_u01_refuted` | PropertiesNeedleOwn.v |
| C245 | PEC and PES files keep the thread of every stitch | proved | `C245_pec`, `C245_pes` | PropertiesColorPec.v |
| C246 | JEF files keep the thread of every stitch | proved | `C246_jef` | PropertiesColorJef.v |

## Trusted base

* Coq's kernel (checked again with `coqchk`).
* `Print Assumptions`: every theorem named in `MANIFEST.json` is closed under the global
  context, except all of `PropertiesFloat.v` and `PropertiesFloatPipeline.v` (C164-C167),
  all of `PropertiesMatrixOps.v` (C174, C175), all of `PropertiesPlacement.v` (C189-C191),
  `C196_encoding_again_changes_nothing` and
  these of `PropertiesReal.v`, which use the reals of the standard library:
  `C29_tie_on`, `C29_tie_off`, `C29_locks_read`, `C39_product_is_composition`,
  `C39_product_affine`, `C39_associative_identity`, `C39_inverse`, `C39_elementary`,
  `C39_post_operations`, `C39_pre_operations`, `C39_centre_fixed`, `C39_needle_fixed`,
  `C40_documented_order_refuted`, `C40_transform_settings_partial`.  Their axioms are
  `ClassicalDedekindReals.sig_not_dec`, `ClassicalDedekindReals.sig_forall_dec`,
  `FunctionalExtensionality.functional_extensionality_dep` and (except for
  `C29_locks_read`) `Classical_Prop.classic`.
* The reading of the Python text and of Python's semantics described above.  In particular
  floating point rounding where a theorem is about exact rationals or reals, that no
  float operation overflows (C164-C167, C196), Python's
  built-in text functions as in `TextModel.v`, `json`, `zlib` and `struct` as stated in the
  comments of `JsonModel.v`, `PngModel.v` and `PesModel.v`.

## What is modelled

| Python | model |
|---|---|
| EmbConstant, EmbFunctions | EmbConst, FunctionsModel, NameModel |
| EmbThread (colours, distance, palette search, conversion), EmbThreadPec, EmbThreadSew, EmbThreadJef | ThreadModel, PecFileModel, RecordModel, JefThreads |
| EmbMatrix | MatrixModel, MatrixOpsModel |
| EmbPattern: construction, queries, editing, blocks, colour counting, interpolation, copying, adding, reading and writing settings | PatternModel, HeapModel, PlacementModel, SettingsModel |
| EmbPattern: drawing calls with offsets and positions, insertion, thread lists without repetition, commands by kind and number | DrawModel |
| EmbPattern: `+=`, `add_block`; EmbThread.set, colour names | ValueModel |
| EmbPattern: reading, writing and converting files by name; table of formats; PesWriter's version settings | FilesModel |
| EmbEncoder (Transcoder) | EncoderModel |
| EmbCompress | CompressModel |
| ReadHelper, WriteHelper | HelperModel, StreamModel, Utf8Model |
| DST | DstModel, DstFileModel |
| EXP, JEF | ExpModel, JefModel, JefFileModel (the reader with the trim interpolation), JefWriteModel (the writer with palette and sizes) |
| PEC, PES, PecGraphics | PecModel, PecFileModel, PesModel, GraphicModel |
| VP3 | Vp3Model, Vp3QModel (on rationals; the same on integers, C183_whole_coordinates) |
| VP3, PEC, INF, DST, U01 on an open stream, with write, tell and seek | OutModel |
| Comparing patterns (`__eq__`, `__ne__`, without metadata) | PatternEqModel |
| Loading a CSV file and saving it as CSV | CsvAgainModel |
| U01, TBF, XXX | U01Model, TbfModel, XxxModel, WholeModel |
| The text of JSON files (json.dump with indent, json.load); loading and saving again | JsonTextModel, JsonAgainModel |
| CSV, JSON, EDR, COL, INF | CsvModel, JsonModel, ColorFileModel, TextModel |
| G-code, generic writer, TXT, SVG, PNG | GcodeModel, GenericModel, GenericTextModel, GenericTableModel, TextOutModel, PngModel |
| Further files read into a pattern (EXP, U01) | ReadIntoModel |
| Patterns as sequences, printed, copied by the copy module | ItemModel, DeepCopyModel |
| PMV, PHB, PHC | PmvModel, PhbModel |
| PCD, PCM, PCQ, PCS, MAX, SHV, HUS | BlockModel, PaletteModel |
| 100, 10O, BRO, DAT, DSB, DSZ, EMD, EXY, FXY, GT, INB, JPX, KSM, MIT, NEW, SEW, SPX, STC, STX, TAP, ZHS, ZXY | RecordModel |
| ZHS header, whole ZHS file | ZhsModel |

## What is not modelled

* The file system beyond a map from names to contents (two names for one file, concurrent changes,
  full disks); binary streams given in place of names, except for C205 and C206; the wrappers of PyEmbroidery.py, which only pass
  their arguments on; ArtReader.py is commented out entirely.
* The JEF writer's date, TbfWriter's unused `write_ct0`, XxxWriter's unused header.
* In the text of JSON files: NaN and infinities, metadata with keys other than text, the limit of 4300 digits on ints.
* In templates of the generic writer: fields with a format, conversion, attribute or index.
* The compression of PNG data (left to `zlib`).
