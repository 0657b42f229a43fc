{"id": "C01", "title": "Thread-change packing round trip", "statement": "Packing a command with optional thread, needle and order numbers into one integer and unpacking it returns exactly the command and the three optional numbers that were given (None stays None), for every number 0..254.", "quantifier": "all command bytes 0..255 and all thread/needle/order in {None} + 0..254 (about 4.3e9 combinations)", "why_tests_cant": "the product space is far too large to enumerate and the fields share one integer, so an overflow in one field shows up as damage in another", "anchors": ["pyembroidery/EmbFunctions.py: encode_thread_change, decode_embroidery_command"]}
{"id": "C02", "title": "Thread-change packing never damages a neighbouring field", "statement": "For every integer thread, needle and order number, packing changes only the field it belongs to: the command byte and the other numbers unpack unchanged.", "quantifier": "all integers given as thread/needle/order (the packer accepts and masks any integer)", "why_tests_cant": "unbounded integers; the failing value is one residue class out of 256", "anchors": ["pyembroidery/EmbFunctions.py: encode_thread_change, decode_embroidery_command"]}
{"id": "C03", "title": "Fixed-width integer writers and readers agree", "statement": "For every integer v, writing it with the 8/16/24/32-bit little- or big-endian writer emits exactly 1/2/3/4 bytes, each in 0..255, and reading them back gives v modulo 2^n; the signed readers return the unique representative in the signed range; reading from a stream with too few bytes returns None instead of a number.", "quantifier": "all integers, all stream contents and positions", "why_tests_cant": "unbounded integers; sign and carry errors appear only at particular residues", "anchors": ["pyembroidery/WriteHelper.py", "pyembroidery/ReadHelper.py"]}
{"id": "C04", "title": "DST record round trip", "statement": "Every DST record for a stitch, jump, sequin eject or sequin mode with |dx|,|dy| <= 121 decodes to exactly the same dx, dy and the same kind of command, and the three bytes are in 0..255.", "quantifier": "all dx, dy in -121..121 and all record kinds", "why_tests_cant": "59,049 displacement pairs times the record kinds interact through single bits in three bytes", "anchors": ["pyembroidery/DstWriter.py: encode_record", "pyembroidery/DstReader.py: decode_dx, decode_dy, dst_read_stitches"]}
{"id": "C05", "title": "DST record encoder rejects exactly the unencodable moves", "statement": "The DST record encoder raises ValueError if and only if a displacement is outside -121..121 for a record that carries displacement; it never silently writes a different displacement.", "quantifier": "all integers dx, dy and all commands", "why_tests_cant": "unbounded integers; silent truncation would need a specific residue to be noticed", "anchors": ["pyembroidery/DstWriter.py: encode_record"]}
{"id": "C06", "title": "DST write-then-read preserves the design", "statement": "For every pattern of stitches, jumps (outside sequin mode), sequin ejects (inside sequin mode), colour changes, stops, sequin-mode toggles and END with integer coordinates, steps within 121 units and control commands at the needle position, the DST stitch data written reads back (trim interpolation off) as the same command sequence at the same absolute positions, stops appearing as colour changes, nothing after the first END.", "quantifier": "all finite patterns (any length, any coordinates with consecutive steps within +-121)", "why_tests_cant": "unbounded sequences; position drift accumulates over arbitrarily long files", "anchors": ["pyembroidery/DstWriter.py: write", "pyembroidery/DstReader.py: dst_read_stitches"]}
{"id": "C07", "title": "DST trims leave no displacement", "statement": "A TRIM is written as at least two (trim_at, if larger) DST jumps whose displacements sum to zero, so the needle is back at the trim position and every later stitch lands where it would without the trim, for every trim_at setting.", "quantifier": "all integers trim_at and all patterns with trims", "why_tests_cant": "the trim_at option is an unbounded integer; the alternating sign logic has parity cases", "anchors": ["pyembroidery/DstWriter.py: write"]}
{"id": "C08", "title": "Truncated DST data reads as a prefix", "statement": "Reading the stitch part of a DST file never raises, whatever the bytes; and cutting the data at any byte offset yields, before trim interpolation, a pattern whose commands, apart from the final END, are a prefix of the commands of the complete data.", "quantifier": "all byte strings and all crash (truncation) points", "why_tests_cant": "all byte strings of all lengths; every truncation point", "anchors": ["pyembroidery/DstReader.py: dst_read_stitches"]}
{"id": "C09", "title": "Truncated EXP, JEF, U01, TBF, PEC stitch data read as a prefix", "statement": "For each of these formats, reading the stitch stream never raises whatever the bytes, and truncating the stream at any byte gives a pattern whose commands other than the final END are a prefix of those for the complete stream.", "quantifier": "all byte strings and all truncation points", "why_tests_cant": "all byte strings of all lengths; multi-byte records can be cut in the middle", "anchors": ["pyembroidery/ExpReader.py: read_exp_stitches", "pyembroidery/JefReader.py: read_jef_stitches", "pyembroidery/U01Reader.py", "pyembroidery/TbfReader.py", "pyembroidery/PecReader.py: read_pec_stitches"]}
{"id": "C10", "title": "EXP write-then-read preserves the design", "statement": "For every pattern of stitches, jumps, trims, colour changes, stops and END with integer steps within +-127 and displacement-free control commands, writing EXP and reading it back gives the same commands at the same positions (stop appears as colour change).", "quantifier": "all finite patterns with steps in range", "why_tests_cant": "unbounded sequences; an escape byte 0x80 inside displacement data would desynchronise the rest of the file", "anchors": ["pyembroidery/ExpWriter.py: write", "pyembroidery/ExpReader.py: read_exp_stitches"]}
{"id": "C11", "title": "JEF write-then-read preserves the stitch sequence", "statement": "For every pattern of stitches, jumps, trims, stops, colour changes and a final END with integer steps within +-127, displacement-free control commands, not beginning with a colour change and with a thread for every colour section, the JEF file written reads back (before trim interpolation) with the same commands at the same positions and the palette colours written; a trim appears as the configured number of jumps without displacement (none by default), and only stops may change kind (C53).", "quantifier": "all finite patterns with steps in range, all thread lists and palette searches, all settings", "why_tests_cant": "unbounded sequences and escape-byte synchronisation", "anchors": ["pyembroidery/JefWriter.py: write", "pyembroidery/JefReader.py: read_jef_stitches"]}
{"id": "C12", "title": "PEC displacement coding round trip", "statement": "Every displacement in the 12-bit range (-2048..2047 per axis; the writer uses the short form for -63..62) written as stitch, jump or trim-jump decodes to the same displacement and kind whatever data follows, and no displacement encoding can be mistaken for the colour-change or end marker.", "quantifier": "all displacements in the 12-bit range and both markers", "why_tests_cant": "two variable-length encodings share one byte stream with two in-band markers", "anchors": ["pyembroidery/PecWriter.py: write_value, encode_long_form, flag_jump, flag_trim", "pyembroidery/PecReader.py: read_pec_stitches, signed7, signed12"]}
{"id": "C13", "title": "PEC write-then-read preserves stitches and colours", "statement": "For every pattern of stitches, jumps, colour changes, stops, trims and END with integer steps within +-2047 and displacement-free control commands, the PEC stitch block reads back with every stitch and colour change at the same position in the same order; the only additional penetrations repeat the needle position right after a jump or at the start; every jump is kept.", "quantifier": "all finite patterns with steps in range", "why_tests_cant": "unbounded sequences; the encoder is stateful (first jump, colour-block parity)", "anchors": ["pyembroidery/PecWriter.py: pec_encode", "pyembroidery/PecReader.py: read_pec_stitches"]}
{"id": "C14", "title": "U01 write-then-read preserves the design", "statement": "For every pattern with integer steps within +-255, displacement-free control commands, needle numbers 1..14 and at most one pending speed change before each movement (that movement not being of length zero), U01 data reads back as the same commands at the same positions, with the same needle numbers, speed changes appearing directly before the next movement.", "quantifier": "all finite patterns with steps in range", "why_tests_cant": "unbounded sequences; speed and needle state carries between records", "anchors": ["pyembroidery/U01Writer.py: write", "pyembroidery/U01Reader.py"]}
{"id": "C15", "title": "TBF write-then-read preserves the design", "statement": "For every pattern with integer steps within +-127, displacement-free control commands, jumps that move, at most 256 needle changes and needle numbers 1..255, TBF data and its needle table read back as the same commands at the same positions with the same needle numbers.", "quantifier": "all finite patterns with steps in range", "why_tests_cant": "unbounded sequences", "anchors": ["pyembroidery/TbfWriter.py: write", "pyembroidery/TbfReader.py"]}
{"id": "C16", "title": "XXX write-then-read preserves the design", "statement": "For every pattern whose steps are within the advertised XXX maximum stitch distance, stitches read back as stitches at the same positions.", "quantifier": "all finite patterns with steps in -124..124", "why_tests_cant": "the boundary value interacts with an escape code; unbounded sequences", "anchors": ["pyembroidery/XxxWriter.py: write", "pyembroidery/XxxReader.py: read"]}
{"id": "C17", "title": "VP3 colour-block stitch data round trip", "statement": "For every block of stitches and trims with 16-bit integer steps between penetrations (jumps, stops and sequin commands may be mixed in) the VP3 stitch bytes decode to displacements that lead through the same penetrations with the same trims, whatever mix of short and long forms is used.", "quantifier": "all finite blocks with steps in -32768..32767", "why_tests_cant": "unbounded sequences with variable-length records and an escape byte", "anchors": ["pyembroidery/Vp3Writer.py: write_stitches_block", "pyembroidery/Vp3Reader.py: vp3_read_colorblock"]}
{"id": "C18", "title": "VP3 colour-block start positions are restored", "statement": "Writing VP3 and reading it back puts every penetration of every colour block at the position it had in the written pattern.", "quantifier": "all patterns with integer coordinates and 16-bit steps", "why_tests_cant": "fails only for patterns with an odd width or height, or with a colour change on an axis", "anchors": ["pyembroidery/Vp3Writer.py: write_vp3_colorblock", "pyembroidery/Vp3Reader.py: vp3_read_colorblock"]}
{"id": "C19", "title": "Writer quantisation does not drift", "statement": "The formats' running-position quantisation keeps the written needle position within half a unit of the exact coordinate of every command, on both axes, no matter how many commands came before; commands placed at the previous position are written with displacement zero; integer coordinates are exact.", "quantifier": "all finite sequences of coordinates (exact rationals)", "why_tests_cant": "error accumulation over unbounded sequences", "anchors": ["pyembroidery/DstWriter.py: write", "pyembroidery/ExpWriter.py", "pyembroidery/JefWriter.py", "pyembroidery/PecWriter.py", "pyembroidery/U01Writer.py", "pyembroidery/TbfWriter.py", "pyembroidery/XxxWriter.py"]}
{"id": "C20", "title": "Encoded patterns always fit the DST/EXP/JEF/PEC step range", "statement": "For every source pattern, and every format limit M, with rounding on, both maximum lengths positive and at most M (as the formats' own defaults are, whatever other settings the caller gives) and long stitches split, each written displacement after encoding and quantisation is within -M..M. For DST, EXP, PEC and JEF the writer therefore never raises and never wraps, and reading the data back gives the commands of the encoded pattern at their rounded positions (as the format names them), provided the pattern has no speed commands (and, except for DST, sequins are not asked for; JEF: the encoded pattern sews and does not begin with a colour change).", "quantifier": "all source patterns, all rational coordinates, all settings, all integer M >= 1", "why_tests_cant": "the interpolated gap points are fractional and are rounded cumulatively by the writer; an excess of one unit needs a special fractional alignment", "anchors": ["pyembroidery/EmbEncoder.py: interpolate_gap_stitches, transcode_main", "pyembroidery/EmbPattern.py: write_embroidery", "pyembroidery/DstWriter.py: write"]}
{"id": "C21", "title": "Encoder gap filling respects the maximum length", "statement": "Splitting a move into steps never produces a step longer than the maximum on either axis, adds no step when the move already fits, keeps all intermediate points on the straight segment, and the remaining move to the target also fits.", "quantifier": "all start points, end points and positive maximum lengths", "why_tests_cant": "all rational coordinates; step counts are unbounded", "anchors": ["pyembroidery/EmbEncoder.py: interpolate_gap_stitches"]}
{"id": "C22", "title": "Encoded pattern ends with exactly one END", "statement": "Encoding any pattern with any settings produces a command list whose last command is END and that contains no other END, even when the source has none, several, or commands after END.", "quantifier": "all source patterns and settings", "why_tests_cant": "unbounded input sequences", "anchors": ["pyembroidery/EmbEncoder.py: transcode_main, end_here", "pyembroidery/EmbPattern.py: get_normalized_pattern"]}
{"id": "C23", "title": "Encoded pattern contains only core commands", "statement": "After encoding, every command is one of STITCH, JUMP, TRIM, STOP, END, COLOR_CHANGE, NEEDLE_SET, SEQUIN_MODE, SEQUIN_EJECT, SLOW or FAST: no middle-level command reaches a file writer; sequin commands appear only under the utilise contingency and speed commands only if enabled; thread changes are only of the kind requested.", "quantifier": "all source patterns and settings", "why_tests_cant": "unbounded input sequences and all command values including unknown ones", "anchors": ["pyembroidery/EmbEncoder.py: transcode_main"]}
{"id": "C24", "title": "Encoding keeps every needle penetration in order", "statement": "For every source without matrix commands, the needle positions of the encoder's output contain the transformed positions of the source's stitches up to its END as a subsequence in order. If in addition tie stitches are off, long stitches are not sewn, and the source has no SEW_TO, sequin, tie or contingency commands, there are no other needle positions.", "quantifier": "all source patterns", "why_tests_cant": "unbounded input sequences with state (trimmed, jumping, sequin)", "anchors": ["pyembroidery/EmbEncoder.py: transcode_main, needle_to, stitch_at, jump_to_within_stitchrange"]}
{"id": "C25", "title": "Encoder thread sequencing never fails and matches colours", "statement": "Encoding never fails because the planned thread for a change is missing. In colour-change mode, for a source without explicit TIE_ON/TIE_OFF commands, the resulting thread list has exactly one more entry than there are colour changes whenever anything is sewn.", "quantifier": "all source patterns", "why_tests_cant": "the plan is computed by a different pass over the pattern than the one that consumes it", "anchors": ["pyembroidery/EmbEncoder.py: build_thread_change_sequence, next_change_sequence"]}
{"id": "C26", "title": "Explicit thread numbers on colour commands are honoured", "statement": "When every colour break or change of a pattern carries an explicit thread number, the colour change emitted at that place carries that thread number.", "quantifier": "all source patterns with explicit thread numbers", "why_tests_cant": "needs particular placements of redundant breaks before the first stitch", "anchors": ["pyembroidery/EmbEncoder.py: build_thread_change_sequence, color_break"]}
{"id": "C27", "title": "Trimmed state discipline", "statement": "In encoder output every TRIM comes after a STITCH with no other TRIM, STOP, COLOR_CHANGE or NEEDLE_SET in between: nothing is trimmed twice, and nothing is trimmed that was not sewn.", "quantifier": "all source patterns", "why_tests_cant": "stateful over unbounded sequences", "anchors": ["pyembroidery/EmbEncoder.py: trim_here, tie_off_and_trim_if_needed, declare_not_trimmed"]}
{"id": "C28", "title": "Sequin mode is off whenever a jump or trim is emitted and toggles alternate", "statement": "In encoder output, for every source and all settings, a JUMP or TRIM only appears after an even number of sequin mode switches (mode off), and a sequin eject only after an odd number (mode on).", "quantifier": "all source patterns", "why_tests_cant": "stateful over unbounded sequences", "anchors": ["pyembroidery/EmbEncoder.py: toggle_sequins, jump_at, sequin_at"]}
{"id": "C29", "title": "Lock stitches stay within the limit and return to the start", "statement": "A tie-on or tie-off either adds nothing, or - exactly when the contingency asks for it and the neighbouring source command is a sewing command - adds exactly four stitches on the segment from the needle towards the transformed position of that command, no farther away than 66% of the way to it or of the maximum stitch length, the last one exactly back on the tied point; the needle position is unchanged.", "quantifier": "all encoder states (needle, matrix, limits, contingencies), source lists and positions; coordinates over the reals", "why_tests_cant": "all coordinates", "anchors": ["pyembroidery/EmbEncoder.py: lock_stitch, tie_on, tie_off, towards"]}
{"id": "C30", "title": "Writing and normalising do not change the source pattern", "statement": "Encoding a pattern leaves the source pattern's commands, coordinates, threads and metadata exactly as they were, and later changes to the encoded pattern's stitches do not show up in the source.", "quantifier": "all patterns, all heaps (aliasing), all settings", "why_tests_cant": "aliasing: a shared mutable stitch is only noticed if something later mutates it", "anchors": ["pyembroidery/EmbEncoder.py: transcode", "pyembroidery/EmbPattern.py: get_normalized_pattern, write_embroidery"]}
{"id": "C31", "title": "A copied pattern is independent of the original", "statement": "After copying a pattern, translating or transforming the copy leaves the original's coordinates unchanged.", "quantifier": "all patterns", "why_tests_cant": "aliasing through shared inner lists", "anchors": ["pyembroidery/EmbPattern.py: copy, translate, transform"]}
{"id": "C32", "title": "Adding a pattern leaves the added pattern unchanged", "statement": "pattern1 + pattern2 and pattern1.add_pattern(pattern2) do not modify pattern2.", "quantifier": "all pairs of patterns", "why_tests_cant": "aliasing through shared inner lists, only for added patterns with leading colour commands", "anchors": ["pyembroidery/EmbPattern.py: add_pattern, __add__"]}
{"id": "C33", "title": "Trim interpolation keeps all sewing", "statement": "interpolate_trims terminates and keeps every stitch, colour change, stop, end and sequin command with its position and order, for every threshold; it only inserts trims at the needle position and removes jumps whose total displacement is zero; when n jumps are to require a trim, fewer than n untrimmed jumps follow any sewing afterwards.", "quantifier": "all patterns and thresholds", "why_tests_cant": "in-place edits of the list being scanned, with moving indices", "anchors": ["pyembroidery/EmbPattern.py: interpolate_trims"]}
{"id": "C34", "title": "Stop/duplicate-colour conversions are inverse", "statement": "Converting stops to duplicate colours and back restores commands, positions and threads, for patterns whose consecutive threads differ, which have a thread for every colour section, whose stops carry no extra flag bits, and which sew something before, between and after the stops and thread changes.", "quantifier": "all patterns satisfying the stated thread condition", "why_tests_cant": "unbounded patterns; the index bookkeeping is in-place on two lists", "anchors": ["pyembroidery/EmbPattern.py: interpolate_stop_as_duplicate_color, interpolate_duplicate_color_as_stop"]}
{"id": "C35", "title": "Frame-eject interpolation terminates and keeps sewing", "statement": "interpolate_frame_eject terminates and keeps every stitch and thread change with its position and order. In each stretch between them that has a jump, later a stop and later another jump (at the end of the pattern: a jump and later a stop), everything from the first jump on is replaced by one FRAME_EJECT at the position of the first stop after that jump; every other stretch is unchanged.", "quantifier": "all patterns", "why_tests_cant": "in-place deletion during scanning with a moving end index", "anchors": ["pyembroidery/EmbPattern.py: interpolate_frame_eject"]}
{"id": "C36", "title": "Block decompositions partition the pattern", "statement": "Command blocks concatenate back to the pattern and are its maximal runs of one command kind; colour blocks concatenate to the pattern minus colour breaks, in order, are cut exactly at the colour commands, and the i-th one is paired with thread i; stitch blocks are the maximal runs of stitches, in order, each paired with the thread numbered by the colour changes before it.", "quantifier": "all patterns", "why_tests_cant": "unbounded sequences and off-by-one slice boundaries", "anchors": ["pyembroidery/EmbPattern.py: get_as_command_blocks, get_as_colorblocks, get_as_stitchblock"]}
{"id": "C37", "title": "Bounds are tight and translation moves them", "statement": "For every non-empty pattern the bounds contain every command position and each side is attained; translating shifts them by exactly the translation and translating back restores the pattern; centring moves the centre of the bounds to within half a unit of the origin.", "quantifier": "all patterns and translations (exact arithmetic)", "why_tests_cant": "all coordinates", "anchors": ["pyembroidery/EmbPattern.py: bounds, translate, move_center_to_origin"]}
{"id": "C38", "title": "Colour count is complete after fixing", "statement": "After fix_color_count there is at least one thread for every sewn colour section, existing threads are kept as a prefix, and no thread is added if there were enough.", "quantifier": "all patterns", "why_tests_cant": "unbounded sequences", "anchors": ["pyembroidery/EmbPattern.py: fix_color_count"]}
{"id": "C39", "title": "Matrix algebra", "statement": "Applying a product of matrices to a point is applying one after the other in the documented order; product is associative with the identity neutral; inverse really inverts for every invertible matrix; scaling or rotating about a point keeps that point fixed.", "quantifier": "all matrices and points over the reals (rotation angle arbitrary)", "why_tests_cant": "a continuum of inputs; floating-point tests only sample it approximately", "anchors": ["pyembroidery/EmbMatrix.py"]}
{"id": "C40", "title": "Transform settings apply in the documented order", "statement": "The encoder's translate, scale and rotate settings act on each point as one fixed affine map equal to composing the three maps in the order the README states (translate, then scale, then rotate).", "quantifier": "all points and settings", "why_tests_cant": "a continuum of inputs", "anchors": ["pyembroidery/EmbEncoder.py: Transcoder.__init__", "pyembroidery/EmbMatrix.py", "README.md"]}
{"id": "C41", "title": "Nearest palette colour is a true minimum", "statement": "The palette search returns the index of a usable palette entry with the least colour distance; it returns None exactly when there is no usable entry.", "quantifier": "all palettes and colours", "why_tests_cant": "all palettes of all lengths", "anchors": ["pyembroidery/EmbThread.py: find_nearest_color_index, color_distance_red_mean"]}
{"id": "C42", "title": "Unique palette assignment", "statement": "With at least as many palette entries as different threads, different thread colours get different palette indexes, equal threads equal ones.", "quantifier": "all palettes and thread lists", "why_tests_cant": "greedy removal over unbounded lists", "anchors": ["pyembroidery/EmbThread.py: build_unique_palette"]}
{"id": "C43", "title": "Non-repeating palette assignment", "statement": "With two or more palette entries, consecutive different threads always get different palette indexes.", "quantifier": "all palettes and thread lists", "why_tests_cant": "state across unbounded lists", "anchors": ["pyembroidery/EmbThread.py: build_nonrepeat_palette"]}
{"id": "C44", "title": "Thread colour text round trip", "statement": "Formatting any 24-bit colour as #rrggbb and parsing it back gives the same red, green and blue components.", "quantifier": "all 2^24 colours", "why_tests_cant": "16.7 million values with per-digit carries", "anchors": ["pyembroidery/EmbThread.py: hex_color, set_hex_color, color_hex, get_red, get_green, get_blue"]}
{"id": "C45", "title": "CSV/JSON command names round trip", "statement": "Every command that has a name, with any thread, needle and order numbers attached, is written to CSV or JSON as a text that parses back to the same command value. A value without a name is refused on reading (KeyError); it is never read as another command.", "quantifier": "all 32-bit command values", "why_tests_cant": "2^32 command values; unnamed ones fall into a fallback branch", "anchors": ["pyembroidery/EmbFunctions.py: get_command_dictionary, get_common_name_dictionary", "pyembroidery/CsvWriter.py: decoded_name", "pyembroidery/JsonReader.py: decoded_command"]}
{"id": "C46", "title": "CSV/JSON are lossless for every command", "statement": "Any pattern saved as CSV or JSON can be loaded again (the README calls these formats lossless).", "quantifier": "all patterns", "why_tests_cant": "fails only for commands absent from a table", "anchors": ["pyembroidery/CsvWriter.py", "pyembroidery/CsvReader.py", "pyembroidery/JsonWriter.py", "pyembroidery/JsonReader.py", "pyembroidery/EmbFunctions.py"]}
{"id": "C47", "title": "Compression round trip", "statement": "Data compressed by the HUS compressor expands to the original bytes, for byte strings of every length; a size limit given to the expander keeps the first limit+1 bytes.", "quantifier": "all byte strings", "why_tests_cant": "all lengths; block-boundary and bit-alignment cases", "anchors": ["pyembroidery/EmbCompress.py: compress, expand"]}
{"id": "C48", "title": "Decompression is total", "statement": "Expanding any byte string terminates.", "quantifier": "all byte strings and size limits", "why_tests_cant": "non-termination cannot be observed by a test", "anchors": ["pyembroidery/EmbCompress.py: expand, decompress"]}
{"id": "C49", "title": "Colour-file round trips (EDR, COL, INF)", "statement": "Thread lists written as EDR, COL or INF read back with the same number of threads and the same 24-bit colours in the same order. COL gives each thread its position as catalogue number. INF keeps description and chart (\"Unknown\" for a missing one) when the texts of each thread are ASCII without NUL and together at most 65524 characters, with fewer than 2^32 threads.", "quantifier": "all thread lists (INF: all whose texts are ASCII without NUL)", "why_tests_cant": "all lengths and colours; record length fields", "anchors": ["pyembroidery/EdrWriter.py", "pyembroidery/EdrReader.py", "pyembroidery/ColWriter.py", "pyembroidery/ColReader.py", "pyembroidery/InfWriter.py", "pyembroidery/InfReader.py"]}
{"id": "C50", "title": "User settings override format defaults", "statement": "When writing, each setting given by the user is the one the encoder sees; every setting not given takes the format's default if it has one; the caller's settings dictionary is not modified.", "quantifier": "all settings dictionaries and all formats", "why_tests_cant": "all subsets of settings times formats", "anchors": ["pyembroidery/EmbPattern.py: write_embroidery"]}
{"id": "C51", "title": "JEF header describes the body", "statement": "The stitch offset in the JEF header is the position where stitch data starts, and the recorded number of colours equals the number of colour sections written, for every pattern.", "quantifier": "all patterns", "why_tests_cant": "unbounded colour counts", "anchors": ["pyembroidery/JefWriter.py: write", "pyembroidery/JefReader.py: read"]}
{"id": "C52", "title": "Inserting relative stitches", "statement": "Inserting a command at any position inside a pattern places it at the given offset from the preceding command and shifts no other command; inserting at the end of a non-empty pattern equals adding; a position outside the pattern changes nothing.", "quantifier": "all patterns and positions", "why_tests_cant": "negative, zero, middle and end positions over unbounded patterns", "anchors": ["pyembroidery/EmbPattern.py: insert_stitch_relative, add_stitch_relative"]}
{"id": "C53", "title": "JEF keeps stops as stops", "statement": "A stop written to JEF reads back as a stop, however many stops the colour section contains.", "quantifier": "all patterns with stops", "why_tests_cant": "the palette toggling state depends on the whole history of stops and colour changes", "anchors": [{"file": "pyembroidery/JefWriter.py", "symbol": "write"}, {"file": "pyembroidery/JefReader.py", "symbol": "read_jef_stitches"}]}
{"id": "C54", "title": "Repeated threads keep their palette entry", "statement": "When the non-repeating palette assignment (used for PEC colour tables) meets the same thread twice in a row, both get the same palette index.", "quantifier": "all palettes with two or more entries and all thread lists", "why_tests_cant": "The defect only shows after a preceding clash between near colours; example tests use well separated colours.", "anchors": ["pyembroidery/EmbThread.py: build_nonrepeat_palette"]}
{"id": "C55", "title": "Encoding and writing with a format's own defaults keeps the sewing", "statement": "Writing a pattern with the default settings of a format and reading it back gives the same number of stitches, no trims that were not there, and a readable file.", "quantifier": "all patterns, formats DST, XXX, JEF, TBF", "why_tests_cant": "needs the composition of encoder defaults, writer and reader on inputs at the boundaries of each format", "anchors": ["pyembroidery/EmbPattern.py: write_embroidery", "pyembroidery/DstWriter.py: write", "pyembroidery/XxxWriter.py: write", "pyembroidery/JefWriter.py: write", "pyembroidery/TbfWriter.py: write"]}
{"id": "C56", "title": "Stitch blocks and colour blocks agree on threads", "statement": "Every stitch is paired with the same thread by the stitch blocks as by the colour blocks.", "quantifier": "all patterns", "why_tests_cant": "unbounded sequences of colour commands of three kinds", "anchors": ["pyembroidery/EmbPattern.py: get_as_stitchblock, get_as_colorblocks"]}
{"id": "C57", "title": "The trim-interpolated copy only merges jumps", "statement": "get_pattern_interpolate_trim(n) returns a pattern with the same threads in which every run of plain jumps after sewing is replaced by its last jump, with a trim before it if the run has at least n jumps (more than n at the very end), and every other command is kept with its position and order.", "quantifier": "all patterns and thresholds", "why_tests_cant": "nested index loops with look-ahead over unbounded patterns", "anchors": ["pyembroidery/EmbPattern.py: get_pattern_interpolate_trim"]}
{"id": "C58", "title": "Merging jumps leaves a break for every run of jumps", "statement": "get_pattern_merge_jumps replaces each run of jumps by one stitch break and keeps every other command.", "quantifier": "all patterns", "why_tests_cant": "a flag that has to be reset between runs", "anchors": ["pyembroidery/EmbPattern.py: get_pattern_merge_jumps"]}
{"id": "C59", "title": "Joining patterns keeps colours", "statement": "Adding a pattern to one that has exactly one thread per colour section, ends within a section and shares no stitch object with it succeeds, and in the result every stitch of both patterns is sewn with its own thread (or one that compares equal).", "quantifier": "all pairs of patterns, all placement arguments", "why_tests_cant": "combination of leading thread changes, equal neighbouring threads and transformation commands over unbounded patterns", "anchors": ["pyembroidery/EmbPattern.py: add_pattern, __add__, __iadd__", "pyembroidery/EmbPattern.py: fix_color_count"]}
{"id": "C60", "title": "Any pattern can be added to any pattern", "statement": "Adding a pattern succeeds for every pair of patterns and the result holds the commands of the first (without END), the requested transformation, at most one colour change and the commands of the second with leading thread changes blanked.", "quantifier": "all pairs of patterns that share no stitch object", "why_tests_cant": "fails only for first patterns without commands or without threads and sewing", "anchors": ["pyembroidery/EmbPattern.py: add_pattern, __add__, __iadd__"]}
{"id": "C61", "title": "A vertical scale given to add_pattern takes effect", "statement": "Adding a pattern with only a vertical scale factor differs from adding it without one.", "quantifier": "all patterns, all factors", "why_tests_cant": "a wrong conjunction in an argument check: only visible when exactly one argument is given", "anchors": ["pyembroidery/EmbPattern.py: add_pattern, __add__, __iadd__"]}
{"id": "C62", "title": "Translating moves every stitch once", "statement": "After translating a pattern by (dx, dy) each of its stitches has moved by exactly (dx, dy), however the pattern was built.", "quantifier": "all patterns, all sharing of stitch objects", "why_tests_cant": "aliasing: a pattern can hold one stitch object twice", "anchors": ["pyembroidery/EmbPattern.py: translate, __add__, add_pattern"]}
{"id": "C63", "title": "Writing with encoding switched off leaves the pattern unchanged", "statement": "Writing a pattern to any format with the setting encode=False does not change the pattern.", "quantifier": "all patterns and writers", "why_tests_cant": "depends on which writer edits the object it is given", "anchors": ["pyembroidery/PngWriter.py: write", "pyembroidery/JefWriter.py: write", "pyembroidery/EmbPattern.py: write_embroidery"]}
{"id": "C64", "title": "VP3 threads survive", "statement": "Writing VP3 and reading it back gives every colour block its thread: 24-bit colour, catalogue number, brand and description (a missing description becomes the colour's #rrggbb name).", "quantifier": "all patterns and thread lists", "why_tests_cant": "all texts, including those whose UTF-8 form is longer than the character count stored in the file", "anchors": ["pyembroidery/Vp3Writer.py: vp3_write_thread, vp3_write_string_8", "pyembroidery/Vp3Reader.py: vp3_read_thread"]}
{"id": "C65", "title": "INF keeps colours whatever the thread texts", "statement": "A thread list written as INF reads back with the same colours in the same order whatever characters the descriptions contain.", "quantifier": "all thread lists", "why_tests_cant": "every text in every language; lengths are counted before encoding", "anchors": ["pyembroidery/InfWriter.py write", "pyembroidery/InfReader.py read"]}
{"id": "C66", "title": "CSV files load back what was saved", "statement": "A pattern saved as CSV, in any of the three column layouts, loads back with the same stitches (coordinates and commands, with thread, needle and order numbers) in the same order, the same metadata in the same order, and the same number of threads with the same 24-bit colours, descriptions, brands and catalogue numbers, a missing text coming back as the word None; provided commands have names, coordinates are ones whose printed form reads back, texts have no quote, NUL, carriage return or surrogate and at most 131072 characters, and metadata names are distinct.", "quantifier": "all patterns with named commands and storable texts, all layouts", "why_tests_cant": "quoting, separators and line breaks inside texts; every list length and command value", "anchors": ["pyembroidery/CsvWriter.py write", "pyembroidery/CsvReader.py read"]}
{"id": "C67", "title": "JSON files load back what was saved", "statement": "A pattern with named commands saved as JSON loads back with the same stitches, the same threads (24-bit colour and all six texts, missing ones still missing) and the metadata whose values are strings, ints or floats (the json library being taken as lossless).", "quantifier": "all patterns with named commands", "why_tests_cant": "every command value with attached numbers; every thread list", "anchors": ["pyembroidery/JsonWriter.py write", "pyembroidery/JsonReader.py read"]}
{"id": "C68", "title": "CSV keeps every text", "statement": "Metadata and thread texts saved as CSV load back unchanged.", "quantifier": "all texts", "why_tests_cant": "needs the right characters in the right place", "anchors": ["pyembroidery/CsvWriter.py csv", "pyembroidery/CsvReader.py read", "pyembroidery/EmbThread.py set"]}
{"id": "C69", "title": "Back references repeat earlier output", "statement": "When the expander meets a back reference of length n and distance d within the output so far, it appends exactly n values, each equal to the value d places before it, also when the copied range overlaps the new values, and leaves the earlier output unchanged.", "quantifier": "all outputs, lengths and distances within the output", "why_tests_cant": "overlapping and non-overlapping copies take different code paths; all combinations of length and distance", "anchors": ["pyembroidery/EmbCompress.py: EmbCompress.decompress"]}
{"id": "C70", "title": "Prefix codes are decoded canonically", "statement": "For every list of code lengths (at most 16 bits), when the next input bits begin with the canonical prefix code of a symbol, the expander decodes that symbol and consumes exactly the bits of its code.", "quantifier": "all lists of code lengths, symbols and following bits", "why_tests_cant": "the space of code length lists and bit windows cannot be enumerated", "anchors": ["pyembroidery/EmbCompress.py: Huffman.build_table, Huffman.lookup"]}
{"id": "C71", "title": "PEC files give back stitches, stops, colours and label", "statement": "Writing a pattern to PEC and reading the file back gives the stitches of the rounded pattern (trims only as implied by jumps, needle-downs added after jumps as documented, stops kept as stops), one palette thread per thread of the pattern, two threads getting the same palette colour exactly if they had the same RGB colour, and the first eight characters of the name as label. Side conditions: the pattern ends with its only END, steps are at most 2047, control commands do not move, every colour section and stop section has sewing, there is a thread per section, at most 255 threads and stops and 64 different ones, neighbouring threads differ in colour, the label is ASCII.", "quantifier": "every pattern, thread list and name meeting the side conditions, every enumeration order of the set of threads", "why_tests_cant": "Ranges over every pattern, thread list and name; the reader and writer agree only through several coupled encodings (palette assignment, stop expansion, header offsets, variable-length steps), and tests sample a few files.", "anchors": ["pyembroidery/PecWriter.py: write, write_pec", "pyembroidery/PecReader.py: read, read_pec, map_pec_colors", "pyembroidery/EmbPattern.py: interpolate_stop_as_duplicate_color, interpolate_duplicate_color_as_stop", "pyembroidery/EmbThread.py: build_unique_palette"]}
{"id": "C72", "title": "PES version 1 files give back stitches, stops, colours and label", "statement": "Writing a pattern to PES version 1, truncated or not, and reading the file back gives the same stitches, threads and label as a PEC file (C71), and the version 1, under the conditions of C71 and for files below 4 GiB.", "quantifier": "every pattern, thread list, metadata and truncation flag meeting the side conditions", "why_tests_cant": "Ranges over every pattern, thread list and name; the reader and writer agree only through several coupled encodings (palette assignment, stop expansion, header offsets, variable-length steps), and tests sample a few files.", "anchors": ["pyembroidery/PesWriter.py: write, write_version_1, write_truncated_version_1", "pyembroidery/PesReader.py: read"]}
{"id": "C73", "title": "PES version 6 files give back threads and metadata", "statement": "Writing a pattern to PES version 6, truncated or not, and reading it back gives the stitches as in C71, the threads with their own RGB colours, descriptions, catalog numbers, brands and charts (texts cut after 255 characters, empty texts absent), and the metadata entries name, category, author, keywords and comments. Texts must be ASCII and neighbouring threads must differ in what is stored of them.", "quantifier": "every pattern, thread list, metadata and truncation flag meeting the side conditions", "why_tests_cant": "Ranges over every pattern, thread list and name; the reader and writer agree only through several coupled encodings (palette assignment, stop expansion, header offsets, variable-length steps), and tests sample a few files.", "anchors": ["pyembroidery/PesWriter.py: write_version_6, write_truncated_version_6, write_pes_header_v6", "pyembroidery/PesReader.py: read_pes_header_version_6, read_pes_metadata, read_pes_thread"]}
{"id": "C74", "title": "Preview pictures show exactly the stitches", "statement": "The preview picture of a PEC file is the frame plus one pixel for each stitch, at the stitch's position scaled to fit and centred; no stitch falls outside the frame for any bounds; each colour section (a stop starts a new one) has a picture of its own; each picture has 228 bytes, and with one thread for each section the reader gives back exactly these pictures, each with its section's thread.", "quantifier": "every non-empty pattern, of any bounds including zero width or height", "why_tests_cant": "The scaling uses the bounds of the pattern; whether a rounding puts a pixel outside the picture for some bounds needs an argument over all rationals.", "anchors": ["pyembroidery/PecGraphics.py: draw_scaled, get_blank", "pyembroidery/PecWriter.py: write_pec_graphics", "pyembroidery/PecReader.py: read_pec_graphics"]}
{"id": "C75", "title": "PEC and PES version 1 files keep names and thread sections", "statement": "The name of a pattern, and the division into colour sections, survive a PEC or PES version 1 file.", "quantifier": "every pattern, thread list and name", "why_tests_cant": "Refuting it needs one witness, but knowing exactly which patterns are safe (C71) needs the general proof.", "anchors": ["pyembroidery/PecWriter.py: write_pec_header", "pyembroidery/PecReader.py: read_pec"]}
{"id": "C76", "title": "Whole DST file: stitches, trims and header round trip", "statement": "Let the positions of a pattern be rounded to whole units as the writer does. If every step of a STITCH, JUMP or SEQUIN_EJECT is at most 121 units, the other commands do not move, every TRIM directly follows sewing, fewer jumps than the trim count follow sewing without a TRIM, no jump leads back to the start of its run of jumps, the texts are single lines and leave room in the 512-byte header, then write_dst succeeds and read_dst of the file returns exactly the commands before END (a STOP as COLOR_CHANGE, TRIMs as TRIMs) and one END, and the header values: name, stitch count, colour changes, extents, end position, and with the extended header author and copyright.", "quantifier": "All patterns with rational coordinates below 10^10, trim counts from 2, header kinds and texts meeting the conditions; all sufficient loop bounds.", "why_tests_cant": "The trims are written as zigzag jumps and recovered by a scan that inspects and deletes commands in place; whether every sequence of jumps, trims and colour changes is restored depends on unbounded histories.", "anchors": ["pyembroidery/DstWriter.py:write", "pyembroidery/DstReader.py:read", "pyembroidery/DstReader.py:dst_read_header", "pyembroidery/EmbPattern.py:interpolate_trims"]}
{"id": "C77", "title": "DST extended header keeps the threads", "statement": "Under the conditions of C76 with the extended header, and descriptions and catalogue numbers without commas, reading the DST file returns one thread per thread of the pattern, in order, with its colour modulo 2^24, its description and its catalogue number without surrounding blanks (\"None\" for a missing text).", "quantifier": "All lists of threads and texts that fit the header; all patterns meeting the conditions of C76.", "why_tests_cant": "The header is a byte text cut at line ends; the claim is about all texts, including those with multi-byte characters and blanks.", "anchors": ["pyembroidery/DstWriter.py:write", "pyembroidery/DstReader.py:process_header_info"]}
{"id": "C78", "title": "A DST file keeps the pattern whatever its texts and threads", "statement": "For every pattern whose stitches DST can hold, whatever its name, author and threads, the DST file reads back with the same stitches and threads.", "quantifier": "All names, authors, threads and patterns with representable stitches.", "why_tests_cant": "Header overflow only appears for particular lengths and contents of texts.", "anchors": ["pyembroidery/DstWriter.py:write", "pyembroidery/DstReader.py:dst_read_header"]}
{"id": "C79", "title": "Reading any bytes as DST ends, and fails only on a malformed thread line", "statement": "read_dst on any finite sequence of bytes terminates, for any trim settings. It returns a pattern, or raises IndexError or ValueError; it raises only if the first 512 bytes contain \"TC\" (a thread line). interpolate_trims terminates without error on every list of stitches.", "quantifier": "All byte sequences, all settings of trim count, trim distance and clipping.", "why_tests_cant": "Totality over arbitrary, truncated or corrupted files cannot be tested exhaustively; interpolate_trims edits the list it scans.", "anchors": ["pyembroidery/DstReader.py:read", "pyembroidery/DstReader.py:dst_read_header", "pyembroidery/EmbPattern.py:interpolate_trims"]}
{"id": "C80", "title": "A DST file keeps the trims and jumps of every pattern", "statement": "For every pattern whose steps DST can hold, the DST file reads back with the same jumps and trims.", "quantifier": "All patterns of stitches, jumps and trims with steps of at most 121 units.", "why_tests_cant": "Trims are stored as jumps and recovered heuristically.", "anchors": ["pyembroidery/DstWriter.py:write", "pyembroidery/DstReader.py:read", "pyembroidery/EmbPattern.py:interpolate_trims"]}
{"id": "C81", "title": "Readers of fixed-size record formats decode exactly what the records store", "statement": "For the formats 100, 10O, DSB, DSZ, FXY, GT, INB, KSM, MIT, NEW, SPX, STC, ZXY and the stitch blocks of ZHS: if the bytes after the header store a sequence of stitches, jumps, trims, stops, colour changes and needle changes as the format's table of records says, reading the file gives exactly those commands at the accumulated positions, and reading stops at the end mark (or where fewer bytes than a record are left).", "quantifier": "All command sequences of any length with displacements in the format's range, all headers, all values of unused bytes and bits.", "why_tests_cant": "There are no writers for these formats, so nothing can be tested by a round trip; sign bits, control codes and states combine over unbounded record sequences.", "anchors": ["pyembroidery/A100Reader.py:read_100_stitches", "pyembroidery/A10oReader.py:read_10o_stitches", "pyembroidery/DsbReader.py:b_stitch_encoding_read", "pyembroidery/DszReader.py:z_stitch_encoding_read", "pyembroidery/FxyReader.py:read", "pyembroidery/GtReader.py:read", "pyembroidery/InbReader.py:read_inb_stitches", "pyembroidery/KsmReader.py:read_ksm_stitches", "pyembroidery/MitReader.py:read_mit_stitches", "pyembroidery/NewReader.py:read", "pyembroidery/SpxReader.py:read_spx_stitches", "pyembroidery/StcReader.py:read_stc_stitches", "pyembroidery/ZxyReader.py:read_zxy_stitches", "pyembroidery/ZhsReader.py:read_zhs_stitches"]}
{"id": "C82", "title": "Readers of escape-coded formats and of formats with offsets decode exactly what is stored", "statement": "For the formats BRO, EMD, JPX, SEW, STX and DAT (Barudan without needle changes, Sunstar): a file whose header announces its threads and the position of its stitches and whose stitch bytes store a command sequence as the format's table says is read as exactly those threads and commands.", "quantifier": "All command sequences with displacements in the format's range, all thread lists, all positions of the stitch data, all unused bytes.", "why_tests_cant": "There are no writers for these formats; escape bytes must not be confused with displacements for any value.", "anchors": ["pyembroidery/BroReader.py:read_bro_stitches", "pyembroidery/EmdReader.py:read_emd_stitches", "pyembroidery/JpxReader.py:read", "pyembroidery/SewReader.py:read", "pyembroidery/StxReader.py:read", "pyembroidery/DatReader.py:read"]}
{"id": "C83", "title": "A cut or arbitrary file of a record format is read as far as it goes", "statement": "For the formats 100, 10O, EMD, FXY, GT, INB, KSM, MIT, NEW, STC, and the stitch parts of DSB, DSZ and ZHS: reading any bytes returns a pattern closed by END without an exception, and reading the first n bytes of a file gives the first commands of the whole file, closed by END.", "quantifier": "All byte sequences and all cut points n.", "why_tests_cant": "Every truncation point of every file.", "anchors": ["pyembroidery/ReadHelper.py:signed8", "pyembroidery/A100Reader.py:read", "pyembroidery/EmdReader.py:read", "pyembroidery/KsmReader.py:read", "pyembroidery/MitReader.py:read", "pyembroidery/ZhsReader.py:read_zhs_stitches"]}
{"id": "C84", "title": "Which files make the readers of BRO, JPX, SEW, SPX, STX and ZXY fail", "statement": "Reading any bytes ends. JPX raises TypeError exactly for files shorter than 36 bytes, STX shorter than 24, ZXY shorter than 3; SEW exactly if the file has fewer than two bytes or fewer than the announced number of thread entries; SPX exactly if between 2 and 6 bytes of a nine-byte record are left at the end; BRO returns a pattern or raises TypeError. No other exception occurs.", "quantifier": "All byte sequences.", "why_tests_cant": "The failing lengths and contents form infinite sets.", "anchors": ["pyembroidery/BroReader.py:read", "pyembroidery/JpxReader.py:read", "pyembroidery/SewReader.py:read", "pyembroidery/SpxReader.py:read", "pyembroidery/StxReader.py:read", "pyembroidery/ZxyReader.py:read"]}
{"id": "C85", "title": "A pattern that was read has END as its last command and nowhere else", "statement": "For every file that a record-format reader accepts, the pattern read has exactly one END, its last command.", "quantifier": "All files accepted by the readers of 100, 10O, BRO, DSB, DSZ, EMD, FXY, GT, INB, JPX, KSM, MIT, NEW, SEW, SPX, STC, ZHS, ZXY.", "why_tests_cant": "Needs every file.", "anchors": ["pyembroidery/EmbPattern.py:end", "pyembroidery/SpxReader.py:read", "pyembroidery/MitReader.py:read_mit_stitches"]}
{"id": "C86", "title": "DAT files with needle changes, and DAT files with any header, are read", "statement": "A Barudan DAT file with needle changes is read with its needle changes, and the commands read from a Sunstar DAT file do not depend on its header.", "quantifier": "All Barudan and Sunstar DAT files.", "why_tests_cant": "Needs every file.", "anchors": ["pyembroidery/DatReader.py:read_barudan_dat", "pyembroidery/DatReader.py:read", "pyembroidery/EmbPattern.py:needle_change"]}
{"id": "C87", "title": "Files of PCD, PCM, PCQ, PCS and MAX are decoded exactly", "statement": "A PCD, PCQ or PCS file, a PCM file and a MAX file that store a list of threads and, per record, a stitch or jump to an absolute grid position or a colour change, is read as exactly those threads and commands; a colour change and END stay at the last position. One grid step is 5/3 (MAX: 1.235) tenths of a millimetre.", "quantifier": "All designs of any length on the 24-bit grid, all threads, all values of unused bytes, any arithmetic used for scaling.", "why_tests_cant": "There are no writers for these formats; sign and byte order must be right for every coordinate.", "anchors": ["pyembroidery/PcdReader.py:read_pc_file", "pyembroidery/PcqReader.py:read_pc_file", "pyembroidery/PcsReader.py:read_pc_file", "pyembroidery/PcmReader.py:read_pc_file", "pyembroidery/MaxReader.py:read"]}
{"id": "C88", "title": "An SHV file is decoded exactly, colour by colour", "statement": "An SHV file whose table announces for each colour how many records it has, and whose stitch bytes store the colours' stitches and jumps one after the other, is read as its name, threads, and those commands with one colour change between each two colours.", "quantifier": "All designs: any number of colours and records, all displacements, all names, previews and unused bytes.", "why_tests_cant": "Where the colour changes fall depends on counts accumulated over the whole file, with records of different weights.", "anchors": ["pyembroidery/ShvReader.py:read"]}
{"id": "C89", "title": "A HUS file is decoded exactly", "statement": "A HUS file whose three compressed streams expand to the command, x and y bytes of a design is read as its threads and exactly the design's stitches, jumps, trims and colour changes; in particular if the streams are stored by the library's own compressor (up to 255 records).", "quantifier": "All designs with displacements of a signed byte, all thread lists, all compressed streams with that expansion.", "why_tests_cant": "There is no HUS writer; the three streams must stay in step for every design.", "anchors": ["pyembroidery/HusReader.py:read", "pyembroidery/EmbCompress.py:expand", "pyembroidery/EmbCompress.py:compress"]}
{"id": "C90", "title": "Which files make the readers of PCD, PCM, MAX and SHV fail", "statement": "Reading any bytes ends. PCD, PCQ and PCS raise TypeError exactly for files shorter than 4 bytes; MAX raises TypeError exactly if the file is shorter than 0xD9 bytes, or has fewer bytes than announced and not exactly one byte missing from a record; PCM returns a pattern or raises TypeError or IndexError; SHV returns a pattern with exactly one END, its last command, or raises TypeError or KeyError. No other exception occurs.", "quantifier": "All byte sequences.", "why_tests_cant": "The failing files form infinite sets.", "anchors": ["pyembroidery/PcdReader.py:read_pc_file", "pyembroidery/PcmReader.py:read_pc_file", "pyembroidery/MaxReader.py:read", "pyembroidery/ShvReader.py:read"]}
{"id": "C91", "title": "A cut file of PCD, PCM, PCQ, PCS, MAX or SHV is read as far as it goes", "statement": "Reading the first n bytes of a file, cut after the header, gives the first commands of the whole file, closed by END at the last position.", "quantifier": "All files and all cut points after the header.", "why_tests_cant": "Every truncation point of every file.", "anchors": ["pyembroidery/PcdReader.py:read_pc_file", "pyembroidery/PcmReader.py:read_pc_file", "pyembroidery/MaxReader.py:read", "pyembroidery/ShvReader.py:read"]}
{"id": "C92", "title": "A short run of stitches written to PMV is read back within an eighth of a millimetre", "statement": "For a pattern whose first points (stitches and jumps, at most 100) are not interrupted by other commands, with x steps of at most 7.7 mm, the written PMV file is read as the same number of stitches followed by END: every x at most 0.125 mm from the original (without drift), every y at most 0.125 mm from the original measured from the middle of the design's y range, where designs higher than 7 mm are shrunk to 7 mm.", "quantifier": "All runs of 1 to 100 points with rational coordinates, any commands after them (any at all once 100 points are written).", "why_tests_cant": "Rounding errors must not accumulate over the run for any coordinates, and the 5- and 6-bit encodings must not overflow.", "anchors": ["pyembroidery/PmvWriter.py:write", "pyembroidery/PmvReader.py:read_pmv_stitches"]}
{"id": "C93", "title": "A PMV file written by the library can be read by it", "statement": "For every pattern the written PMV file is read without an exception as the pattern's first points (at most 100).", "quantifier": "All patterns.", "why_tests_cant": "Needs every placement of trims, colour changes and stops among the stitches.", "anchors": ["pyembroidery/PmvWriter.py:write", "pyembroidery/PmvReader.py:read_pmv_stitches"]}
{"id": "C94", "title": "Reading any PMV file ends with stitches or a TypeError", "statement": "Reading any bytes as PMV ends; it raises TypeError or gives stitches only, followed by at most one END at the position of the last stitch.", "quantifier": "All byte sequences.", "why_tests_cant": "Infinitely many files.", "anchors": ["pyembroidery/PmvReader.py:read_pmv_stitches"]}
{"id": "C95", "title": "PHB and PHC files are read as the design they store", "statement": "Take a design with integer-rounded steps of at most 2047, sewing between any two colour changes or stops, and its END last. In a PHB or PHC file whose stored offsets lead to the PEC stitch data of that design (each stop stored as a change to the same colour) and whose colour table lists the palette codes (the code repeated at each stop, neighbouring colours different), the reader returns the commands of the design as PEC keeps them, with the stops restored, and one palette thread per colour section. A PHC file also returns its preview pictures: the first for the whole design, the next ones for the colours in order.", "quantifier": "all such designs, all colour codes 0..255, all values of the stored offsets and of the bytes between", "why_tests_cant": "the offsets, the skipped bytes and the designs are unbounded; the repository has no PHB/PHC writer, so its tests read a few sample files at most", "anchors": ["pyembroidery/PhbReader.py:read", "pyembroidery/PhcReader.py:read", "pyembroidery/PecReader.py:read_pec_graphics, read_pec_stitches", "pyembroidery/EmbPattern.py:interpolate_duplicate_color_as_stop"]}
{"id": "C96", "title": "What the PHB and PHC readers do with an arbitrary file", "statement": "Reading any byte sequence as PHB or PHC either returns a pattern or raises TypeError, nothing else. A PHC file that ends among its colour codes is returned with the threads read so far, no stitches and no pictures; a PHB file shorter than 0x73 bytes is refused with TypeError.", "quantifier": "all byte sequences", "why_tests_cant": "damaged files are unlimited in number", "anchors": ["pyembroidery/PhbReader.py:read", "pyembroidery/PhcReader.py:read"]}
{"id": "C97", "title": "A pattern written as G-code reads back with its stitches and colours", "statement": "Take a pattern of stitches, jumps, trims, colour changes, stops and END, at any rational coordinates, with thread texts and metadata texts free of line ends and closing brackets (and metadata free of the word Thread). Writing it as G-code succeeds with any z travel, and reading the file gives, in order: each stitch with both axes turned round and each coordinate at most 1/200 of a unit away, on the grid of hundredths; a colour change for each colour change or stop, and an END for each END, at the needle position; nothing for jumps and trims. The threads read have the colours of the pattern's threads, in order.", "quantifier": "all such patterns, metadata dictionaries, thread lists and z travel settings", "why_tests_cant": "coordinates, texts and lengths are unbounded; every comment line must stay a comment and every number must survive the decimal conversion", "anchors": ["pyembroidery/GcodeWriter.py:write, write_data, write_metadata, write_threads", "pyembroidery/GcodeReader.py:parse, read"]}
{"id": "C98", "title": "A G-code program is read as it is meant", "statement": "For a program whose lines consist of an optional bracketed comment and words of a capital letter and a decimal number separated by blanks, the reader gives exactly the stitches the program means: G0/G1 with X and Y sew at the absolute or relative position in the unit in force (G20/G70 inches, G21/G71 millimetres, G90 absolute, G91 relative), both axes turned round; M0/M1 change colour and M2/M30 end at the needle position; other words and comments do nothing, except that a comment with the word Thread adds the colour in its second word.", "quantifier": "all programs of such lines: any number of lines, words, signs, digits and blanks", "why_tests_cant": "programs, numerals and mode switches combine without bound", "anchors": ["pyembroidery/GcodeReader.py:parse, read"]}
{"id": "C99", "title": "Writing G-code keeps every stitch, whatever the texts and other commands of the pattern", "statement": "Whatever the thread names, the metadata and the other commands in a pattern, the G-code written reads back with all the pattern's stitches and no others.", "quantifier": "all patterns that can be written as G-code", "why_tests_cant": "fails only for particular texts (a closing bracket) or commands (SLOW, FAST, needle changes), which sample designs do not have", "anchors": ["pyembroidery/GcodeWriter.py:write, write_data, write_metadata, write_threads", "pyembroidery/GcodeReader.py:parse, read"]}
{"id": "C100", "title": "G-code written in other common styles is understood", "statement": "Lower-case words mean the same as capital ones, a G1 line that sets only a feed rate or a height is accepted, and a last line without a line end counts.", "quantifier": "all G-code programs", "why_tests_cant": "the style of the file comes from other programs", "anchors": ["pyembroidery/GcodeReader.py:parse, read"]}
{"id": "C101", "title": "What the G-code reader does with an arbitrary file", "statement": "Reading any byte sequence as G-code returns a pattern or raises ValueError, IndexError or KeyError, nothing else. If a file reads well, every file cut off from it at any byte reads well too, with an initial part of the stitches and threads.", "quantifier": "all byte sequences and cut positions", "why_tests_cant": "damaged and cut files are unlimited in number", "anchors": ["pyembroidery/GcodeReader.py:parse, read"]}
{"id": "C102", "title": "The generic writer writes each command once, with positions that do not drift", "statement": "The file made by the generic writer contains the template of every command that has one, in the order of the pattern, with that command's index and position. The integer steps handed to the templates add up to the integer position handed to them, which is at most half a unit away from the true position at every command however long the pattern; the differences are those from the command written before, and the height grows by the travel setting at each stitch. The writer fails only with KeyError, and only if the pattern has an unknown command.", "quantifier": "all patterns with rational coordinates, all sets of templates and travel settings", "why_tests_cant": "drift and omissions depend on unbounded histories and on which templates are missing", "anchors": ["pyembroidery/GenericWriter.py:GenericWriter.write, update_positions, open_document, open_color, open_block, write_opens, write_closes"]}
{"id": "C103", "title": "The generic writer closes what it opens", "statement": "If for documents, colours and blocks both the start and the end template are given, or neither, the starts and ends in the file are nested: blocks in colours in documents, each command inside what it belongs to, and at the end of the file everything started has been ended.", "quantifier": "all patterns and all such sets of templates", "why_tests_cant": "depends on which templates are given and on how the pattern ends", "anchors": ["pyembroidery/GenericWriter.py:GenericWriter.write, update_positions, open_document, open_color, open_block, write_opens, write_closes"]}
{"id": "C104", "title": "The generic writer's join templates stand only between two items", "statement": "color_join is written between two colours and block_join between two blocks of a colour, not before the first one.", "quantifier": "all patterns and sets of templates", "why_tests_cant": "the only existing tests give no join template", "anchors": ["pyembroidery/GenericWriter.py:GenericWriter.write, update_positions, open_document, open_color, open_block, write_opens, write_closes"]}
{"id": "C105", "title": "A TXT file has one line per command", "statement": "A TXT file has exactly one line per command, in order, with both coordinates as decimal numerals at most a twentieth of a unit away (mm in the mimic layout), the name and number of the command (a flag and the number of colour changes so far in the mimic layout). Writing succeeds exactly if every command is known to the layout; a SLOW or FAST, which the encoder lets through, makes the mimic layout fail with KeyError.", "quantifier": "all patterns with rational coordinates, both layouts", "why_tests_cant": "coordinates and lengths are unbounded", "anchors": ["pyembroidery/TxtWriter.py:write, write_normal, write_mimic"]}
{"id": "C106", "title": "A TXT file names the colour each command is sewn with", "statement": "In the normal layout the colour on each line is the colour of the thread with which the command is sewn.", "quantifier": "all patterns with more than one thread", "why_tests_cant": "the existing tests do not read the file back", "anchors": ["pyembroidery/TxtWriter.py:write, write_normal, write_mimic"]}
{"id": "C107", "title": "An SVG file draws each run of stitches once, in its colour", "statement": "For a pattern with integer coordinates, the paths of the SVG file, read back, are exactly the runs of consecutive stitches of the pattern, in order, with their points, and the stroke of each is the colour of the thread whose number is the count of colour changes before it.", "quantifier": "all patterns with integer coordinates and all thread lists", "why_tests_cant": "patterns and coordinates are unbounded", "anchors": ["pyembroidery/SvgWriter.py:create_svg_dom", "pyembroidery/EmbPattern.py:get_as_stitchblock"]}
{"id": "C108", "title": "The dots drawn for a thread are a straight line without gaps", "statement": "In a PNG picture the thread between two needle points is drawn as a digital straight line: exactly one dot for every step along the longer side, each at most half a dot away from the ideal line, starting at the one needle point, ending at the other, and each dot touching the next (also diagonally).", "quantifier": "all integer end points, in every direction and of any length", "why_tests_cant": "the error term of the line algorithm is accumulated over the whole line; a wrong bound shows only for particular slopes and lengths", "anchors": ["pyembroidery/PngWriter.py:PngBuffer.draw_line"]}
{"id": "C109", "title": "A PNG picture shows the last thread over every dot and the background elsewhere", "statement": "For every non-empty design written without guides and shading, with a pen of 0 to 3 dots (3 when not given): the picture is as wide and high as the design (whole dots) plus three; the design's least coordinates come to dot (1, 1); every dot shows the colour of the last thread whose line, widened by the pen across its longer side, covers it (nearly black colours as dark grey, alpha 251), and the background (or transparent) when none does. The threads are those between neighbouring stitches of each run, in the colour numbered by the colour changes before it.", "quantifier": "all designs, thread colours, backgrounds and pens of at most three dots", "why_tests_cant": "every dot of every picture depends on all threads drawn before and after; negative indices wrap silently", "anchors": ["pyembroidery/PngWriter.py:write, PngBuffer.plot, PngBuffer.line_for_point, PngBuffer.background"]}
{"id": "C110", "title": "Every non-empty design can be drawn and every byte is a byte", "statement": "Writing a PNG without guides fails only for a design without stitches (OverflowError); otherwise the buffer has exactly width * height pixels, all of whose four channels are 0..255, for any pen width and with or without shading.", "quantifier": "all designs, colours, pen widths (also zero, negative and huge) and shading", "why_tests_cant": "the shade positions and clamping must stay in range for every line length", "anchors": ["pyembroidery/PngWriter.py:write, PngBuffer.gradient, PngBuffer.plot"]}
{"id": "C111", "title": "The PNG file contains exactly the picture", "statement": "What is written parses as a PNG: signature, the three chunks IHDR, IDAT, IEND with correct lengths and checksums, 8 bit RGBA, and the IDAT data decompresses to the rows of the picture, each with filter byte 0. Sizes must be below 2^32.", "quantifier": "all designs and settings without guides; any checksum function, any compression with an inverse", "why_tests_cant": "the offsets of the rows depend on the size of the picture", "anchors": ["pyembroidery/PngWriter.py:write_png"]}
{"id": "C112", "title": "Shading runs along every thread", "statement": "With fancy=True every thread is shaded by the position along it, dark at both ends and light in the middle, whatever its direction: turning a design by a right angle turns its picture.", "quantifier": "all threads in every direction", "why_tests_cant": "direction and length are unbounded", "anchors": ["pyembroidery/PngWriter.py:PngBuffer.draw_line, PngBuffer.line_for_point, PngBuffer.gradient"]}
{"id": "C113", "title": "Ink stays near the thread", "statement": "Whatever the pen width, a dot farther from every thread than the width of the pen keeps the background.", "quantifier": "all designs and pen widths", "why_tests_cant": "negative and wrapped buffer indices raise no error", "anchors": ["pyembroidery/PngWriter.py:PngBuffer.plot, write"]}
{"id": "C114", "title": "Guides can be drawn on every design", "statement": "Writing a PNG with guides=True succeeds for every non-empty design.", "quantifier": "all designs and positions of the origin", "why_tests_cant": "labels depend on the absolute coordinates and the size", "anchors": ["pyembroidery/PngWriter.py:draw_guides, PngBuffer.draw_text"]}
{"id": "C115", "title": "Encoding a pattern raises no exception", "statement": "Encoding a pattern (get_normalized_pattern, or saving with the default encode) returns a result for every pattern and settings in which given maximum lengths are positive, given scales (in the settings or as MATRIX_SCALE commands before the first END) are not zero on an axis and the needle count is not zero; no matter which commands, known or unknown, the pattern holds.", "quantifier": "all patterns and encoder settings meeting the conditions", "why_tests_cant": "division by the lengths, by the needle count and by the determinant of an accumulated matrix, reached by any order of option and matrix commands", "anchors": ["pyembroidery/EmbEncoder.py: Transcoder", "pyembroidery/EmbMatrix.py: inverse, post_scale"]}
{"id": "C116", "title": "Saving as DST and loading keeps the stitches", "statement": "For every design without explicit transformations, encoded with DST settings and saved with any header texts that fit: encoding and saving succeed, loading the file succeeds with any trim interpolation settings of the reader, and the needle points read back contain one point for each stitch of the design, in order, each within half a unit of it; if the design and settings ask for no ties, sequins or SEW_TO stitches the points are exactly those, however far apart the stitches are.", "quantifier": "all designs with coordinates of any size and fraction, ties, trims, jumps, colour changes, stops and sequins, all header texts, all reader settings", "why_tests_cant": "the encoder, the rounding, the splitting of long movements, the byte format, the header and the trim interpolation interact", "anchors": ["pyembroidery/EmbEncoder.py: Transcoder", "pyembroidery/DstWriter.py: write", "pyembroidery/DstReader.py: read", "pyembroidery/EmbPattern.py: interpolate_trims"]}
{"id": "C117", "title": "Saving as EXP, JEF and PEC and loading keeps the stitches", "statement": "As C116, for the stitch data of EXP, for whole JEF files (of designs that sew, do not begin with thread changes and request no explicit ties) and for PEC blocks: every stitch of the design is read back in order within half a unit of it; for EXP and JEF nothing else is sewn unless ties or SEW_TO stitches were requested.", "quantifier": "all designs meeting the conditions", "why_tests_cant": "the encoder, the rounding, the splitting and the byte formats interact", "anchors": ["pyembroidery/EmbEncoder.py: Transcoder", "pyembroidery/ExpWriter.py", "pyembroidery/ExpReader.py", "pyembroidery/JefWriter.py", "pyembroidery/JefReader.py", "pyembroidery/PecWriter.py: pec_encode", "pyembroidery/PecReader.py: read_pec_stitches"]}
{"id": "C118", "title": "A TBF file holds the name, the threads, the needles and the stitches, and its header describes them", "statement": "Writing a design that ends in some command as TBF, with a name of at most 16 ASCII characters, a TP entry of at most 32, at most 201 threads with 24-bit colours, coordinates below 100000, fewer than ten million commands and at most 256 needle changes, steps of at most 127, needle numbers 1 to 255 and no zero-length jumps, never fails. The header states the number of commands, the number of needle changes, the whole parts of the extents and the end position. Reading the file gives the name without surrounding blanks, the thread colours in order, and every command before the first END with its needle number at its rounded position, followed by one END. A design without commands is refused with OverflowError.", "quantifier": "all names, TP entries, thread lists and designs within the stated limits", "why_tests_cant": "the needle table, the thread table and the stitches sit at fixed offsets behind text fields whose widths depend on every number in the header", "anchors": ["pyembroidery/TbfWriter.py:write", "pyembroidery/TbfReader.py:read"]}
{"id": "C119", "title": "A U01 file holds the stitches, and its header describes them", "statement": "Writing a nonempty design with steps of at most 255, needle numbers 1 to 14 and at most one speed change before each movement as U01 never fails; the header at 0x80 states the whole parts of the extents (y upwards), one more than the number of commands, and the end position; reading the file gives every command before the first END at its rounded position, with speed changes moved just in front of the next movement, and one END. A design without commands gives a file that is read as a single END at the origin.", "quantifier": "all designs within the stated limits", "why_tests_cant": "the header is padded to a fixed length whatever the values in it", "anchors": ["pyembroidery/U01Writer.py:write", "pyembroidery/U01Reader.py:read"]}
{"id": "C120", "title": "An XXX file holds the stitches and the threads, and its header describes them", "statement": "Writing a nonempty design with stitches of at most 123 and jumps of at most 127 units and fewer than 65536 threads of 24-bit colours as XXX never fails; the header states the number of commands less one, the number of threads, width, height, end position and the offset at which the end mark of the stitches is found; reading the file gives every command before the first END at its rounded position (stops as colour changes), one END, and the colours in order. A design without commands is refused with OverflowError.", "quantifier": "all designs and thread lists within the stated limits", "why_tests_cant": "the offset of the end of the stitches is filled in after they have been written and depends on every one of them", "anchors": ["pyembroidery/XxxWriter.py:write", "pyembroidery/XxxReader.py:read"]}
{"id": "C121", "title": "The name of a design does not disturb the rest of its TBF file", "statement": "Whatever the name of a design is, writing it as TBF and reading it back gives the needles and the threads of the design.", "quantifier": "all names", "why_tests_cant": "only names that do not fit the 16 bytes of the field show the effect", "anchors": ["pyembroidery/TbfWriter.py:write", "pyembroidery/TbfReader.py:read"]}
{"id": "C122", "title": "Encoding for machines that change threads by needle names only needles that exist", "statement": "Encoding a design for a format that changes threads by needle, with at most 254 needles set, returns the design's own thread list unchanged, and every needle change that comes out names a needle from 0 to 254; if the design has fewer than 255 commands about threads, that needle is one the design names itself or one between 1 and the number of needles.", "quantifier": "all designs, all settings whose thread change command is NEEDLE_SET and needle count at most 254", "why_tests_cant": "needles are assigned cyclically over change sequences of any length, mixing explicit and automatic numbers", "anchors": ["pyembroidery/EmbEncoder.py:Transcoder.build_thread_change_sequence", "pyembroidery/EmbFunctions.py:encode_thread_change"]}
{"id": "C123", "title": "A design saved as TBF and loaded again has its stitches, its threads and its needles", "statement": "With lengths of at most 127, rounding, no transform and no sequins asked for (the settings the library completes by itself qualify), every design whose own positions are reachable is encoded; if its name, numbers of threads and needle changes fit the header, the TBF file is written and read back with the name, the colour of every thread in order, and every stitch of the design in order at its position to within half a unit per coordinate, with only added needle points on the lines between; without long stitch splitting, ties or sequins exactly those; and the needle changes name the same needles in the same order.", "quantifier": "all designs, thread lists and settings meeting the stated conditions", "why_tests_cant": "the result passes through encoding, splitting, rounding and a binary format; only a proof covers all lengths and positions at once", "anchors": ["pyembroidery/TbfWriter.py:write", "pyembroidery/TbfReader.py:read", "pyembroidery/EmbEncoder.py:Transcoder"]}
{"id": "C124", "title": "A design without speed commands saved as U01 and loaded again has its stitches and its needles", "statement": "With lengths of at most 254, no transform and no sequins asked for (the settings the library completes by itself qualify), every design without SLOW and FAST whose own positions are reachable is encoded, the U01 file is written, and reading it gives every stitch of the design in order at its position to within half a unit per coordinate, with only added needle points on the lines between; without long stitch splitting, ties or sequins exactly those; the needle changes name the same needles in the same order, needles of 15 and more being folded to n mod 15 + 1.", "quantifier": "all designs without speed commands and settings meeting the stated conditions", "why_tests_cant": "positions are not rounded before the differences are taken, so rounding errors would accumulate along a design if the writer lost track", "anchors": ["pyembroidery/U01Writer.py:write", "pyembroidery/U01Reader.py:read", "pyembroidery/EmbEncoder.py:Transcoder"]}
{"id": "C125", "title": "A design saved as XXX with lengths of at most 123 and loaded again has its stitches and its colours", "statement": "With both lengths set to at most 123, rounding, no speeds written, no transform and no sequins asked for, every design whose own positions are reachable is encoded, the XXX file is written, and reading it gives the colours of the encoded design's threads in order and every stitch of the design in order at its position to within half a unit per coordinate, with only added needle points on the lines between; without long stitch splitting, ties or sequins exactly those.", "quantifier": "all designs and settings meeting the stated conditions, fewer than 65536 threads", "why_tests_cant": "covers every split, jump and colour change sequence; with the default length of 124 the claim is false", "anchors": ["pyembroidery/XxxWriter.py:write", "pyembroidery/XxxReader.py:read", "pyembroidery/EmbEncoder.py:Transcoder"]}
{"id": "C126", "title": "U01 files keep the stitches of designs with speed commands", "statement": "Whatever speed commands a design holds, saving it as U01 and loading it again gives the stitches of the design.", "quantifier": "all designs", "why_tests_cant": "the speed is written as the type of the stitches that follow; only particular histories of speed commands and stitches show the effect", "anchors": ["pyembroidery/U01Writer.py:write", "pyembroidery/U01Reader.py:read"]}
{"id": "C127", "title": "Every way of writing a colour as text gives that colour", "statement": "A text #rrggbb or #rgb with digits in either case, or the name of an SVG/CSS colour in any mixture of capital and small letters, sets exactly that colour on a thread, as a colour in a dict, and in comparisons; every other text without # (except random) is black, and no names but those of SVG/CSS mean a colour.", "quantifier": "all 24-bit colours, all spellings", "why_tests_cant": "2^24 colours and every mixture of cases", "anchors": ["pyembroidery/EmbThread.py:EmbThread.set", "pyembroidery/EmbThread.py:EmbThread.parse_string_color", "pyembroidery/EmbThread.py:color_hex"]}
{"id": "C128", "title": "A thread given as a dict takes its attributes from the documented keys", "statement": "For every dict whose colours are well formed, the description comes from desc, else description, else name; the brand from manufacturer, else brand; the catalog number from catalog, else id; the colour from hex, else color, else rgb, as int, text or (r, g, b); attributes without a key stay as they were; the order of the entries never matters.", "quantifier": "all dicts, all threads", "why_tests_cant": "any subset of the keys can be present, with any values", "anchors": ["pyembroidery/EmbThread.py:EmbThread.set", "pyembroidery/EmbThread.py:EmbThread.parse_string_color", "pyembroidery/EmbThread.py:color_hex"]}
{"id": "C129", "title": "A text given as a colour gives a colour of 24 bits or is refused", "statement": "Whatever text is given as a colour, the thread has a colour between 0 and 0xFFFFFF afterwards or an exception is raised.", "quantifier": "all texts", "why_tests_cant": "only texts of particular lengths and characters show the effect", "anchors": ["pyembroidery/EmbThread.py:EmbThread.set", "pyembroidery/EmbThread.py:EmbThread.parse_string_color", "pyembroidery/EmbThread.py:color_hex"]}
{"id": "C130", "title": "Every documented form of a list of points adds the stitches it means", "statement": "For every non-empty list of (x, y) or (x, y, command), of complex numbers or of numbers x0, y0, x1, y1, ..., pattern += list appends exactly those stitches in order and moves the position to the last; add_block does the same and appends one COLOR_BREAK, and the given thread to the thread list; metadata stays as it was.", "quantifier": "all patterns, all non-empty lists of the documented forms, all threads of the documented forms", "why_tests_cant": "lists of any length in several forms", "anchors": ["pyembroidery/EmbPattern.py:EmbPattern.__iadd__", "pyembroidery/EmbPattern.py:EmbPattern.add_block", "pyembroidery/EmbPattern.py:EmbPattern.add_thread"]}
{"id": "C131", "title": "pattern += value gives back the pattern and adds all of the value or nothing", "statement": "After pattern += value the variable still holds the pattern, and if an exception is raised the pattern is as it was before.", "quantifier": "all patterns and values", "why_tests_cant": "only particular values (empty lists, odd numbers of coordinates) show the effect", "anchors": ["pyembroidery/EmbPattern.py:EmbPattern.__iadd__", "pyembroidery/EmbPattern.py:EmbPattern.add_block", "pyembroidery/EmbPattern.py:EmbPattern.add_thread"]}
{"id": "C132", "title": "Equality of threads is an equivalence that agrees with the hash", "statement": "Two threads are equal exactly if their colours agree in 24 bits and all their texts agree, and equal threads have the same hash; this extends to the numbers and texts a thread is compared with.", "quantifier": "all threads, numbers and texts", "why_tests_cant": "a contract over pairs and triples of values", "anchors": ["pyembroidery/EmbThread.py:EmbThread.__eq__", "pyembroidery/EmbThread.py:EmbThread.__hash__"]}
{"id": "C133", "title": "A design put together with add_block has those colour blocks", "statement": "Adding any sequence of non-empty blocks that contain no colour commands, each with a thread, to a new pattern gives a pattern whose threads are those threads and whose colour blocks are exactly those blocks, each with its thread.", "quantifier": "all sequences of blocks and threads in the documented forms", "why_tests_cant": "the blocks are recovered by position arithmetic over the whole pattern", "anchors": ["pyembroidery/EmbPattern.py:EmbPattern.__iadd__", "pyembroidery/EmbPattern.py:EmbPattern.add_block", "pyembroidery/EmbPattern.py:EmbPattern.add_thread", "pyembroidery/EmbPattern.py:EmbPattern.get_as_colorblocks"]}
{"id": "C134", "title": "The stable form of a pattern keeps stitches and threads", "statement": "The stable form of any pattern holds only stitches, colour breaks and sequence breaks; its stitches are those of the pattern in order, and the thread its colour blocks give to each stitch is the thread that the stitch blocks of the pattern give to it.", "quantifier": "all patterns and thread lists", "why_tests_cant": "threads are assigned by counting in two different ways", "anchors": ["pyembroidery/EmbPattern.py:EmbPattern.get_stable_pattern", "pyembroidery/EmbPattern.py:EmbPattern.add_stitchblock", "pyembroidery/EmbPattern.py:EmbPattern.get_as_stitchblock"]}
{"id": "C135", "title": "The stable form of a stable pattern is the same", "statement": "Making the stable form of a pattern twice gives the same stitches with the same threads as making it once.", "quantifier": "all patterns", "why_tests_cant": "needs two applications and two threads to show", "anchors": ["pyembroidery/EmbPattern.py:EmbPattern.get_stable_pattern"]}
{"id": "C136", "title": "The extension of a file name decides the format", "statement": "Reading or writing a file by name uses the one supported format whose extension is the part of the last path component after its last dot, in any mixture of upper and lower case, and no other; the format's reader is given the content of that file and the format's writer's output becomes its content. If no format has this extension, or the name has no extension, reading gives no pattern and writing raises, and neither changes any file.", "quantifier": "all file names, all contents, all patterns and settings", "why_tests_cant": "there are infinitely many names; dots in folders, leading dots and letter case all matter", "anchors": ["pyembroidery/EmbPattern.py:EmbPattern.get_extension_by_filename", "pyembroidery/EmbPattern.py:EmbPattern.static_read", "pyembroidery/EmbPattern.py:EmbPattern.static_write", "pyembroidery/EmbPattern.py:EmbPattern.supported_formats"]}
{"id": "C137", "title": "Every extension a format lists is recognised", "statement": "A file whose name ends in any of the extensions a supported format lists is read and written as this format.", "quantifier": "all file names, all supported formats", "why_tests_cant": "ranges over all names of all listed extensions", "anchors": ["pyembroidery/EmbPattern.py:EmbPattern.supported_formats", "pyembroidery/EmbPattern.py:EmbPattern.static_read", "pyembroidery/EmbPattern.py:EmbPattern.static_write"]}
{"id": "C138", "title": "A save touches only the file it is given", "statement": "Saving a pattern under a name leaves every other file as it was, whether it succeeds or raises. If the file cannot be opened or the format cannot be written, no file and no pattern changes. If the settings ask for encoding, the caller's pattern is unchanged, and an encoder that raises does so before the file is touched.", "quantifier": "all patterns, names, settings and states of the file system", "why_tests_cant": "ranges over every failure point", "anchors": ["pyembroidery/EmbPattern.py:EmbPattern.static_write", "pyembroidery/EmbPattern.py:EmbPattern.write_embroidery"]}
{"id": "C139", "title": "A save that fails does not destroy the file it was to replace", "statement": "If saving a pattern raises, the file of that name holds what it held before.", "quantifier": "all patterns, names, settings and states of the file system", "why_tests_cant": "a crash property over all failure points", "anchors": ["pyembroidery/EmbPattern.py:EmbPattern.write_embroidery", "pyembroidery/DstWriter.py:write"]}
{"id": "C140", "title": "A conversion writes what was read", "statement": "Converting a file of a format that can be read either raises or makes the target the output of the target format's writer on what the source format's reader makes of the source, changing no other file; a conversion that raises changes no file but the target.", "quantifier": "all names, contents, settings", "why_tests_cant": "ranges over all pairs of formats, names and failures; also a conversion of a file onto itself", "anchors": ["pyembroidery/EmbPattern.py:EmbPattern.convert"]}
{"id": "C141", "title": "What is saved under a name is what is read under that name", "statement": "After a successful save, reading the same name gives what the format's reader makes of the output of the format's writer; for DST this has the stitches of the design, as given exactly where no setting adds any.", "quantifier": "all patterns and names, all states of the file system", "why_tests_cant": "composition over all designs and names", "anchors": ["pyembroidery/EmbPattern.py:EmbPattern.static_write", "pyembroidery/EmbPattern.py:EmbPattern.static_read", "pyembroidery/DstWriter.py:write", "pyembroidery/DstReader.py:read"]}
{"id": "C142", "title": "The version asked for is the version of the PES file", "statement": "Asking for version 1 or 6 as a number or as text, with t at the end of the text for a truncated file, under the key version or under the older key where the first is absent, gives a file that starts with the signature of this version, the same for every way to ask; asking for nothing gives version 1.", "quantifier": "all settings, all patterns", "why_tests_cant": "ranges over all patterns and ways to spell the setting", "anchors": ["pyembroidery/PesWriter.py:write"]}
{"id": "C143", "title": "Opening a file gives its content or raises", "statement": "Reading a file into a pattern by name either raises or adds what the format's reader makes of the content of the file.", "quantifier": "all names, contents and patterns", "why_tests_cant": "ranges over all names, formats, and missing files", "anchors": ["pyembroidery/EmbPattern.py:EmbPattern.read", "pyembroidery/EmbPattern.py:EmbPattern.__init__", "pyembroidery/EmbPattern.py:EmbPattern.static_read"]}
{"id": "C144", "title": "Every PES file written without an exception can be read", "statement": "Whatever version the settings ask for, writing a PES file either raises or gives a file that the PES reader accepts.", "quantifier": "all settings, all patterns", "why_tests_cant": "ranges over all values of the setting", "anchors": ["pyembroidery/PesWriter.py:write", "pyembroidery/PesReader.py:read"]}
{"id": "C145", "title": "A conversion that writes nothing raises", "statement": "Converting a file either raises or writes the target.", "quantifier": "all names, contents, settings", "why_tests_cant": "ranges over all names and formats", "anchors": ["pyembroidery/EmbPattern.py:EmbPattern.convert"]}
{"id": "C146", "title": "Encoding sews every stitch with the thread the design gives it", "statement": "For a design without sequence orders or explicit thread or needle numbers, and settings that ask for colour changes: the encoded pattern, read as colour changes going through the encoded thread list, sews every stitch of the design at the place the settings map it to with the thread the design asks for (the first thread until something changes it; a colour change, needle change or effective colour break takes the next one; a filler when the list is too short). The encoded thread list has exactly the threads taken. Without lock stitches, sewn gaps and SEW_TO these are all the stitches.", "quantifier": "all designs of that kind, all settings with colour changes, all thread lists", "why_tests_cant": "ranges over all interleavings of stitches, changes and breaks", "anchors": ["pyembroidery/EmbEncoder.py:Transcoder", "pyembroidery/EmbPattern.py:EmbPattern.get_thread_or_filler"]}
{"id": "C147", "title": "Blocks keep their threads when encoded", "statement": "A pattern made of colour blocks, one thread each, as add_block makes it, is encoded to exactly those threads, and every stitch of block i is sewn with thread i.", "quantifier": "all lists of blocks with sewing in each, all threads, all settings with colour changes", "why_tests_cant": "ranges over all blocks and settings", "anchors": ["pyembroidery/EmbPattern.py:EmbPattern.add_block", "pyembroidery/EmbEncoder.py:Transcoder"]}
{"id": "C148", "title": "A design of colour blocks keeps its blocks and colours in a PES or PEC file", "statement": "Up to 64 blocks of stitches, jumps and trims, neighbouring ones of different colours, encoded with settings that fit the format (such as those completed for it) and saved as PES version 6, PES version 1 or PEC: the loaded pattern has every stitch, in order, in its block and within half a unit of its place, and one thread for each block: in version 6 the thread as PES stores it, in version 1 and PEC a palette colour given by a map from threads to palette colours that is one to one. The stitch data must be smaller than 2^24 bytes, the file than 2^32.", "quantifier": "all designs of that kind, all fitting settings, all metadata in ASCII, all orders of the set of threads", "why_tests_cant": "ranges over all designs; composes encoder, writer and reader", "anchors": ["pyembroidery/EmbEncoder.py:Transcoder", "pyembroidery/PesWriter.py:write", "pyembroidery/PecWriter.py:write", "pyembroidery/PesReader.py:read", "pyembroidery/PecReader.py:read"]}
{"id": "C149", "title": "A design of colour blocks keeps its blocks in DST, EXP and JEF files", "statement": "Blocks of stitches, jumps and trims, encoded with settings that fit the format and saved as DST, EXP or JEF: the loaded pattern has every stitch, in order, after as many colour changes as there are blocks before its own, within half a unit of its place, and no other stitches if there are no lock stitches, sewn gaps or SEW_TO. For JEF there is one palette number for each block: the nearest to its thread, or the nearest other one where the block before has the same number and another thread; neighbouring blocks of different threads have different numbers. The DST counts and extents must fit their header fields, and a JEF design must have fewer than 2^27 blocks.", "quantifier": "all designs of that kind, all fitting settings, all header texts with room, all trim settings of the readers", "why_tests_cant": "ranges over all designs; composes encoder, writer and reader", "anchors": ["pyembroidery/EmbEncoder.py:Transcoder", "pyembroidery/DstWriter.py:write", "pyembroidery/ExpWriter.py:write", "pyembroidery/JefWriter.py:write", "pyembroidery/DstReader.py:read", "pyembroidery/ExpReader.py:read", "pyembroidery/JefReader.py:read"]}
{"id": "C150", "title": "The colours of a design of blocks in a JEF file", "statement": "A design of colour blocks saved as JEF and loaded has one thread of the JEF table for each block: the one closest to the block's thread, or, where the block before was given just that one for a different thread, the closest of the others. Neighbouring blocks of different threads come back in different colours, and a thread of a colour in the table keeps its colour unless the block before was given that colour for a different thread. The design must have fewer than 2^27 blocks.", "quantifier": "all designs of colour blocks, all threads, all settings that fit JEF", "why_tests_cant": "ranges over all colours and all sequences of threads", "anchors": ["pyembroidery/JefWriter.py:write", "pyembroidery/JefReader.py:read", "pyembroidery/EmbThreadJef.py:get_thread_set", "pyembroidery/EmbThread.py:find_nearest_color_index"]}
{"id": "C151", "title": "Neighbouring blocks of one thread have one colour in a JEF file", "statement": "When two neighbouring blocks of a design are sewn with the same thread, a JEF file saved from the design gives both the same colour.", "quantifier": "all designs of colour blocks, all threads", "why_tests_cant": "the defect needs a third block before them with a thread near to theirs", "anchors": ["pyembroidery/JefWriter.py:write"]}
{"id": "C152", "title": "Converting a loaded file keeps every stitch in its colour section", "statement": "A design as the EXP, PEC, DST and JEF readers deliver it (stitches, jumps, trims and colour changes at whole positions, then the end), saved with settings that add no ties and fit the format: read back from EXP, DST or JEF the file has exactly the stitches of the source, each at its exact position and in its colour section, and the readers again deliver such a design; read back from PEC or PES version 6 the stitches of the source appear in order, at their positions and in their sections, in the threads of the sections. JEF threads are one for each section. The first section must be sewn (for PEC and PES every section, with threads for all and at most 64), and the encoded design must fit the header fields.", "quantifier": "all such designs, all threads, all fitting settings, all reader settings for trims", "why_tests_cant": "ranges over all files a reader accepts and all designs they hold", "anchors": ["pyembroidery/PyEmbroidery.py:convert", "pyembroidery/EmbEncoder.py:Transcoder.transcode", "pyembroidery/DstWriter.py:write", "pyembroidery/DstReader.py:read", "pyembroidery/ExpWriter.py:write", "pyembroidery/ExpReader.py:read", "pyembroidery/JefWriter.py:write", "pyembroidery/JefReader.py:read", "pyembroidery/PecWriter.py:write", "pyembroidery/PecReader.py:read", "pyembroidery/PesWriter.py:write"]}
{"id": "C153", "title": "Readers deliver closed designs of few commands", "statement": "Whatever bytes it is given, the EXP reader and the PEC stitch reader deliver a list of stitches, jumps, trims and colour changes at whole positions, with one end command as the last entry. So does the DST reader on any file it can read whose records do not switch sequins on, and the JEF reader on any file it can read without a stop, whatever the settings for trims are.", "quantifier": "all byte strings, all reader settings for trims", "why_tests_cant": "ranges over all byte strings, valid or not", "anchors": ["pyembroidery/ExpReader.py:read_exp_stitches", "pyembroidery/PecReader.py:read_pec_stitches", "pyembroidery/DstReader.py:dst_read_stitches", "pyembroidery/JefReader.py:read_jef_stitches", "pyembroidery/EmbPattern.py:EmbPattern.interpolate_trims"]}
{"id": "C154", "title": "Any number of conversions keeps every stitch", "statement": "A design delivered by a reader and converted any number of times, each time to EXP, DST or JEF with any settings that add no ties and fit the format and read back with any reader settings, has the same number of stitches in the same order, each at the same position and in the same colour section as in the beginning.", "quantifier": "all such designs, all sequences of conversions of any length, all fitting settings", "why_tests_cant": "ranges over unbounded sequences of conversions", "anchors": ["pyembroidery/PyEmbroidery.py:convert", "pyembroidery/EmbEncoder.py:Transcoder.transcode", "pyembroidery/DstWriter.py:write", "pyembroidery/ExpWriter.py:write", "pyembroidery/JefWriter.py:write"]}
{"id": "C155", "title": "Encoding makes no sequins of its own", "statement": "A design without sequin commands is encoded without sequin commands, whatever the settings ask for.", "quantifier": "all designs, all settings", "why_tests_cant": "ranges over all designs and all encoder settings", "anchors": ["pyembroidery/EmbEncoder.py:Transcoder.transcode"]}
{"id": "C156", "title": "An offset counts from the last command", "statement": "A command added with an offset and without a position (stitch, move, stop, trim, color_change, needle_change, sequin_eject, sequin_mode, end) is placed at that offset from the last command of the pattern, or from the origin in an empty pattern, whatever calls built the pattern.", "quantifier": "all histories of drawing, inserting, translating and clearing calls", "why_tests_cant": "ranges over unbounded histories of calls; the position is kept apart from the stitches and has to follow them", "anchors": ["pyembroidery/EmbPattern.py:EmbPattern.add_stitch_relative", "pyembroidery/EmbPattern.py:EmbPattern.insert_stitch_relative", "pyembroidery/EmbPattern.py:EmbPattern.translate", "pyembroidery/EmbPattern.py:EmbPattern.insert"]}
{"id": "C157", "title": "Thread lists without repetition", "statement": "get_singleton_threadlist gives the first thread of each run of equal threads, in order, so that no two neighbours are equal and the runs make up the thread list; get_unique_threadlist has exactly one thread equal to each thread of the list.", "quantifier": "all thread lists", "why_tests_cant": "ranges over all lists of threads, with equality that is not identity", "anchors": ["pyembroidery/EmbPattern.py:EmbPattern.get_singleton_threadlist", "pyembroidery/EmbPattern.py:EmbPattern.get_unique_threadlist", "pyembroidery/EmbThread.py:EmbThread.__eq__"]}
{"id": "C158", "title": "Commands by kind and by number", "statement": "get_match_commands gives exactly the commands of the kind asked for, in order, and the counting functions give their number; get_as_stitches gives each command with its number, its place, its kind and the thread, needle and order it was made with.", "quantifier": "all patterns, all kinds, all thread, needle and order numbers from 0 to 254", "why_tests_cant": "ranges over all patterns and packed commands", "anchors": ["pyembroidery/EmbPattern.py:EmbPattern.get_match_commands", "pyembroidery/EmbPattern.py:EmbPattern.count_stitch_commands", "pyembroidery/EmbPattern.py:EmbPattern.get_as_stitches"]}
{"id": "C159", "title": "A VP3 file keeps each colour section in shape, and within one unit in place", "statement": "Writing VP3 and reading it back gives every colour section all its stitches, in order, all moved by one and the same offset. The first section is not moved at all. If colour changes are made at the last penetration or two or more units away from both axes, no section is moved by more than one unit in x or y. Every section keeps its thread.", "quantifier": "all non-empty patterns with integer coordinates and 16-bit steps, of any width, height and place, whose file is under 2^32 bytes; all thread lists with plain ASCII texts", "why_tests_cant": "rounding of the centre and of the block starts depends on the parity of the extents and on every block's start; errors could add up over blocks", "anchors": ["pyembroidery/Vp3Writer.py: write_vp3_colorblock", "pyembroidery/Vp3Reader.py: vp3_read_colorblock"]}
{"id": "C160", "title": "Encoding stays in the area of the design", "statement": "Encoding a pattern, with any settings, never makes the machine go outside the smallest whole-unit box that holds the origin and the places the settings give to the stitches and jumps of the pattern: every command of the encoded pattern (stitches that split a long one, jumps on the way, lock stitches, thread changes, END) is in that box.", "quantifier": "all patterns without transformation commands, all settings with a positive maximum stitch length", "why_tests_cant": "split stitches, jumps, lock stitches and rounding add positions that no source command names, for every combination of settings", "anchors": ["pyembroidery/EmbEncoder.py: Transcoder.transcode_main", "pyembroidery/EmbEncoder.py: Transcoder.interpolate_gap_stitches", "pyembroidery/EmbEncoder.py: Transcoder.lock_stitch"]}
{"id": "C161", "title": "The needle goes down only in the area of the design", "statement": "In an encoded pattern the needle and the sequins go down only inside the smallest whole-unit box that holds the places the settings give to the stitches and jumps of the pattern; the way from the origin is not sewn.", "quantifier": "all patterns without transformation commands, all settings with a positive maximum stitch length", "why_tests_cant": "lock stitches and split stitches are made wherever the needle happens to be", "anchors": ["pyembroidery/EmbEncoder.py: Transcoder.transcode_main", "pyembroidery/EmbEncoder.py: Transcoder.tie_on"]}
{"id": "C162", "title": "Saving a loaded EXP file again writes the same file", "statement": "Save a pattern as EXP with the settings of the format; load the file and save what was loaded as EXP again. The second file is the first one, byte for byte, if something is sewn before the first colour change in the file. The same holds for every further load and save. More generally, a design whose steps fit the format, that goes down with cut thread only where the needle stands and has no trim of a cut thread is encoded to itself.", "quantifier": "all patterns (any commands, coordinates and threads, fractional too) without commands for ties, sequins, speeds or lengths; all settings that fit EXP for the first save; all settings that ask for nothing but the format's steps for the second", "why_tests_cant": "the encoder adds jumps, trims and splits that depend on the whole history, and its output has to be a fixed point of the encoder for every pattern", "anchors": ["pyembroidery/EmbEncoder.py: Transcoder.transcode_main", "pyembroidery/ExpWriter.py: write", "pyembroidery/ExpReader.py: read_exp_stitches"]}
{"id": "C163", "title": "Loading and saving again never changes a file", "statement": "Load an EXP file that was saved from a pattern and save what was loaded as EXP again: the second file is the first one, byte for byte, whatever the pattern.", "quantifier": "all patterns", "why_tests_cant": "the loss needs several colour changes before the first stitch and shows one change at a time with each save", "anchors": ["pyembroidery/EmbEncoder.py: Transcoder.transcode_main", "pyembroidery/EmbEncoder.py: Transcoder.next_change_sequence", "pyembroidery/ExpWriter.py: write"]}
{"id": "C164", "title": "Rounding differences never accumulate, on floats", "statement": "Writers store rounded differences: round(x - xx), where x is a double and xx the integer position so far. For every design with double coordinates of at most 2^e (e from 0 to 50), the position of every command in the file, the running sum of the differences before it, is within 1/2 + 2^(e-52) of its coordinate on each axis, however many commands come before; whole coordinates are met exactly and the commands are kept.", "quantifier": "all lists of commands of any length, all double coordinates up to 2^50", "why_tests_cant": "drift would need very long designs, and rounding differences of special doubles", "anchors": ["pyembroidery/DstWriter.py: write", "pyembroidery/ExpWriter.py: write"]}
{"id": "C165", "title": "A command at an unchanged position is written without displacement, on floats", "statement": "If a command has the same coordinates as the command before it (as TRIM, STOP and COLOR_CHANGE usually do), the displacement that the writers store for it is zero on both axes, whatever the double coordinates.", "quantifier": "all lists of commands, all double coordinates within the range of the writers", "why_tests_cant": "fails only when x - xx is not a double and rounds to a half, so for doubles one last place next to a half", "anchors": ["pyembroidery/DstWriter.py: write", "pyembroidery/ExpWriter.py: write"]}
{"id": "C166", "title": "Encoding and writing on floats never leave the format's range", "statement": "With float arithmetic rounded at every operation, rounding on, maximum lengths from 1 to M (at most 2047), long stitches split, any translation, scale and rotation in the settings (none by commands of the design) that puts every command within 2^20 units of the origin: encoding raises nothing, every written displacement is within -M..M and zero for commands that do not move the needle; the DST (M = 121), EXP (127), PEC (2047) and JEF (127) writers do not raise or wrap, and reading the data back gives the commands of the encoded pattern at the written positions as the format names them, as in C20.", "quantifier": "all designs with double coordinates, all settings as described, all M from 1 to 2047", "why_tests_cant": "interpolated points are rounded several times on floats and then by the writer; the margin is lost only for special alignments", "anchors": ["pyembroidery/EmbEncoder.py: interpolate_gap_stitches, transcode_main", "pyembroidery/DstWriter.py: write", "pyembroidery/ExpWriter.py: write", "pyembroidery/PecWriter.py: pec_encode", "pyembroidery/JefWriter.py: write"]}
{"id": "C167", "title": "Stitches with float coordinates come back within half a unit", "statement": "Under the conditions of C166, a design saved as EXP, DST or JEF and loaded again has every stitch of the design, in order, within half a unit on each axis of the double coordinates at which the settings put it (its own coordinates without transformations), and no other stitches when neither ties, sequins nor sewn long stitches are asked for; for PEC every stitch is there, in order and as near.", "quantifier": "all designs with double coordinates and all settings as described", "why_tests_cant": "all designs times all settings; two roundings, of the encoder and of the writer, could add up to more than half a unit", "anchors": ["pyembroidery/EmbEncoder.py: transcode_main", "pyembroidery/DstWriter.py: write", "pyembroidery/ExpWriter.py: write", "pyembroidery/ExpReader.py: read_exp_stitches", "pyembroidery/DstReader.py: dst_read_stitches", "pyembroidery/PecReader.py: read_pec_stitches", "pyembroidery/JefReader.py: read_jef_stitches"]}
{"id": "C168", "title": "A ZHS file gives back its design and the texts of its threads", "statement": "Reading a ZHS file that stores a design and up to 255 threads, each with a colour, a chart, a description and a catalogue number of characters other than '&', in the places its two offsets name, gives exactly the stored stitches, jumps and colour changes closed by one END, and exactly as many threads in the same order with their colours. Empty texts are missing texts; the catalogue number is the stored text without its last two characters, and missing if the text is of three characters or less. Texts for threads that are not there are ignored.", "quantifier": "all files, all designs, thread lists, texts and offsets", "why_tests_cant": "texts are found by splitting on two-character marks, and every combination of empty, short and missing texts, counts and offsets would have to be tried", "anchors": ["pyembroidery/ZhsReader.py:read", "pyembroidery/ZhsReader.py:read_zhs_header", "pyembroidery/ZhsReader.py:read_zhs_stitches"]}
{"id": "C169", "title": "Any bytes read as ZHS give a pattern, or fail for one of two reasons", "statement": "Reading any bytes as a ZHS file gives a pattern with END as its last command and no other and as many threads as the count byte says, or raises TypeError, exactly when the file is shorter than 23 bytes or its header offset is at or beyond the end of the file, or raises ValueError, only when the texts of the header are not UTF-8.", "quantifier": "all byte strings", "why_tests_cant": "ranges over all damaged and foreign files", "anchors": ["pyembroidery/ZhsReader.py:read", "pyembroidery/ZhsReader.py:read_zhs_header"]}
{"id": "C170", "title": "Metadata given again in a CSV file replaces what was given before", "statement": "Whatever CSV file is loaded, every metadata name appears once in the pattern, and its value is the one in the last row of metadata with that name: rows of three cells whose first has an at sign and neither an asterisk nor a number sign. No other row changes metadata.", "quantifier": "all files that load", "why_tests_cant": "every mixture of rows, every number of repetitions", "anchors": ["pyembroidery/CsvReader.py:read", "pyembroidery/EmbPattern.py:EmbPattern.metadata"]}
{"id": "C171", "title": "Equal threads are saved the same", "statement": "Replacing the threads of a pattern by threads that compare equal to them (==) changes neither the stitches nor the file, in whatever format the pattern is saved.", "quantifier": "all patterns, all lists of threads equal one by one, all settings and formats", "why_tests_cant": "equality ignores the bits of a colour above the 24th: a test has to guess two representations of the same thread for each format", "anchors": ["pyembroidery/EmbThread.py:EmbThread.__eq__", "pyembroidery/EmbThread.py:EmbThread.__hash__", "pyembroidery/EmbEncoder.py:Transcoder", "pyembroidery/TxtWriter.py:write_normal", "pyembroidery/PesWriter.py:write", "pyembroidery/JefWriter.py:write", "pyembroidery/Vp3Writer.py:write"]}
{"id": "C172", "title": "What is sewn does not depend on the threads", "statement": "Encoding a pattern gives the same stitches, or the same exception, whatever threads the pattern has and however many; recolouring the threads before encoding is the same as recolouring the encoded pattern.", "quantifier": "all patterns, all lists of threads, all functions recolouring threads, all settings, exact and floating-point numbers", "why_tests_cant": "a statement over pairs of runs with arbitrary threads", "anchors": ["pyembroidery/EmbEncoder.py:Transcoder", "pyembroidery/EmbEncoder.py:build_thread_change_sequence"]}
{"id": "C173", "title": "The design part of a PES file shows every stitch in its colour", "statement": "A full (not truncated) PES file of version 1 or 6 contains, besides the PEC part the library reads, the design part that embroidery software shows (CEmbOne/CSewSeg). In it every stitch of the pattern appears once, in order, at its place measured from the corner with least x and greatest y and cut to whole units, in the colour of the thread it is sewn with (the nearest colour of the PEC palette in version 1, exactly that colour among the file's threads in version 6); every run of jumps appears as a travel from the last stitch to where the run ends; and the colour list after the sections gives for each section the colour it carries.", "quantifier": "all encoded patterns with stitches, threads for every colour and 16-bit extents, both PES versions", "why_tests_cant": "The library never reads this part, so a round trip through it cannot notice an error in it; and whether the colour counter stays in step depends on which commands happen to be adjacent.", "anchors": ["pyembroidery/PesWriter.py: write_pes_blocks, write_pes_embsewseg_segments, get_as_segments_blocks, write_pes_sewsegheader", "pyembroidery/EmbPattern.py: get_as_command_blocks"]}
{"id": "C174", "title": "Any history of calls on a matrix does what the calls say", "statement": "After any sequence of calls on a new matrix (scaling, rotating about a point, translating, concatenating lists of matrices before or after, inverting, resetting, @=) the matrix moves every point as the calls composed in their order say: post calls act before what was there, pre calls after it, an inversion undoes it, a reset forgets it. A sequence fails only with ZeroDivisionError, and exactly when it inverts a matrix that moves two different points to the same place. a @ b moves points by b and then by a.", "quantifier": "all sequences of calls with any numbers (exact reals), all affine matrices given to them", "why_tests_cant": "The claim is about sequences of calls of any length and all points.", "anchors": ["pyembroidery/EmbMatrix.py: post_scale, post_translate, post_rotate, post_cat, pre_scale, pre_translate, pre_rotate, pre_cat, inverse, reset, __matmul__, __imatmul__"]}
{"id": "C175", "title": "Matrices can be compared, printed and multiplied in place", "statement": "Two matrices with the same nine numbers compare equal; every matrix can be printed; after m @= n the name m is the product.", "quantifier": "all matrices made by any sequence of calls", "why_tests_cant": "Whether the claim holds depends on the history of the object (whether its numbers sit in a tuple or in a list), not on its value.", "anchors": ["pyembroidery/EmbMatrix.py: __eq__, __str__, __imatmul__, get_identity, matrix_multiply"]}
{"id": "C176", "title": "Loading and saving PEC stitches settles", "statement": "Save a pattern as PEC or PES with the settings of the format, load the stitches and save them again, and load and save those again: the third stitch data are the second, byte for byte, and so are all further ones. If the first encoded design jumps only with cut thread and does not begin with a stop, the second data are the first already. Whatever bytes are loaded as PEC stitches, saving what was loaded succeeds.", "quantifier": "all patterns (any coordinates, threads and commands) without commands for ties, sequins, speeds or lengths; all bytes after the stitch data; all threads given to the loaded designs", "why_tests_cant": "A test follows one file through a few saves; that saving reaches a fixed point after two saves is a statement about all designs and all lengths.", "anchors": ["pyembroidery/PecWriter.py: pec_encode, write_stitch, write_jump, write_trimjump", "pyembroidery/PecReader.py: read_pec_stitches", "pyembroidery/EmbEncoder.py: Transcoder.transcode_main"]}
{"id": "C177", "title": "Loading a PEC file and saving it again never changes its stitches", "statement": "Load the stitches of a PEC file that was saved from a pattern and save them as PEC again: the second stitch data are the first, byte for byte, whatever the pattern.", "quantifier": "all patterns", "why_tests_cant": "The counterexample needs a jump with uncut thread followed by a stitch along one axis; tests with other designs pass.", "anchors": ["pyembroidery/PecWriter.py: pec_encode", "pyembroidery/PecReader.py: read_pec_stitches"]}
{"id": "C178", "title": "The lengths, extents and counts in a VP3 file are right", "statement": "A reader that follows every length field of a written VP3 file (file block, design block, colour blocks, stitch blocks, texts) arrives exactly at the end of the file, with no byte left over in any block. The header has the smallest box around all commands and the number of commands other than END; the design block has the middle of that box to within half a unit, its half sizes to within half a unit, and its exact width and height, and as many colour blocks as there are colours. Colour block k has thread k (24-bit colour, catalogue number, description or #rrggbb, brand), starts where colour k starts (the origin for the first) to within half a unit, has the exact travel from that start to the last command of the colour, and its stitch bytes, read by a strict decoder, are the steps between penetrations, a trim for every trim and one for END.", "quantifier": "all non-empty patterns with integer coordinates within ten million and fewer than 65535 colour changes, whose file is under 2^32 bytes; all thread lists with plain ASCII texts; stitch bytes for 16-bit steps", "why_tests_cant": "the lengths are patched into place-holders after the blocks are written and nest four deep; the library itself ignores most of them when it reads, so a round trip cannot notice a wrong one", "anchors": ["pyembroidery/Vp3Writer.py: write, write_file, write_design_block, write_vp3_colorblock, vp3_write_thread, write_stitches_block, vp3_patch_byte_offset, get_as_colorblocks"]}
{"id": "C179", "title": "The number of colours in a VP3 header is the number of colour blocks", "statement": "The number of colours in the header of a written VP3 file is the number of colour blocks in the file.", "quantifier": "all patterns as in C178", "why_tests_cant": "the count is written as one byte without a check; tests do not use hundreds of colours", "anchors": ["pyembroidery/Vp3Writer.py: write_file (line 101)"]}
{"id": "C180", "title": "A loaded DST file survives being saved", "statement": "Take any DST file that loads, whose stitch bytes have no record that switches sequin mode, whose colour changes do not move the needle, in which something is sewn before the first colour change, and from which fewer than ten million commands are loaded. Save the loaded pattern as DST with settings that only set DST's own step lengths (the format's defaults are such), with a title that fits the header. Loading the new file gives exactly the same commands at the same positions, including the trims that the reader inferred from jumps.", "quantifier": "every byte string as file, every trim_at of 2 or more, every list of threads, settings and header texts as described", "why_tests_cant": "The reader infers trims and removes jumps by rewriting the list while it walks over it, and the writer turns trims back into jumps; a test compares this for some files, not for every byte string.", "anchors": ["pyembroidery/DstReader.py: dst_read_stitches, read", "pyembroidery/DstWriter.py: write", "pyembroidery/EmbPattern.py: interpolate_trims", "pyembroidery/EmbEncoder.py: Transcoder.transcode"]}
{"id": "C181", "title": "Saving a loaded DST file reaches a fixed point at once", "statement": "Under the conditions of C180: load a file, save it, load the new file and save that again with the same title and author texts. The second saved file is the first saved file, byte for byte, whatever the threads and (plain) settings of the two saves.", "quantifier": "every byte string as file, all settings, threads and header texts as in C180", "why_tests_cant": "Equality of the bytes of repeated saves must hold for every design that the reader can produce.", "anchors": ["pyembroidery/DstReader.py: dst_read_stitches, read", "pyembroidery/DstWriter.py: write", "pyembroidery/EmbPattern.py: interpolate_trims", "pyembroidery/EmbEncoder.py: Transcoder.transcode"]}
{"id": "C182", "title": "Loading and saving DST files never changes the design", "statement": "For every DST file without sequin records: the commands loaded from the file that results from loading and saving are those loaded at first, and saving the result again gives the same bytes.", "quantifier": "every byte string as file without sequin records", "why_tests_cant": "It is true of all files that tests usually contain; it fails for colour changes before the first stitch (each save drops one) and for colour change records that also move.", "anchors": ["pyembroidery/DstReader.py: dst_read_stitches, read", "pyembroidery/DstWriter.py: write", "pyembroidery/EmbPattern.py: interpolate_trims", "pyembroidery/EmbEncoder.py: Transcoder.transcode"]}
{"id": "C183", "title": "Fractional designs survive VP3 files to within a unit", "statement": "A design with any fractional coordinates within 1.6 m of the origin, written to a VP3 file and loaded, comes back with every stitch in its colour section and in order, on each axis less than one unit (0.1 mm) from where it was, but for one offset shared by all stitches of the section. The first section has no offset; if every colour change is made at least two units from both axes, all offsets are less than two units. The threads come back in order with colour, catalog number, description and brand.", "quantifier": "every non-empty pattern of rational coordinates with stitches, trims, jumps, stops, sequins and colour changes (END at most last), every thread list with plain texts, every size of file below 4 GiB", "why_tests_cant": "The writer cuts fractions off at four different places (steps, section starts, middle, ends) and counts on from the rounded positions; errors that would accumulate over thousands of stitches do not show in short tests.", "anchors": ["pyembroidery/Vp3Writer.py: write, write_design_block, write_vp3_colorblock, write_stitches_block", "pyembroidery/Vp3Reader.py: read, vp3_read_colorblock"]}
{"id": "C184", "title": "Whole way through a VP3 file", "statement": "Any pattern without speed and matrix commands whose places, as the settings put them, lie within 1.6 m of the origin can be encoded and saved as VP3 with the settings that saving completes, and loading it again gives every stitch of the design, in order, with its thread, less than a unit from its place but for the offset of its section (as in C183); without ties, sequins and sewn gaps there are no other stitches.", "quantifier": "every pattern, thread list (also too short), settings with colour changes, geometry of splitting that stays between the points", "why_tests_cant": "Encoding, writing and reading each make their own changes; a test can only compare a few finished designs.", "anchors": ["pyembroidery/EmbEncoder.py: Transcoder.transcode", "pyembroidery/EmbPattern.py: write_embroidery", "pyembroidery/Vp3Writer.py: write", "pyembroidery/Vp3Reader.py: read"]}
{"id": "C185", "title": "Speed commands do not move stitches in VP3 files", "statement": "A SLOW or FAST command in a design has no influence on where the stitches of the saved VP3 file are.", "quantifier": "every design with speed commands", "why_tests_cant": "The loss only shows when a jump comes before the speed command; sample designs have no speed commands.", "anchors": ["pyembroidery/Vp3Writer.py: write_stitches_block", "pyembroidery/EmbEncoder.py: slow_command_here, fast_command_here"]}
{"id": "C186", "title": "No stitch of a VP3 file is far off", "statement": "A stitch of a design with fractional coordinates comes back from a VP3 file at most three units (0.3 mm) from its place.", "quantifier": "every design within the field", "why_tests_cant": "The errors of sections add up only if colour changes lie on an axis, and only over many sections.", "anchors": ["pyembroidery/Vp3Writer.py: write_vp3_colorblock, write_stitches_block", "pyembroidery/Vp3Reader.py: vp3_read_colorblock"]}
{"id": "C187", "title": "Saving a loaded VP3 file again and again keeps it", "statement": "However often a design is saved as VP3 and loaded again, its stitches stay within one unit of where they were.", "quantifier": "every design with whole coordinates and every number of savings", "why_tests_cant": "Each saving moves a section by at most one unit, which tests of a single round trip tolerate.", "anchors": ["pyembroidery/Vp3Writer.py: write_design_block, write_vp3_colorblock", "pyembroidery/Vp3Reader.py: vp3_read_colorblock"]}
{"id": "C188", "title": "Which files make the readers of JEF, PEC, PES, TBF, VP3 and XXX fail", "statement": "Reading arbitrary bytes ends for each of these formats, and it fails exactly as follows. JEF: TypeError if the file has fewer than 28 bytes or ends inside the colour table announced at byte 24; otherwise IndexError if the stitches change threads at least as often as there are colours (at least once if there are none); otherwise the file is read. PEC: TypeError if the file has fewer than 525 bytes, otherwise it is read. PES: TypeError if there are not 12 bytes or not 517 bytes from the place named at byte 8 on; otherwise it is read, except that a thread table cut off in the header of version 5 or above also is a TypeError. TBF: AttributeError if the 16 bytes of the name are not UTF-8; otherwise IndexError if there are more needle changes than entries of the needle table; otherwise it is read. XXX: the file is read exactly if an end mark follows its records; a file cut anywhere before the mark is a TypeError and gives nothing. VP3: a pattern, a TypeError or an IndexError, nothing else.", "quantifier": "every list of bytes (values 0 to 255) read as one of the six formats", "why_tests_cant": "The files are arbitrary bytes: no finite set of damaged files shows which failures can occur and that there are no others.", "anchors": ["pyembroidery/JefReader.py: read, read_jef_stitches", "pyembroidery/PecReader.py: read, read_pec, read_pec_graphics, map_pec_colors", "pyembroidery/PesReader.py: read, read_pes_header_version_5 to _10", "pyembroidery/TbfReader.py: read", "pyembroidery/XxxReader.py: read", "pyembroidery/Vp3Reader.py: read, vp3_read_colorblock"]}
{"id": "C189", "title": "Transformation commands in a design move exactly the commands after them", "statement": "When a design with MATRIX_TRANSLATE, MATRIX_SCALE_ORIGIN, MATRIX_ROTATE_ORIGIN, MATRIX_SCALE, MATRIX_ROTATE and MATRIX_RESET commands is encoded, every stitch up to END is sewn, in order, at the place given by the transformation settings applied after the transformation commands before it, the latest first (rounded to a nearest whole place if rounding is asked for); MATRIX_SCALE and MATRIX_ROTATE have as centre the place where the needle is, MATRIX_RESET drops everything including the settings. Without tie stitches, sewn gaps and sequins there are no other penetrations. (If the design has MATRIX_SCALE or MATRIX_ROTATE it has no STITCH_BREAK and SEQUIN_EJECT.) Exact arithmetic.", "quantifier": "all designs, all encoder settings, all real coordinates", "why_tests_cant": "unbounded sequences of transformations interleaved with stitches, jumps and colour changes; the centre depends on the whole history", "anchors": ["pyembroidery/EmbEncoder.py: transcode_main", "pyembroidery/EmbMatrix.py: post_translate, post_scale, post_rotate, inverse"]}
{"id": "C190", "title": "Where an added pattern is sewn", "statement": "Adding a pattern with a displacement, a scale and a rotation and encoding the result sews the stitches of the first pattern where they were sewn without it, and every stitch of the added one at its own place moved by the displacement, then rotated and then scaled about the place where the first pattern leaves the needle (then transformed as the settings ask). (Both patterns without transformation commands, STITCH_BREAK and SEQUIN_EJECT, the first without an END in its middle; no rounding; exact arithmetic.)", "quantifier": "all pairs of patterns that share no stitch object, all displacements, scales and angles, all settings without rounding", "why_tests_cant": "three transformation commands whose centres are recomputed through an inverted matrix; depends on where the first pattern ends", "anchors": ["pyembroidery/EmbPattern.py: add_pattern", "pyembroidery/EmbEncoder.py: transcode_main"]}
{"id": "C191", "title": "An appended translation moves what follows by the given amount", "statement": "After append_translation(x, y), every stitch added at absolute coordinates is sewn at these coordinates moved by (x, y).", "quantifier": "all patterns, all offsets, all later stitches", "why_tests_cant": "holds for every pattern whose last position is the origin; fails for all others", "anchors": ["pyembroidery/EmbPattern.py: append_translation, add_stitch_relative", "pyembroidery/EmbEncoder.py: transcode_main"]}
{"id": "C192", "title": "A preview picture printed as text shows its pixels", "statement": "get_graphic_as_string gives one line for each row of the picture (the last one short if the picture is cut short), and in it, from left to right, the text for a set pixel where the pixel is set and the text for an unset one elsewhere; a picture of stride * height bytes has height lines of 8 * stride pixels. With a stride of 0 it raises ValueError.", "quantifier": "all pictures, all strides of at least 0, all texts for set and unset", "why_tests_cant": "every picture and every stride; cut pictures", "anchors": ["pyembroidery/PecGraphics.py:get_graphic_as_string"]}
{"id": "C193", "title": "The last stroke on a pixel decides it", "statement": "After any sequence of graphic_mark_bit and graphic_unmark_bit at places within a picture, a pixel is set if the last stroke at it was a mark, unset if it was an unmark, and unchanged if there was none; the picture keeps its size and its bytes stay bytes.", "quantifier": "all pictures of any stride and height, all sequences of strokes within them", "why_tests_cant": "any number of strokes in any order on pixels sharing bytes", "anchors": ["pyembroidery/PecGraphics.py:graphic_mark_bit", "pyembroidery/PecGraphics.py:graphic_unmark_bit"]}
{"id": "C194", "title": "Preview pictures survive CSV files as text", "statement": "A pattern with preview pictures in its metadata (as loaded from PEC or PES) saved as CSV loads back with the same stitches and the same metadata names, each picture having become a text: a newline and then its rows, a number sign for each set pixel and a space for each other one; provided each picture has a positive stride and its text at most 131072 characters, and the rest can be stored in CSV (C66).", "quantifier": "all patterns whose stitches, threads and texts CSV can store, all pictures", "why_tests_cant": "every picture, every layout", "anchors": ["pyembroidery/CsvWriter.py:write_metadata", "pyembroidery/PecGraphics.py:get_graphic_as_string", "pyembroidery/CsvReader.py:read"]}
{"id": "C195", "title": "A loaded PEC file can be saved as CSV", "statement": "Every PEC file that loads can be saved as CSV.", "quantifier": "all PEC files that load", "why_tests_cant": "the files that fail have a zero in one byte", "anchors": ["pyembroidery/CsvWriter.py:write_metadata", "pyembroidery/PecReader.py:read_pec", "pyembroidery/PecReader.py:read_pec_graphics"]}
{"id": "C196", "title": "Encoding a design again changes nothing", "statement": "Take the result of encoding a design (get_normalized_pattern) with settings that use colour changes, 1 to 254 needles and a known treatment of sequins, where the design itself contains no tie commands and leaves the choice of threads to the encoder. If the result sews before its first colour change, has no sequins and at most 254 colour changes, then encoding it once more, with settings that ask for nothing (no ties, explicit trims, full jumps, rounding or transformation; maximum lengths absent or not exceeded by any step), gives exactly the same stitches, with the same coordinates and the same command words including the numbers of thread and needle, and exactly the same thread list. This is so in the floating-point arithmetic Python uses.", "quantifier": "all designs and settings as described, all double-precision coordinates", "why_tests_cant": "idempotence over every design and pair of settings; a test compares one design", "anchors": ["pyembroidery/EmbEncoder.py: Transcoder", "pyembroidery/EmbPattern.py: get_normalized_pattern"]}
{"id": "C197", "title": "Encoding a design again never changes anything, whatever it holds", "statement": "For every design, encoding the encoded design once more with the same default settings gives the same commands and the same threads.", "quantifier": "all designs", "why_tests_cant": "a universal claim about composition; the counterexamples need particular command sequences", "anchors": ["pyembroidery/EmbEncoder.py: Transcoder.build_thread_change_sequence, get_as_thread_change_sequence_events"]}
{"id": "C198", "title": "Encoding a pattern onto itself leaves exactly its encoding", "statement": "For every pattern, settings and random fillers, also when other patterns share its stitch objects: transcoding a pattern with itself as the destination replaces it by exactly its encoding (nothing of the old stitches or threads left over), with its metadata and at the origin; every other pattern stays as it was and shares no stitch with it afterwards; the result equals what get_normalized_pattern returns as a new pattern; and the call succeeds whenever encoding does.", "quantifier": "all patterns, settings and sharing of stitch objects between patterns, in any arithmetic", "why_tests_cant": "needs every pattern, every setting and every way objects can be shared", "anchors": ["pyembroidery/EmbEncoder.py:Transcoder.transcode", "pyembroidery/EmbPattern.py:EmbPattern.copy", "pyembroidery/EmbPattern.py:EmbPattern.clear"]}
{"id": "C199", "title": "Colour sections with the same palette number are sewn with the same thread", "statement": "For every file and every stitch section read from it: the palette numbers of the colour sections are the bytes from offset 49 of the section (as many as byte 48 says, plus one), modulo 65. If the header names no threads the sections take the palette's; if it names at least one per section the named threads are used as they stand; otherwise sections with the same number share one thread, the named threads go to the different numbers in the order in which these first occur, and the palette serves the numbers for which none is left.", "quantifier": "all byte sequences accepted as a PEC section, all lists of named threads", "why_tests_cant": "tables of any length with any repetitions", "anchors": ["pyembroidery/PecReader.py:read_pec", "pyembroidery/PecReader.py:map_pec_colors", "pyembroidery/PecReader.py:process_pec_table", "pyembroidery/PecReader.py:process_pec_colors"]}
{"id": "C200", "title": "The lengths in an INF file lead to every thread", "statement": "For every list of threads with ASCII names (below 65525 characters per record, 4 GiB in all): the INF file written begins with 1, 8, the number of bytes after that field and the number of threads, and a program that skips from record to record by the recorded lengths finds exactly one record per thread, in order, holding its number, its red, green and blue, its needle, its description and its chart, and ends at the end of the file.", "quantifier": "all lists of threads with ASCII names", "why_tests_cant": "lists and names of any length", "anchors": ["pyembroidery/InfWriter.py:write", "pyembroidery/InfWriter.py:patch_byte_offset"]}
{"id": "C201", "title": "A CSV file reads the same however its fields are quoted", "statement": "For every table of fields of at most 131072 characters without carriage returns: if two CSV files hold that table - each field bare or quoted with its quotation marks doubled, each line ended by LF, CR or CRLF, the last perhaps not ended - reading them gives the same pattern or the same exception, namely that of the rows of the table.", "quantifier": "all tables, all choices of quoting for every field and of line end for every line", "why_tests_cant": "tables of any size and exponentially many ways to write each", "anchors": ["pyembroidery/CsvReader.py:read", "pyembroidery/EmbPattern.py:EmbPattern.read_embroidery"]}
{"id": "C202", "title": "Compressed HUS data expands to what the format says", "statement": "For every byte string that is a compressed section by the format's grammar - blocks of up to 65535 tokens, each headed by its number of tokens and its three codes (lengths, characters, distances; constant or canonical, lengths in the packed notation with left-out zeros and runs), the tokens bytes or copies of 3 to 256 bytes from a distance back, ended by the end character or the end of the data - expanding it gives exactly the bytes the tokens stand for, overlapping copies included, when no expected size is given or one at least that of the result; in particular a section stands for only one result.", "quantifier": "all byte strings, sequences of blocks, codes, tokens and expected sizes", "why_tests_cant": "streams combine code tables, block boundaries and overlapping references without bound; a test decodes a few files", "anchors": ["pyembroidery/EmbCompress.py: EmbCompress.decompress, load_block, load_character_length_huffman, load_character_huffman, load_distance_huffman, get_token, get_position, read_variable_length, pop, get_bits", "pyembroidery/EmbCompress.py: Huffman.build_table, Huffman.lookup"]}
{"id": "C203", "title": "Saving a JEF file over and over settles at the second save", "statement": "Take any JEF file without stops, with steps of at most 127 units, in which something is sewn before the first colour change. It can be loaded and saved with JEF's own settings (trims off), whatever the trim distance and whatever threads are used. The new file is again of this sort, and the same stitches and colour changes at the same places are loaded from it. Loading that file and saving it gives a second file; loading the second file and saving it gives the second file again, byte for byte (with the same date text). If in what was loaded at first the needle, with the thread cut, goes down only where it already stands, the second file is already the first. In general it is not: there is a file whose second save differs from the first.", "quantifier": "all JEF files of the sort described, all trim distances, all threads for the first save, all settings that ask for nothing but JEF's steps, all dates of 14 bytes", "why_tests_cant": "a test saves a few files once or twice; that the jumps, trims, palette numbers, sizes and counts of every file come to rest after exactly two saves involves the reader's trim interpolation, the encoder and the writer together", "anchors": ["pyembroidery/JefReader.py:read_jef_stitches", "pyembroidery/JefReader.py:read", "pyembroidery/JefWriter.py:write", "pyembroidery/EmbPattern.py:interpolate_trims", "pyembroidery/EmbEncoder.py:Transcoder", "pyembroidery/EmbThreadJef.py:get_thread_set"]}
{"id": "C204", "title": "Where trims appear in a loaded JEF file", "statement": "The JEF format has no trims. What is loaded from a JEF file without stops, without a count of jumps for trims and with clipping on (both as by default), is what is stored in it, with these two changes and no others. Before a run of jumps there is a trim, at the place where the run begins, exactly if the thread is not cut there and some jump of the run goes further than the trim distance from that place in x or in y; the distance is given in millimetres, ten units each, and without a distance there are no trims. The thread counts as cut at the beginning and after a colour change, until something is sewn. And of a run, the jumps up to the last that leads back to where it began are left out.", "quantifier": "all JEF files without stops, all trim distances, and none", "why_tests_cant": "the trims depend on every jump since the last stitch, on whether the thread is cut, and on the unit of the distance; a test sees a few files and one distance", "anchors": ["pyembroidery/JefReader.py:read", "pyembroidery/EmbPattern.py:EmbPattern.interpolate_trims"]}
{"id": "C205", "title": "VP3, PEC and INF files can be written and read anywhere in a stream", "statement": "Writing a VP3, PEC or INF file to an open stream puts the bytes of the file, the same as in a file of its own, over what the stream holds from its position on, and leaves the stream behind them; everything before the position and behind the file stays as it was. If the write raises, what stood before the position is still there. A VP3 or PEC file that begins in the middle of a stream is read from there exactly as from a file of its own. So designs can be appended to a stream one after the other.", "quantifier": "all patterns, all stream contents, all positions inside them", "why_tests_cant": "the writers jump back to fill in lengths, up to four levels deep; whether a jump counted from the beginning of the stream or from the file cannot be seen in tests that write to empty files", "anchors": ["pyembroidery/Vp3Writer.py:vp3_patch_byte_offset", "pyembroidery/Vp3Writer.py:write_file", "pyembroidery/PecWriter.py:write_pec_block", "pyembroidery/InfWriter.py:patch_byte_offset", "pyembroidery/Vp3Reader.py:read", "pyembroidery/PecReader.py:read_pec"]}
{"id": "C206", "title": "DST, U01 and JEF files can be written and read anywhere in a stream", "statement": "A DST, U01 or JEF file appended to a stream that already holds something, and read from where it begins, gives the same design as a file of its own.", "quantifier": "all patterns, all stream contents", "why_tests_cant": "tests write to empty files", "anchors": ["pyembroidery/DstWriter.py:write", "pyembroidery/U01Writer.py:write", "pyembroidery/JefReader.py:read"]}
{"id": "C207", "title": "Equal patterns stay equal under the same calls", "statement": "== between patterns holds exactly when they have the same stitches and threads in the same order, it is an equivalence, and != is its opposite. When the same calls are made on two equal patterns, the outcomes are the same and the patterns are still equal.", "quantifier": "all pairs of patterns, all histories of building calls that made them (calls with offsets, absolute positions, insertions, raw commands, translations, threads, clear), and all further calls", "why_tests_cant": "a test compares two patterns at one moment; what later calls do depends on hidden state (the place offsets count from) that == does not look at, so only a statement over all histories says when equal patterns may be exchanged", "anchors": ["pyembroidery/EmbPattern.py:__eq__", "pyembroidery/EmbPattern.py:__ne__", "pyembroidery/EmbPattern.py:add_stitch_relative", "pyembroidery/EmbPattern.py:insert_stitch_relative", "pyembroidery/EmbPattern.py:translate"]}
{"id": "C208", "title": "Saving a loaded CSV file reaches a fixed point at once", "statement": "When a CSV file is loaded and saved as CSV, loading the new file gives the same stitches, metadata and thread colours, and however often that file is loaded and saved again, it does not change by a byte.", "quantifier": "all byte strings that load as CSV (from any program, with any quoting and line ends), all three column layouts, any number of further saves", "why_tests_cant": "a test saves one pattern once; whether texts, missing cells, colours and numbers drift depends on the file and on how often it is saved", "anchors": ["pyembroidery/CsvReader.py:read", "pyembroidery/CsvWriter.py:write", "pyembroidery/CsvWriter.py:csv"]}
{"id": "C209", "title": "Saving a loaded XXX file settles at the first save", "statement": "Take any XXX file with steps of at most 123 units in which something is sewn before the first colour change, with fewer than 65535 colour changes. It can be loaded and saved as XXX with the format's own settings, whatever threads are used. The new file is again of this sort; loaded, it gives the same commands at the same places, except for trims of a thread that is already cut, and the colour of each thread that was given (one more colours than colour changes). Loading the new file and saving it with its own colours gives it again, byte for byte, header and colour table included. The bound of 123 matters: there is a file with a stitch of 124 units, which the format's settings allow, that comes back as a jump when the file is loaded and saved.", "quantifier": "all XXX files of the sort described, all lists of threads for the first save, any thread in the place of one the design does not have, all settings that ask for nothing but steps of XXX for each save", "why_tests_cant": "a test saves a few files; that the jumps, trims, counts, bounds and colours of every file are at rest after one save is a statement about all files and about the encoder, the writer and the reader together", "anchors": ["pyembroidery/XxxReader.py:read", "pyembroidery/XxxWriter.py:write", "pyembroidery/EmbEncoder.py:Transcoder.transcode_main"]}
{"id": "C210", "title": "A pattern saved as JSON comes back from the text of the file", "statement": "Saving a pattern as .json and reading the text of that file gives back every stitch with the same coordinates (ints as ints, floats as floats) and the same command with its thread, needle and order; every thread with its 24-bit colour and its description, catalogue number, details, brand, chart and weight, present or absent; and every entry of the metadata that is text, int, bool or finite float, under its key. This holds for all Unicode text, quotation marks, control characters, characters beyond 16 bits and single surrogates included, except text in which a high surrogate stands directly before a low one: those two come back as one character. The file consists of printable ASCII and line feeds only, so the encoding of the platform does not matter.", "quantifier": "every pattern whose commands have names, every thread and metadata text without a surrogate pair, every finite float that repr writes and float reads back", "why_tests_cant": "The texts, numbers and lengths are unbounded, and the escaping of one character depends on the next; tests try a few.", "anchors": ["pyembroidery/JsonWriter.py: write, decoded_name", "pyembroidery/JsonReader.py: read, decoded_command"]}
{"id": "C211", "title": "A JSON file that was cut short is refused", "statement": "If any characters are missing at the end of a saved .json file, reading it raises ValueError before anything is added to the pattern: a partial design is never returned. Blanks behind the file change nothing, and anything else behind it (a second file, for example) makes reading raise ValueError.", "quantifier": "every pattern (any commands), every place at which the file is cut, every text behind it", "why_tests_cant": "The place of the cut ranges over all positions of files of any length; tests try a few.", "anchors": ["pyembroidery/JsonWriter.py: write", "pyembroidery/JsonReader.py: read"]}
{"id": "C212", "title": "Loading a JSON file and saving it settles at the first save", "statement": "Take any .json file that can be loaded: written by hand, with any blanks, escapes, order of members and repeated keys. It can be saved again exactly if every thread in it has a colour. If no stitch is a NO_COMMAND, then the file saved from it can be loaded, with the same coordinates, the commands cut to 32 bits and the metadata that is text, int, bool or float; and saving that gives the saved file again, character for character. A file with a NO_COMMAND can be loaded, but what is saved from it cannot be loaded any more.", "quantifier": "every text without surrogates (all a decoded file can hold) that is loaded without error; thread attributes that are text or null, coordinates that are numbers, finite floats", "why_tests_cant": "All texts that parse, of any length, nesting and spelling; tests try files the library wrote itself.", "anchors": ["pyembroidery/JsonReader.py: read, decoded_command", "pyembroidery/JsonWriter.py: write, decoded_name", "pyembroidery/EmbFunctions.py: get_common_name_dictionary, get_command_dictionary"]}
{"id": "C213", "title": "JSON files load the same with any line ends", "statement": "A .json file that can be loaded is loaded the same, to the last stitch and text, if every line feed in it is turned into a carriage return and line feed, a carriage return, or any other blanks: so a design saved on a system whose text mode writes CR LF (the file is opened in text mode for writing but as bytes for reading) comes back as C210 says. Line ends inside texts are escaped and are kept.", "quantifier": "every text that can be loaded, every non-empty run of blanks in place of a line feed", "why_tests_cant": "Files of any length and line ends the machine that runs the tests does not write.", "anchors": ["pyembroidery/JsonWriter.py: WRITE_FILE_IN_TEXT_MODE, write", "pyembroidery/JsonReader.py: read", "pyembroidery/EmbPattern.py: static_read, write_embroidery"]}
{"id": "C214", "title": "The generic writer's statistics are true of the pattern", "statement": "In every template of the generic writer, a field naming a statistic - the number of commands of any kind, stitch_total, thread_total, the four extents, width and height, in units or mm - is filled with the true number of the pattern: the file is the one obtained with that number written in the template in place of the field. Doubled braces are written once.", "quantifier": "all patterns, all sets of templates made of words and plain fields, all ways of writing numbers", "why_tests_cant": "templates can name the statistic anywhere, before, between and after commands that add values of their own to the same dictionary", "anchors": ["pyembroidery/GenericWriter.py:GenericWriter.write, set_document_statistics, update_positions, update_command, write_opens, write_segment, write_closes"]}
{"id": "C215", "title": "Metadata does not falsify the generic writer's own values", "statement": "If the templates name only statistics, thread values in the thread entry and values of the commands in the templates of commands, the file does not depend on the metadata, even if items of the metadata have these very names.", "quantifier": "all patterns, all pairs of metadata, all such sets of templates without a metadata entry", "why_tests_cant": "an item of metadata may have any name", "anchors": ["pyembroidery/GenericWriter.py:GenericWriter.write, set_document_statistics, update_positions, update_command, write_opens, write_segment, write_closes"]}
{"id": "C216", "title": "The generic writer lists all metadata and threads", "statement": "With a metadata entry and a thread entry, the file lists one metadata entry for each item and then one thread entry for each thread, in order, numbered from 0, each with the item's own values (None for what a thread does not know).", "quantifier": "all patterns and all entries made of words and the names of their values", "why_tests_cant": "the number of items and their texts are unbounded", "anchors": ["pyembroidery/GenericWriter.py:GenericWriter.write, set_document_statistics, update_positions, update_command, write_opens, write_segment, write_closes"]}
{"id": "C217", "title": "A colour's template shows that colour's thread", "statement": "In the templates of the generic writer written for a colour, the thread values are those of the colour's own thread.", "quantifier": "all patterns and sets of templates", "why_tests_cant": "depends on the order of threads, the number of colours and on whether thread entries are asked for", "anchors": ["pyembroidery/GenericWriter.py:GenericWriter.write, set_document_statistics, update_positions, update_command, write_opens, write_segment, write_closes"]}
{"id": "C218", "title": "Colour files can be converted into each other any number of times", "statement": "Threads loaded from any EDR, COL or INF file keep their colours through any sequence of saves and loads in these three formats, none of which fails; and a colour file saved from any threads is written again byte for byte when it is loaded and saved in its own format. Where an INF file is saved on the way, the texts of the threads are ASCII, fit its length field, and there are fewer than 2^32 threads (C65 shows that other texts break INF); threads loaded from EDR and COL files always have such texts.", "quantifier": "all files of the three formats, all sequences of conversions, all lists of threads", "why_tests_cant": "sequences of conversions are unbounded and files may come from any program", "anchors": ["pyembroidery/EdrReader.py:read", "pyembroidery/EdrWriter.py:write", "pyembroidery/ColReader.py:read", "pyembroidery/ColWriter.py:write", "pyembroidery/InfReader.py:read", "pyembroidery/InfWriter.py:write"]}
{"id": "C219", "title": "The generic writer writes one line for each command, with that command's values", "statement": "With a template for every command and none for anything else, the file is exactly the templates of the commands, in order, each filled with the command's number, code, name, position (also negated), the position of the command before and the difference between the two (the first from 0,0).", "quantifier": "all patterns of named commands, all templates made of words and these values, different for different commands or not", "why_tests_cant": "patterns are unbounded and a value may be left over from an earlier command in the shared dictionary", "anchors": ["pyembroidery/GenericWriter.py:GenericWriter.write, get_write_segment, update_positions, update_command, write_segment"]}
{"id": "C220", "title": "Reading and assigning stitches by index and metadata by name", "statement": "After any sequence of assignments p[i] = stitch and p[name] = value (those that raise being caught), p[i] for every index from -len to len-1 is what the latest assignment to the same place put there, whether that used the index from the front or from the back, and the stitch the pattern started with if there was none; every other index raises IndexError; p[name] is the latest value assigned under that name, the one it started with, or KeyError; number of stitches and threads stay.", "quantifier": "all patterns, all sequences of assignments by index or name, all indices and all names", "why_tests_cant": "ranges over all histories of assignments; indices from both ends alias", "anchors": ["pyembroidery/EmbPattern.py: EmbPattern.__len__, EmbPattern.__getitem__, EmbPattern.__setitem__"]}
{"id": "C221", "title": "Slices of a pattern", "statement": "For all ends, inside the pattern or not and counted from either end, p[a:b] is the stitches from a up to b; cutting p at any k gives p[:k] and p[k:] that together are the whole; p[a:b] = l leaves what is before a, then l, then what is after b, and leaves threads and metadata.", "quantifier": "all patterns, all pairs of slice ends (any integer or left out), all lists of new stitches", "why_tests_cant": "unbounded integers as ends; tests try a few", "anchors": ["pyembroidery/EmbPattern.py: EmbPattern.__len__, EmbPattern.__getitem__, EmbPattern.__setitem__"]}
{"id": "C222", "title": "Iterating over a pattern gives its stitches", "statement": "A for loop over a pattern comes to an end and gives each stitch once, in order; reversed(p) gives them in the opposite order.", "quantifier": "all patterns", "why_tests_cant": "any number of stitches: the loop relies on an exception to end it", "anchors": ["pyembroidery/EmbPattern.py: EmbPattern.__len__, EmbPattern.__getitem__"]}
{"id": "C223", "title": "The printed form of a pattern tells its size", "statement": "str(p) holds the number of stitches and of threads as decimal numbers at its end, so that two patterns that print alike have as many stitches and as many threads each, whatever their names are.", "quantifier": "all patterns and all pairs of patterns, any name (also one that looks like the printed numbers)", "why_tests_cant": "names are arbitrary texts that may imitate the rest", "anchors": ["pyembroidery/EmbPattern.py: EmbPattern.__str__"]}
{"id": "C224", "title": "Patterns can be copied with the copy module", "statement": "copy.copy(p) gives a new pattern with the same stitches, threads, metadata and position and leaves p as it is; copy.deepcopy(p) gives one that moreover shares nothing with p.", "quantifier": "all patterns in all heaps of shared stitches", "why_tests_cant": "sharing is only visible through later changes", "anchors": ["pyembroidery/EmbPattern.py: EmbPattern.__copy__, EmbPattern.__deepcopy__, EmbPattern.copy"]}
{"id": "C225", "title": "Templates chosen from a table follow the command being written", "statement": "When the template for a command of the generic writer is given as a table with a key, each command is written with the template that the table has for the key filled with that command's own values, or with the default; without tables nothing changes.", "quantifier": "all patterns of known commands, all tables, keys and templates", "why_tests_cant": "the writer keeps values from command to command, so a lookup can see old ones", "anchors": ["pyembroidery/GenericWriter.py: GenericWriter.write, GenericWriter.get_write_segment, GenericWriter.update_command, GenericWriter.update_positions"]}
{"id": "C226", "title": "HUS and SHV files load with the colours of their palettes", "statement": "Every HUS file whose colour numbers are in the palette loads with one thread per number, in order, of the printed colour with that number, and different numbers are different colours. Every SHV file that can be read loads with one thread per colour, with a colour of 24 bits and the number in the catalog, whatever number the file holds (numbers beyond the palette wrap around).", "quantifier": "all HUS and SHV files, all colour numbers", "why_tests_cant": "ranges over all files and numbers of colours", "anchors": ["pyembroidery/HusReader.py: read", "pyembroidery/EmbThreadHus.py: get_thread_set, EmbThreadHus", "pyembroidery/ShvReader.py: read", "pyembroidery/EmbThreadShv.py: get_thread_set, EmbThreadShv"]}
{"id": "C227", "title": "Reading further files into a pattern adds their designs", "statement": "When several EXP or U01 files are read one after another into the same pattern, what the pattern held stays unchanged in front and the design of each file follows, as the file holds it, and saving the pattern sews all of them.", "quantifier": "all patterns, all lists of EXP and U01 files, all their bytes", "why_tests_cant": "the result depends on everything read before; tests read one file into a new pattern", "anchors": ["pyembroidery/EmbPattern.py: EmbPattern.read, EmbPattern.read_embroidery, EmbPattern.add_stitch_relative", "pyembroidery/ExpReader.py: read_exp_stitches", "pyembroidery/U01Reader.py: read_u01_stitches", "pyembroidery/EmbEncoder.py: Transcoder.transcode_main"]}
{"id": "C228", "title": "Centring a design gives the same result wherever it stood", "statement": "Centring a centred pattern moves nothing, and a pattern and the same pattern moved by whole units are equal once both are centred.", "quantifier": "all non-empty patterns, all shifts by whole units (exact arithmetic)", "why_tests_cant": "ranges over all designs and shifts; only ties in rounding matter", "anchors": ["pyembroidery/EmbPattern.py: EmbPattern.move_center_to_origin, EmbPattern.bounds, EmbPattern.translate"]}
{"id": "C229", "title": "Encoding keeps every cut, stop, colour change and speed in its place between the stitches", "statement": "For a design without sequins, lock stitches and SEW_TO commands and settings that ask for colour changes, needle changes or stops where the thread changes: leaving out moves, the encoded pattern has the stitches, cuts, colour changes, stops and speeds the design asks for, in the design's order and no others. A cut is asked for by a trim, a sequence break or a frame eject while something sewn hangs on the thread (before colour changes only when explicit trims are on), a change by every change of thread after the first sewing or change (needle changes and stops also for the first thread), a COLOR_BREAK by one such change if something is sewn after it, a frame eject asks for a stop, and speeds are left out only if the settings say so. (If there are colour breaks, the sewing commands carry no thread or needle numbers.)", "quantifier": "all designs of these commands up to their END, all other settings, all arithmetics", "why_tests_cant": "the encoder's state carries over from command to command, so that any earlier command may swallow a later one", "anchors": ["pyembroidery/EmbEncoder.py: Transcoder.transcode_main, Transcoder.tie_off_and_trim_if_needed, Transcoder.tie_off_trim_color_change, Transcoder.next_change_sequence, Transcoder.stop_here"]}
{"id": "C230", "title": "A design saved as EXP loads with its cuts and colour changes between the same stitches", "statement": "A design without sequins, lock stitches, SEW_TO, speed and transformation commands, saved as EXP with settings for EXP and loaded again, has its stitches within half a unit, and between them, in order, exactly the cuts and colour changes the design asks for (as in C229); a stop is a colour change there.", "quantifier": "all such designs, all settings without lock stitches, transformations and needle changes", "why_tests_cant": "combines encoding, splitting of long steps, rounding, writing and reading over all designs", "anchors": ["pyembroidery/EmbEncoder.py: Transcoder.transcode_main", "pyembroidery/ExpWriter.py: write", "pyembroidery/ExpReader.py: read_exp_stitches"]}
{"id": "C231", "title": "A design saved as DST or JEF loads with its thread changes between the same stitches", "statement": "A design without sequins, lock stitches, SEW_TO, speed and transformation commands, saved as DST or JEF with settings for that format and loaded again, has its stitches within half a unit, and between them, in order, exactly the changes of the thread and stops the design asks for (as in C229). DST has a colour change for each; in JEF stops and colour changes may be taken for each other. For DST this holds for every choice of how trims are found on loading.", "quantifier": "all such designs, all settings without lock stitches, transformations and needle changes, all header texts, all trim settings of reader and writer; JEF: designs that sew and begin with sewing, before trims are interpolated", "why_tests_cant": "combines encoding, splitting of long steps, rounding, writing, reading and trim interpolation over all designs", "anchors": ["pyembroidery/EmbEncoder.py: Transcoder.transcode_main", "pyembroidery/DstWriter.py: write", "pyembroidery/DstReader.py: dst_read_stitches", "pyembroidery/JefWriter.py: write", "pyembroidery/JefReader.py: read_jef_stitches"]}
{"id": "C232", "title": "A design saved as U01 loads with its cuts, needle changes and stops between the same stitches", "statement": "A design without sequins, lock stitches, SEW_TO, speed and transformation commands, saved as U01 with settings for U01 and loaded again, has its stitches within half a unit, and between them, in order, exactly the cuts, needle changes (one before the first stitch) and stops the design asks for (as in C229), provided the design does not ask for needle 0.", "quantifier": "all such designs, all settings for U01 without lock stitches and transformations", "why_tests_cant": "combines encoding, choice of needles, splitting of long steps, rounding, writing and reading over all designs", "anchors": ["pyembroidery/EmbEncoder.py: Transcoder.transcode_main", "pyembroidery/U01Writer.py: write", "pyembroidery/U01Reader.py: read_u01_stitches"]}
{"id": "C233", "title": "A design saved as XXX loads with its cuts and colour changes between the same stitches", "statement": "A design without sequins, lock stitches, SEW_TO, speed and transformation commands, saved as XXX with lengths of at most 123 and loaded again, has its stitches within half a unit and its colours, and between the stitches, in order, exactly the cuts and colour changes the design asks for (as in C229); a stop is a colour change there.", "quantifier": "all such designs, all settings without lock stitches, transformations and needle changes whose lengths are at most 123", "why_tests_cant": "combines encoding, splitting of long steps, rounding, writing and reading over all designs", "anchors": ["pyembroidery/EmbEncoder.py: Transcoder.transcode_main", "pyembroidery/XxxWriter.py: write", "pyembroidery/XxxReader.py: read"]}
{"id": "C234", "title": "A design saved as TBF loads with its cuts, needle changes and stops between the same stitches", "statement": "A design without sequins, lock stitches, SEW_TO, speed and transformation commands, saved as TBF with settings for TBF and loaded again, has its stitches within half a unit, and between them, in order, exactly the cuts, needle changes (one before the first stitch) and stops the design asks for (as in C229), provided the file has room and the design does not ask for needle 0.", "quantifier": "all such designs, all settings for TBF without lock stitches and transformations", "why_tests_cant": "combines encoding, choice of needles, splitting of long steps, rounding, writing and reading over all designs", "anchors": ["pyembroidery/EmbEncoder.py: Transcoder.transcode_main", "pyembroidery/TbfWriter.py: write", "pyembroidery/TbfReader.py: read"]}
{"id": "C235", "title": "A design saved as PEC or PES loads with its colour changes and stops between the same stitches", "statement": "A design without sequins, lock stitches, SEW_TO, speed and transformation commands, saved as PEC or as PES version 6 and loaded again, has its stitches within half a unit, and between them, in order, exactly the colour changes and stops the design asks for (as in C229). Besides these the loaded design only jumps, trims, and sews at most one stitch where a jump has just landed (or at the very beginning). Required: every colour section sews, neighbouring threads differ, and the file has room.", "quantifier": "all such designs, all settings without lock stitches, transformations and needle changes whose lengths are at most 2047, all names and threads", "why_tests_cant": "combines encoding, splitting of long steps, rounding, storing stops as repeated colours, writing and reading over all designs", "anchors": ["pyembroidery/EmbEncoder.py: Transcoder.transcode_main", "pyembroidery/PecWriter.py: pec_encode", "pyembroidery/PecReader.py: read_pec_stitches", "pyembroidery/PesWriter.py: write", "pyembroidery/PesReader.py: read"]}
{"id": "C236", "title": "A design saved as VP3 loads with its cuts and colour changes between the same stitches", "statement": "A design within 16000 units of the origin, without sequins, lock stitches, SEW_TO, speed and transformation commands, saved as VP3 and loaded again, has between its stitches (whose places are the subject of C184), in order, exactly the cuts and colour changes the design asks for (as in C229), and one more cut at the end. Stops are not stored.", "quantifier": "all such designs, all settings without lock stitches and transformations that ask for colour changes, all threads", "why_tests_cant": "combines encoding, cutting into colour blocks, rounding, writing and reading over all designs", "anchors": ["pyembroidery/EmbEncoder.py: Transcoder.transcode_main", "pyembroidery/EmbPattern.py: get_as_colorblocks", "pyembroidery/Vp3Writer.py: write_stitches_block", "pyembroidery/Vp3Reader.py: vp3_read_colorblock"]}
{"id": "C237", "title": "A design saved as G-code and loaded comes back unflipped, stitch by stitch, with its colour changes", "statement": "Saving a design as G-code with the writer's own settings (which flip both axes) and loading the file gives back exactly the stitches of the design, in order, each within 1/200 of a unit of its original place on both axes: the flip made on saving and the flip made on loading cancel. Between them, in order, stand the colour changes and stops the design asks for, each as a colour change; cuts are left out. Each thread of the encoded design comes back with its colour. No file is ever refused.", "quantifier": "all designs without transforms, ties, sequins and speed commands, all thread lists, all extra texts that can stand in a comment", "why_tests_cant": "The scale is applied by the encoder and undone by the reader, with decimal text in between; tests look at single designs with whole coordinates.", "anchors": ["pyembroidery/GcodeWriter.py: SCALE, write_data", "pyembroidery/GcodeReader.py: read", "pyembroidery/EmbEncoder.py: Transcoder.transcode", "pyembroidery/EmbPattern.py: EmbPattern.write"]}
{"id": "C238", "title": "G-code files keep the thread of every stitch", "statement": "Saving a design as G-code with the writer's own settings and loading the file gives back every stitch, in order, with the thread it was designed with: the number of colour changes before it is the number of its thread, and the thread of that number in the loaded pattern has the colour of the thread of that number in the design. There are as many threads as the design takes.", "quantifier": "all designs without transforms, ties, sequins, speed commands and numbered thread changes, all thread lists", "why_tests_cant": "The numbering of threads depends on every change, break and stop before a stitch. Tests that use only colour changes never see that a stop shifts all threads after it.", "anchors": ["pyembroidery/GcodeWriter.py: write_data", "pyembroidery/GcodeReader.py: read", "pyembroidery/EmbEncoder.py: Transcoder.transcode"]}
{"id": "C239", "title": "Saving a loaded G-code file again keeps it exactly", "statement": "Save a design as G-code with the writer's own settings and load the file. Saving the loaded pattern as G-code and loading that file gives the same commands at exactly the same places: rounding happens once, and the two flips of each round cancel without drift.", "quantifier": "all designs without transforms, ties, sequins and speed commands, any threads, comment texts and tie-free settings for each of the two saves", "why_tests_cant": "Drift of rounding and flips over repeated saves depends on every coordinate; tests compare one save of a few designs.", "anchors": ["pyembroidery/GcodeWriter.py: SCALE, write_data", "pyembroidery/GcodeReader.py: read", "pyembroidery/EmbEncoder.py: Transcoder.transcode"]}
{"id": "C240", "title": "A design without stops saved as EXP, DST or XXX keeps the thread of every stitch", "statement": "Take a design that never stops the machine and has no numbered thread changes, save it as EXP, DST or XXX and load the file. The stitches come back in order, each within half a unit of its place, and the number of colour changes before each is the number of its thread in the design. In an XXX file the colour of that number is the colour of the design's thread of that number. For designs with stops this is false: after a stop the stitches of an EXP file have the next thread.", "quantifier": "all designs that fit the format's lengths, without transforms, ties, sequins, speed commands and stops; all thread lists and settings of that kind", "why_tests_cant": "Which thread sews a stitch depends on every change and break before it and on whether anything is sewn later; tests check colour lists of single designs, not the thread of each stitch.", "anchors": ["pyembroidery/EmbEncoder.py: Transcoder.transcode, color_break", "pyembroidery/ExpWriter.py: write", "pyembroidery/ExpReader.py: read_exp_stitches", "pyembroidery/DstWriter.py: write", "pyembroidery/DstReader.py: read", "pyembroidery/XxxWriter.py: write", "pyembroidery/XxxReader.py: read"]}
{"id": "C241", "title": "A design saved as U01 or TBF keeps the needle of every stitch", "statement": "Save a design as U01 or TBF and load the file. The stitches come back in order, each within half a unit of its place, and the number of needle changes before each is one more than the number of its thread in the design: the first needle is chosen before the first stitch, and each later thread of the design, whether it comes from a colour change, a needle change or a colour break, is one needle change. Stops, cuts and breaks after which nothing is sewn change no needle.", "quantifier": "all designs that fit the format's lengths, without transforms, ties, sequins and speed commands; all thread lists and settings of that kind", "why_tests_cant": "Which needle sews a stitch depends on every change and break before it and on whether anything is sewn later; tests check needle lists of single designs, not the needle of each stitch.", "anchors": ["pyembroidery/EmbEncoder.py: Transcoder.transcode, color_break, next_change_sequence", "pyembroidery/U01Writer.py: write", "pyembroidery/U01Reader.py: read_u01_stitches", "pyembroidery/TbfWriter.py: write", "pyembroidery/TbfReader.py: read"]}
{"id": "C242", "title": "Needles are used in turn when the design names none", "statement": "If a design names no thread numbers and no needle numbers in its thread changes (and does not rearrange them), then an encoding with needle changes gives its thread changes the needles 1, 2, ..., n in turn and starts again at 1 after the last needle, where n is the number of needles set (five by default): thread change number k, counted from 0, asks for needle k mod n + 1. The same order is read back from a saved U01 file (with the numbers U01 machines can name) and from a saved TBF file.", "quantifier": "all designs without thread or needle numbers, all encoder settings with needle changes and at most 254 needles, all of the first 255 thread changes", "why_tests_cant": "The order depends on the whole history of commands before each thread change; tests try a few designs with a few threads and rarely exceed the number of needles.", "anchors": ["/repo/pyembroidery/EmbEncoder.py: Transcoder.build_thread_change_sequence, Transcoder.next_change_sequence", "/repo/pyembroidery/EmbFunctions.py: encode_thread_change, decode_embroidery_command", "/repo/pyembroidery/U01Writer.py: write", "/repo/pyembroidery/TbfWriter.py: write"]}
{"id": "C243", "title": "Every stitch of a U01 or TBF file is sewn by the needle of its thread", "statement": "A design whose thread changes name no threads or needles, saved as U01 or TBF with n needles set and read back, has every stitch within half a unit of its place and in order, and each stitch of thread number k (counted from 0) comes after a needle change that names needle k mod n + 1, with no other needle change in between (for U01 the number is the one its fifteen needles can have).", "quantifier": "all designs within the stitch length of the format, with at most 255 thread changes, that name no threads or needles, add no tie stitches and leave out the special sewing commands; all settings with needle changes and at most 254 needles", "why_tests_cant": "The needle of a stitch depends on all commands before it, on the plan of the encoder, and on how the file packs needle changes; tests compare a few small designs and seldom check which needle sews a stitch.", "anchors": ["/repo/pyembroidery/EmbEncoder.py: Transcoder.build_thread_change_sequence, Transcoder.transcode", "/repo/pyembroidery/U01Writer.py: write", "/repo/pyembroidery/U01Reader.py: read", "/repo/pyembroidery/TbfWriter.py: write", "/repo/pyembroidery/TbfReader.py: read"]}
{"id": "C244", "title": "A design with no more threads than the machine has needles gets a needle for each thread", "statement": "A design whose thread changes name no threads or needles and that has at most as many threads as needles are set, saved as U01 or TBF and read back: two stitches are sewn by the same needle exactly if they have the same thread in the design.", "quantifier": "all designs as in C243 with at most as many threads as needles; all settings with needle changes", "why_tests_cant": "Whether two threads ever share a needle ranges over all pairs of stitches of all designs and all needle counts; tests use the default of five needles.", "anchors": ["/repo/pyembroidery/EmbEncoder.py: Transcoder.build_thread_change_sequence", "/repo/pyembroidery/U01Writer.py: write", "/repo/pyembroidery/TbfWriter.py: write"]}
{"id": "C245", "title": "PEC and PES files keep the thread of every stitch", "statement": "A design without sequins, lock stitches, SEW_TO, speed and transformation commands and without thread numbers, whose every colour section sews, saved as PEC or as PES version 6 and loaded again, has all its stitches in order within half a unit, each after as many colour changes as the number of its thread, whether or not there are stops in between. For PES the loaded thread list has one entry for each thread the design sews with, in order, with the texts and colour of that thread.", "quantifier": "all such designs and settings with colour changes, all thread lists whose neighbours differ (as stored)", "why_tests_cant": "The thread of a stitch depends on every colour change, break and stop before it and on how encoder, writer and reader treat them; tests compare counts of colour changes in a few designs.", "anchors": ["/repo/pyembroidery/EmbEncoder.py: Transcoder.transcode", "/repo/pyembroidery/PecWriter.py: pec_encode", "/repo/pyembroidery/PecReader.py: read_pec_stitches", "/repo/pyembroidery/PesWriter.py: write_version_6", "/repo/pyembroidery/PesReader.py: read"]}
{"id": "C246", "title": "JEF files keep the thread of every stitch", "statement": "A design without stops, sequins, lock stitches, SEW_TO, speed and transformation commands and without thread numbers, saved as JEF and loaded again (before trims are interpolated), has all its stitches in order within half a unit and no others, each after as many colour changes as the number of its thread; the k-th thread the file is written from is the k-th thread of the design.", "quantifier": "all such designs whose encoding sews and does not begin with a colour change, all settings with colour changes, all palettes with numbers from 1", "why_tests_cant": "The thread of a stitch depends on every thread change before it and on the colour table the writer derives from them; tests compare a few designs.", "anchors": ["/repo/pyembroidery/EmbEncoder.py: Transcoder.transcode", "/repo/pyembroidery/JefWriter.py: write", "/repo/pyembroidery/JefReader.py: read, read_jef_stitches"]}
