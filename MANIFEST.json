{
 "claims": [
  {
   "property": "C01",
   "status": "proved",
   "theorems": [
    "C01_thread_change_round_trip"
   ],
   "note": ""
  },
  {
   "property": "C02",
   "status": "partial",
   "theorems": [
    "C02_thread_change_refuted",
    "C02_thread_change_partial"
   ],
   "note": "REFUTED in full generality: a number whose low byte is 255 overflows into the next field. Proved for every integer whose low byte is not 255."
  },
  {
   "property": "C03",
   "status": "proved",
   "theorems": [
    "C03_unsigned_round_trip",
    "C03_written_bytes",
    "C03_signed_representative",
    "C03_short_stream"
   ],
   "note": ""
  },
  {
   "property": "C04",
   "status": "proved",
   "theorems": [
    "C04_dst_record_round_trip"
   ],
   "note": ""
  },
  {
   "property": "C05",
   "status": "proved",
   "theorems": [
    "C05_dst_record_rejects_exactly"
   ],
   "note": ""
  },
  {
   "property": "C06",
   "status": "proved",
   "theorems": [
    "C06_dst_write_read"
   ],
   "note": "Stitch data after the 512-byte header; integer coordinates."
  },
  {
   "property": "C07",
   "status": "proved",
   "theorems": [
    "C07_dst_trim_no_displacement"
   ],
   "note": ""
  },
  {
   "property": "C08",
   "status": "proved",
   "theorems": [
    "C08_dst_truncated_prefix"
   ],
   "note": ""
  },
  {
   "property": "C09",
   "status": "partial",
   "theorems": [
    "C09_truncated_prefix",
    "C09_truncated_prefix_partial",
    "C09_never_raises_refuted"
   ],
   "note": "Proved in full for EXP, U01 and PEC. REFUTED in full generality for TBF and JEF: IndexError when the stream has more colour controls than the colour table. Proved for them whenever the complete data can be read, which holds when the table is long enough."
  },
  {
   "property": "C10",
   "status": "proved",
   "theorems": [
    "C10_exp_write_read"
   ],
   "note": ""
  },
  {
   "property": "C11",
   "status": "proved",
   "theorems": [
    "C11_jef_write_read",
    "C11_jef_view_plain"
   ],
   "note": "whole file, including header, palette and thread list"
  },
  {
   "property": "C12",
   "status": "proved",
   "theorems": [
    "C12_pec_displacement"
   ],
   "note": ""
  },
  {
   "property": "C13",
   "status": "proved",
   "theorems": [
    "C13_pec_write_read"
   ],
   "note": ""
  },
  {
   "property": "C14",
   "status": "proved",
   "theorems": [
    "C14_u01_write_read",
    "C14_u01_view_plain"
   ],
   "note": ""
  },
  {
   "property": "C15",
   "status": "proved",
   "theorems": [
    "C15_tbf_write_read"
   ],
   "note": ""
  },
  {
   "property": "C16",
   "status": "partial",
   "theorems": [
    "C16_xxx_boundary_refuted",
    "C16_xxx_write_read_partial"
   ],
   "note": "REFUTED in full generality: a stitch of exactly 124 units reads back as a jump. Proved for stitches within +-123, including the colour table."
  },
  {
   "property": "C17",
   "status": "proved",
   "theorems": [
    "C17_vp3_block_stitches"
   ],
   "note": "Whole stitch blocks over integer coordinates, including the closing byte."
  },
  {
   "property": "C18",
   "status": "partial",
   "theorems": [
    "C18_vp3_write_read_partial",
    "C18_start_on_axis_refuted",
    "C18_odd_extents_refuted"
   ],
   "note": "REFUTED in full generality: blocks starting on an axis away from the last penetration, and patterns of odd width or height. Proved for whole files when the extents have an integer middle and colour changes are at the last penetration or off both axes."
  },
  {
   "property": "C19",
   "status": "proved",
   "theorems": [
    "C19_no_drift",
    "C19_no_displacement"
   ],
   "note": "Over exact rationals; C164 and C165 are the same for doubles."
  },
  {
   "property": "C20",
   "status": "proved",
   "theorems": [
    "C20_steps_fit",
    "C20_dst",
    "C20_exp",
    "C20_pec",
    "C20_jef",
    "C20_default_settings"
   ],
   "note": "over exact rationals; cos, sin and the normalised direction are parameters, of which only a bound on the direction is assumed (direction_bounded, shown to be satisfiable)"
  },
  {
   "property": "C21",
   "status": "proved",
   "theorems": [
    "C21_gap_filling"
   ],
   "note": "over exact rationals"
  },
  {
   "property": "C22",
   "status": "proved",
   "theorems": [
    "C22_single_end"
   ],
   "note": "Any arithmetic, any settings, any source; for every encoding that returns."
  },
  {
   "property": "C23",
   "status": "proved",
   "theorems": [
    "C23_core_commands"
   ],
   "note": "Any arithmetic, any settings, any source."
  },
  {
   "property": "C24",
   "status": "proved",
   "theorems": [
    "C24_penetrations_kept",
    "C24_no_other_penetrations"
   ],
   "note": "Any arithmetic."
  },
  {
   "property": "C25",
   "status": "proved",
   "theorems": [
    "C25_plan_never_missing",
    "C25_threads_match_changes"
   ],
   "note": "Any arithmetic whose own operations do not raise KeyError."
  },
  {
   "property": "C26",
   "status": "partial",
   "theorems": [
    "C26_explicit_thread_refuted",
    "C26_explicit_thread_partial"
   ],
   "note": "REFUTED in full generality: two leading colour breaks shift the plan by one. Proved when every break has an effect."
  },
  {
   "property": "C27",
   "status": "proved",
   "theorems": [
    "C27_trims_after_sewing"
   ],
   "note": "Any arithmetic, any settings, any source."
  },
  {
   "property": "C28",
   "status": "proved",
   "theorems": [
    "C28_sequin_discipline"
   ],
   "note": "Any arithmetic, any settings, any source."
  },
  {
   "property": "C29",
   "status": "proved",
   "theorems": [
    "C29_tie_on",
    "C29_tie_off",
    "C29_locks_read"
   ],
   "note": "over Coq's real numbers (standard library axioms)"
  },
  {
   "property": "C30",
   "status": "proved",
   "theorems": [
    "C30_encoding_keeps_source",
    "C30_encoded_keeps_result"
   ],
   "note": "Heap model: stitches are objects, patterns hold references, any sharing allowed. Thread objects are values in the model (no modelled operation assigns to a thread)."
  },
  {
   "property": "C31",
   "status": "partial",
   "theorems": [
    "C31_copy_equal",
    "C31_copy_independent_partial",
    "C31_translate_copy_refuted"
   ],
   "note": "REFUTED in full generality: copies share stitch objects, translating the copy moves the original. Proved: the copy is equal, and all edits that do not assign to a stitch are independent."
  },
  {
   "property": "C32",
   "status": "partial",
   "theorems": [
    "C32_add_pattern_partial",
    "C32_plus_partial",
    "C32_add_pattern_refuted"
   ],
   "note": "REFUTED in full generality: a leading thread change of the added pattern is overwritten with NO_COMMAND. Proved when the added pattern has no thread change before its first stitch."
  },
  {
   "property": "C33",
   "status": "partial",
   "theorems": [
    "C33_interpolate_trims_partial",
    "C33_keeps_commands",
    "C33_sewing_kept",
    "C79_interpolate_trims_total",
    "C33_clipping_deletes_stop_refuted"
   ],
   "note": "REFUTED in full generality: with clipping on, a STOP (or any command that does not end a run of jumps) between jumps that return to their start is deleted with them. C33_sewing_kept: for every pattern and all settings it terminates and keeps all stitches, sequins, colour and needle changes in order. The full claim is proved for every pattern without clipping, and with clipping for every pattern in which no such command stands between two jumps."
  },
  {
   "property": "C34",
   "status": "proved",
   "theorems": [
    "C34_stops_as_colours_and_back",
    "C34_unsewn_stop_refuted"
   ],
   "note": "The side conditions are needed: a stop with no sewing after it is not restored (C34_unsewn_stop_refuted)."
  },
  {
   "property": "C35",
   "status": "proved",
   "theorems": [
    "C35_frame_eject",
    "C35_keeps_sewing",
    "C35_sequin_lost_refuted"
   ],
   "note": "Other commands inside a replaced stretch, e.g. sequins, are lost (C35_sequin_lost_refuted)."
  },
  {
   "property": "C36",
   "status": "proved",
   "theorems": [
    "C36_command_blocks",
    "C36_colour_blocks",
    "C36_stitch_blocks"
   ],
   "note": ""
  },
  {
   "property": "C37",
   "status": "proved",
   "theorems": [
    "C37_bounds",
    "C37_translate",
    "C37_translate_back",
    "C37_centre",
    "C37_centre_empty_refuted"
   ],
   "note": "Exact rational arithmetic. An empty pattern cannot be centred (ValueError)."
  },
  {
   "property": "C38",
   "status": "proved",
   "theorems": [
    "C38_fix_color_count",
    "C38_sections_determined"
   ],
   "note": ""
  },
  {
   "property": "C39",
   "status": "proved",
   "theorems": [
    "C39_product_is_composition",
    "C39_product_affine",
    "C39_associative_identity",
    "C39_inverse",
    "C39_elementary",
    "C39_post_operations",
    "C39_pre_operations",
    "C39_centre_fixed",
    "C39_needle_fixed"
   ],
   "note": "over Coq's real numbers (standard library axioms)"
  },
  {
   "property": "C40",
   "status": "partial",
   "theorems": [
    "C40_documented_order_refuted",
    "C40_transform_settings_partial"
   ],
   "note": "REFUTED as documented: the settings act as rotate, then scale, then translate; that order is proved for all points and settings"
  },
  {
   "property": "C41",
   "status": "proved",
   "theorems": [
    "C41_nearest_minimum"
   ],
   "note": ""
  },
  {
   "property": "C42",
   "status": "proved",
   "theorems": [
    "C42_unique_palette",
    "C42_short_palette_refuted"
   ],
   "note": "set() iteration order is an arbitrary enumeration; the refuted theorem shows the palette-size hypothesis is needed."
  },
  {
   "property": "C43",
   "status": "proved",
   "theorems": [
    "C43_nonrepeat_palette"
   ],
   "note": ""
  },
  {
   "property": "C44",
   "status": "proved",
   "theorems": [
    "C44_hex_colour"
   ],
   "note": ""
  },
  {
   "property": "C45",
   "status": "proved",
   "theorems": [
    "C45_command_names",
    "C45_other_values_refused",
    "C45_thread_changes"
   ],
   "note": "All 32-bit values with a named low byte; every other value gives KeyError."
  },
  {
   "property": "C46",
   "status": "partial",
   "theorems": [
    "C46_json_loading_refuted",
    "C46_csv_loading_refuted",
    "C66_csv_round_trip",
    "C67_json_round_trip"
   ],
   "note": "REFUTED in full generality: NO_COMMAND and the CONTINGENCY_SEQUIN_ commands have no name, so the saved file raises KeyError when loaded. True for named commands: C66 and C67."
  },
  {
   "property": "C47",
   "status": "partial",
   "theorems": [
    "C47_stored_round_trip",
    "C47_short_data",
    "C47_refuted"
   ],
   "note": "REFUTED in full generality: compress writes the block length low byte first, expand reads it high byte first, so 256 bytes (and other lengths n with n > 256*(n mod 256) + n/256) do not come back, and empty data comes back as one zero byte. Proved: every other length round-trips, in particular all lengths 1..255, with and without a size limit."
  },
  {
   "property": "C48",
   "status": "proved",
   "theorems": [
    "C48_expand_terminates"
   ],
   "note": "Rounds bounded by 524288 per input byte; the result, output or exception, does not depend on the bound."
  },
  {
   "property": "C49",
   "status": "proved",
   "theorems": [
    "C49_edr_round_trip",
    "C49_col_round_trip",
    "C49_inf_round_trip"
   ],
   "note": "EDR and COL for all thread lists, INF for ASCII texts without NUL of at most 65524 characters per thread."
  },
  {
   "property": "C50",
   "status": "proved",
   "theorems": [
    "C50_settings_override",
    "C50_callers_settings_unchanged"
   ],
   "note": "typed dictionary; dictionaries as heap objects for the statement about the caller"
  },
  {
   "property": "C51",
   "status": "partial",
   "theorems": [
    "C51_jef_header_partial",
    "C51_jef_leading_color_change_refuted"
   ],
   "note": "REFUTED in full generality: with a leading colour change the count is one less than the number of colour sections and the file cannot be read. Proved for all other patterns."
  },
  {
   "property": "C52",
   "status": "proved",
   "theorems": [
    "C52_insert_relative",
    "C52_insert_at_end",
    "C52_out_of_range",
    "C52_insert_empty_refuted"
   ],
   "note": "Inserting at position 0 of an empty pattern does not update the position that later relative additions start from."
  },
  {
   "property": "C53",
   "status": "partial",
   "theorems": [
    "C53_jef_stops_refuted",
    "C53_jef_stops_partial"
   ],
   "note": "REFUTED in full generality: the second stop of a colour section reads back as a colour change. Proved for at most one stop per colour section."
  },
  {
   "property": "C54",
   "status": "partial",
   "theorems": [
    "C54_equal_threads_refuted",
    "C54_equal_threads_partial"
   ],
   "note": "REFUTED in full generality: a repeated thread can change palette index. Holds when no neighbouring different threads share their nearest entry."
  },
  {
   "property": "C55",
   "status": "partial",
   "theorems": [
    "C55_dst_speed_refuted",
    "C55_xxx_long_stitch_refuted",
    "C55_jef_leading_changes_refuted",
    "C55_tbf_jump_refuted",
    "C20_dst",
    "C20_exp",
    "C20_pec",
    "C20_jef"
   ],
   "note": "REFUTED in full generality with four witnesses; C20 gives the round trip under the conditions stated there"
  },
  {
   "property": "C56",
   "status": "partial",
   "theorems": [
    "C56_block_threads_refuted",
    "C56_block_threads_partial"
   ],
   "note": "REFUTED in full generality: stitch blocks ignore needle sets and colour breaks. Proved when only colour changes separate colours."
  },
  {
   "property": "C57",
   "status": "proved",
   "theorems": [
    "C57_interpolate_trim_copy"
   ],
   "note": ""
  },
  {
   "property": "C58",
   "status": "partial",
   "theorems": [
    "C58_merge_jumps_partial",
    "C58_merge_jumps_refuted"
   ],
   "note": "REFUTED: only the first run of jumps in the pattern leaves a stitch break, because the flag is never reset. The partial theorem says exactly what is produced."
  },
  {
   "property": "C59",
   "status": "proved",
   "theorems": [
    "C59_joined_colours"
   ],
   "note": "C59_spare_thread_refuted shows why one thread per section is required."
  },
  {
   "property": "C60",
   "status": "partial",
   "theorems": [
    "C60_add_pattern_partial",
    "C60_add_to_empty_refuted",
    "C60_add_to_unsewn_refuted"
   ],
   "note": "REFUTED in full generality: IndexError for a first pattern without commands, or without threads and sewing when the second has threads. Proved when both have a thread and the first has a command."
  },
  {
   "property": "C61",
   "status": "partial",
   "theorems": [
    "C61_vertical_scale_refuted",
    "C61_vertical_scale_partial"
   ],
   "note": "REFUTED for all inputs: the argument check tests sx twice, so sy alone is ignored. Proved when a horizontal scale is given too: exactly one scaling command with both."
  },
  {
   "property": "C62",
   "status": "partial",
   "theorems": [
    "C62_translate_once_partial",
    "C62_translate_doubled_refuted"
   ],
   "note": "REFUTED in full generality: p + p holds each stitch object twice. Proved for patterns whose stitches are different objects."
  },
  {
   "property": "C63",
   "status": "partial",
   "theorems": [
    "C63_complete_threads_partial",
    "C63_png_moves_source_refuted",
    "C63_threads_added_refuted"
   ],
   "note": "REFUTED in full generality. Proved: completing the thread list changes nothing when there are enough threads."
  },
  {
   "property": "C64",
   "status": "partial",
   "theorems": [
    "C64_vp3_threads_partial",
    "C64_non_ascii_refuted"
   ],
   "note": "REFUTED for non-ASCII text (the stored length counts characters, not bytes). Proved for ASCII texts under the conditions of C18."
  },
  {
   "property": "C65",
   "status": "partial",
   "theorems": [
    "C65_inf_non_ascii_refuted",
    "C49_inf_round_trip"
   ],
   "note": "REFUTED in full generality: record lengths count characters but the text is UTF-8 bytes, so a non-ASCII description loses the threads after it. The strongest true form is C49_inf_round_trip (ASCII texts)."
  },
  {
   "property": "C66",
   "status": "proved",
   "theorems": [
    "C66_csv_round_trip"
   ],
   "note": "Whole file, UTF-8, newline translation and csv.reader state machine included; coordinates abstract with a printing that reads back (integers up to 2^53 shown to satisfy it)."
  },
  {
   "property": "C67",
   "status": "proved",
   "theorems": [
    "C67_json_round_trip"
   ],
   "note": "Between pattern and JSON object; json.dump/json.load themselves are trusted."
  },
  {
   "property": "C68",
   "status": "partial",
   "theorems": [
    "C68_csv_text_refuted",
    "C66_csv_round_trip"
   ],
   "note": "REFUTED: a quote is not escaped, missing texts become the word None, chart, details and weight of a thread are not restored. True form: C66."
  },
  {
   "property": "C69",
   "status": "proved",
   "theorems": [
    "C69_back_reference"
   ],
   "note": ""
  },
  {
   "property": "C70",
   "status": "proved",
   "theorems": [
    "C70_canonical_codes"
   ],
   "note": "Canonical code defined in PropertiesCompress.v independently of the lookup table."
  },
  {
   "property": "C71",
   "status": "proved",
   "theorems": [
    "C71_pec_file"
   ],
   "note": "Coordinates are exact rationals. The pictures are in C74."
  },
  {
   "property": "C72",
   "status": "proved",
   "theorems": [
    "C72_pes_version_1"
   ],
   "note": "The version and the truncated flag are given as parameters; how settings select them is C142. 32-bit floats are an arbitrary function."
  },
  {
   "property": "C73",
   "status": "proved",
   "theorems": [
    "C73_pes_version_6"
   ],
   "note": "write_float_32le is an arbitrary function giving four bytes."
  },
  {
   "property": "C74",
   "status": "proved",
   "theorems": [
    "C74_pictures",
    "C74_pictures_read"
   ],
   "note": "Pixel arithmetic is exact, the code computes it in floating point."
  },
  {
   "property": "C75",
   "status": "partial",
   "theorems": [
    "C71_pec_file",
    "C75_name_refuted",
    "C75_non_ascii_refuted",
    "C75_same_colour_refuted",
    "C75_no_thread_refuted"
   ],
   "note": "REFUTED in full generality: names come back under the key Name and cut to 8 characters, a non-ASCII name shifts the file, neighbouring sections of one colour become a stop, an unsewn pattern without threads comes back with 256 threads. C71 gives the restricted claim."
  },
  {
   "property": "C76",
   "status": "proved",
   "theorems": [
    "C76_dst_file"
   ],
   "note": "Closed under the global context. Positions are the rounded ones (C19 bounds the error)."
  },
  {
   "property": "C77",
   "status": "proved",
   "theorems": [
    "C77_extended_threads"
   ],
   "note": "Closed under the global context."
  },
  {
   "property": "C78",
   "status": "partial",
   "theorems": [
    "C78_long_name_refuted",
    "C78_many_threads_refuted",
    "C78_comma_refuted",
    "C78_no_description_refuted",
    "C78_line_end_refuted",
    "C78_empty_refuted",
    "C76_dst_file",
    "C77_extended_threads"
   ],
   "note": "REFUTED in full generality: a name of 404 characters or nineteen threads overflow the 512-byte header and shift the stitches; a comma in a description shifts the catalogue number; a missing description reads as \"None\"; a line end in the name starts another entry; an empty pattern raises OverflowError. C76 and C77 prove it under the conditions that exclude these."
  },
  {
   "property": "C79",
   "status": "proved",
   "theorems": [
    "C79_dst_read_any",
    "C79_interpolate_trims_total"
   ],
   "note": "Closed under the global context. Examples show both outcomes."
  },
  {
   "property": "C80",
   "status": "partial",
   "theorems": [
    "C80_trim_after_jump_refuted",
    "C80_jumps_gain_trim_refuted",
    "C80_other_count_refuted",
    "C80_round_trip_jumps_refuted",
    "C76_dst_file"
   ],
   "note": "REFUTED in full generality: a trim after a jump moves in front of it, three jumps gain a trim, jumps out and back vanish, and a trim written for three jumps is lost when read for five. C76 proves it for tidy patterns."
  },
  {
   "property": "C81",
   "status": "proved",
   "theorems": [
    "C81_100",
    "C81_10o",
    "C81_dsb",
    "C81_dsz",
    "C81_fxy",
    "C81_gt",
    "C81_inb",
    "C81_ksm",
    "C81_mit",
    "C81_new",
    "C81_stc",
    "C81_zxy",
    "C81_spx",
    "C81_zhs"
   ],
   "note": ""
  },
  {
   "property": "C82",
   "status": "proved",
   "theorems": [
    "C82_bro",
    "C82_emd",
    "C82_jpx",
    "C82_sew",
    "C82_stx",
    "C82_barudan",
    "C82_sunstar"
   ],
   "note": ""
  },
  {
   "property": "C83",
   "status": "proved",
   "theorems": [
    "C83_cut"
   ],
   "note": ""
  },
  {
   "property": "C84",
   "status": "proved",
   "theorems": [
    "C84_spx",
    "C84_jpx",
    "C84_zxy",
    "C84_stx",
    "C84_sew",
    "C84_bro"
   ],
   "note": ""
  },
  {
   "property": "C85",
   "status": "partial",
   "theorems": [
    "C85_one_end",
    "C85_spx_refuted",
    "C85_mit_refuted"
   ],
   "note": "REFUTED in full generality: SPX files are read without END, MIT files may contain END in the middle. Proved for all other readers (C85_one_end)."
  },
  {
   "property": "C86",
   "status": "partial",
   "theorems": [
    "C86_needle_refuted",
    "C86_needle_always",
    "C86_header_refuted",
    "C82_barudan",
    "C82_sunstar"
   ],
   "note": "REFUTED: every needle change raises AttributeError (C86_needle_always, the method called does not exist); a Sunstar header whose first byte has the top bit set adds commands. Without needle changes and with that bit clear: C82_barudan, C82_sunstar."
  },
  {
   "property": "C87",
   "status": "proved",
   "theorems": [
    "C87_pcd",
    "C87_pcm",
    "C87_max",
    "C87_units"
   ],
   "note": "Scaling is any function of the grid coordinate (so the machine's floats are covered); C87_units gives the size of the unit in exact arithmetic."
  },
  {
   "property": "C88",
   "status": "proved",
   "theorems": [
    "C88_shv"
   ],
   "note": ""
  },
  {
   "property": "C89",
   "status": "proved",
   "theorems": [
    "C89_hus",
    "C89_hus_stored"
   ],
   "note": ""
  },
  {
   "property": "C90",
   "status": "proved",
   "theorems": [
    "C90_pcd",
    "C90_pcm",
    "C90_max",
    "C90_shv"
   ],
   "note": ""
  },
  {
   "property": "C91",
   "status": "partial",
   "theorems": [
    "C91_pcd",
    "C91_pcm",
    "C91_max_refuted",
    "C91_shv_refuted"
   ],
   "note": "REFUTED in full generality: a MAX file cut inside a record (unless exactly one byte is missing) and an SHV file cut inside a long jump raise TypeError. Proved for PCD, PCQ, PCS (any cut after four bytes) and PCM (any cut in the stitches)."
  },
  {
   "property": "C92",
   "status": "proved",
   "theorems": [
    "C92_pmv_round_trip"
   ],
   "note": "Exact rational arithmetic in the writer."
  },
  {
   "property": "C93",
   "status": "partial",
   "theorems": [
    "C93_refuted",
    "C93_invented_refuted",
    "C92_pmv_round_trip"
   ],
   "note": "REFUTED in full generality: the writer announces the number of stitches and jumps but stops after that number of commands of any kind, so a trim or colour change among them makes the library's own reader fail or invent stitches. C92_pmv_round_trip covers runs without such commands."
  },
  {
   "property": "C94",
   "status": "proved",
   "theorems": [
    "C94_pmv_any"
   ],
   "note": ""
  },
  {
   "property": "C95",
   "status": "proved",
   "theorems": [
    "C95_phb_design",
    "C95_phc_design"
   ],
   "note": "offsets described by where bytes are in the file; the commands PEC keeps are described by pec_kept as in C71"
  },
  {
   "property": "C96",
   "status": "proved",
   "theorems": [
    "C96_phb_any",
    "C96_phc_any",
    "C96_phc_cut",
    "C96_phb_cut"
   ],
   "note": ""
  },
  {
   "property": "C97",
   "status": "proved",
   "theorems": [
    "C97_gcode_round_trip"
   ],
   "note": ""
  },
  {
   "property": "C98",
   "status": "proved",
   "theorems": [
    "C98_gcode_program"
   ],
   "note": "Numbers are exact rationals; binary rounding of float() is not modelled."
  },
  {
   "property": "C99",
   "status": "partial",
   "theorems": [
    "C99_refuted",
    "C99_injected_refuted",
    "C99_truncated",
    "C97_gcode_round_trip"
   ],
   "note": "REFUTED in full generality: a thread called 'Rose (2) small' makes the file unreadable (ValueError), a design name with a closing bracket can inject stitches, and any other command silently ends the program (C99_truncated says exactly what is kept). Without those, C97 holds."
  },
  {
   "property": "C100",
   "status": "partial",
   "theorems": [
    "C100_refuted",
    "C98_gcode_program"
   ],
   "note": "REFUTED: lower-case words are ignored, 'G1 F1500' raises KeyError, an unended last line is dropped. For capital-letter programs with ended lines C98 gives the exact meaning."
  },
  {
   "property": "C101",
   "status": "proved",
   "theorems": [
    "C101_gcode_any",
    "C101_gcode_cut"
   ],
   "note": ""
  },
  {
   "property": "C102",
   "status": "proved",
   "theorems": [
    "C102_generic_segments",
    "C102_generic_known"
   ],
   "note": "str.format_map and templates given as dictionaries are not modelled."
  },
  {
   "property": "C103",
   "status": "partial",
   "theorems": [
    "C103_refuted",
    "C103_generic_nested_partial"
   ],
   "note": "REFUTED in full generality: the final close only sets flags, so a pattern whose last command is no END with a template leaves block, colour and document open. Nesting is proved for all patterns; complete closing for patterns that end with an END that has a template."
  },
  {
   "property": "C104",
   "status": "partial",
   "theorems": [
    "C104_refuted",
    "C104_generic_joins"
   ],
   "note": "REFUTED: the join is written before every colour and block, the first included (C104_generic_joins)."
  },
  {
   "property": "C105",
   "status": "proved",
   "theorems": [
    "C105_txt_lines",
    "C105_txt_mimic_lines",
    "C105_txt_known"
   ],
   "note": ""
  },
  {
   "property": "C106",
   "status": "partial",
   "theorems": [
    "C106_refuted",
    "C105_txt_lines"
   ],
   "note": "REFUTED: the colour index is never advanced, every line has the colour of the first thread (C105_txt_lines)."
  },
  {
   "property": "C107",
   "status": "proved",
   "theorems": [
    "C107_svg_paths"
   ],
   "note": "The XML serialisation is not modelled."
  },
  {
   "property": "C108",
   "status": "proved",
   "theorems": [
    "C108_line"
   ],
   "note": "Bresenham invariant; also the fuel given to the loops in the model always suffices."
  },
  {
   "property": "C109",
   "status": "proved",
   "theorems": [
    "C109_picture"
   ],
   "note": "Coordinates are exact rationals. Get the colour of each run through get_as_stitchblock (so NEEDLE_SET and COLOR_BREAK do not change it, see C56)."
  },
  {
   "property": "C110",
   "status": "proved",
   "theorems": [
    "C110_total",
    "C110_empty"
   ],
   "note": ""
  },
  {
   "property": "C111",
   "status": "proved",
   "theorems": [
    "C111_file"
   ],
   "note": "zlib.crc32 and zlib.compress are parameters of the model; the theorem assumes only that decompression undoes compression."
  },
  {
   "property": "C112",
   "status": "partial",
   "theorems": [
    "C112_shading_refuted",
    "C112_shading_partial"
   ],
   "note": "REFUTED in full generality: along threads at least as high as wide the position counter is not advanced (line 424-430), so all dots but the first get the shade of position 1/length. Proved for threads wider than high: dot k of n has the shade of position k/n."
  },
  {
   "property": "C113",
   "status": "partial",
   "theorems": [
    "C113_wide_pen_refuted",
    "C109_picture"
   ],
   "note": "REFUTED in full generality: pens wider than three dots reach beyond the one-dot border, and the ink then appears at the far side of the picture, a row higher. For pens of at most three dots C109_picture describes every dot."
  },
  {
   "property": "C114",
   "status": "partial",
   "theorems": [
    "C114_guides_refuted",
    "C114_flat_refuted",
    "C114_guides_partial"
   ],
   "note": "REFUTED in full generality: the captions read the buffer outside any bounds check, so small or flat designs raise IndexError. Proved when the design is at least 22 dots each way and every caption (11 dots per character) fits across it."
  },
  {
   "property": "C115",
   "status": "proved",
   "theorems": [
    "C115_encode_total",
    "C115_conditions_needed"
   ],
   "note": "Exact arithmetic; trigonometry abstract with cos^2+sin^2 non-zero. Each condition is shown to be needed."
  },
  {
   "property": "C116",
   "status": "proved",
   "theorems": [
    "C116_dst",
    "C116_default_settings"
   ],
   "note": "Coordinates over exact rationals. C116_default_settings shows the settings completed by write_embroidery meet the conditions."
  },
  {
   "property": "C117",
   "status": "proved",
   "theorems": [
    "C117_exp",
    "C117_jef",
    "C117_pec",
    "C116_default_settings"
   ],
   "note": "EXP and PEC: stitch data; JEF: the whole file. PEC adds needle points after jumps, so only the order and place of the stitches is claimed."
  },
  {
   "property": "C118",
   "status": "proved",
   "theorems": [
    "C118_tbf_file",
    "C118_empty_refused"
   ],
   "note": "Whole file including the header; the setting ct0 (a second file) is not modelled."
  },
  {
   "property": "C119",
   "status": "proved",
   "theorems": [
    "C119_u01_file",
    "C119_u01_empty"
   ],
   "note": "Whole file including the header."
  },
  {
   "property": "C120",
   "status": "proved",
   "theorems": [
    "C120_xxx_file",
    "C120_empty_refused"
   ],
   "note": "Whole file including the header."
  },
  {
   "property": "C121",
   "status": "partial",
   "theorems": [
    "C121_any_name_refuted",
    "C118_tbf_file"
   ],
   "note": "REFUTED in full generality: a 17-character name, or a one-character name that is not ASCII, moves the needle and thread tables, so that the first needle is read as 58 and no thread is read. True for ASCII names of at most 16 characters (C118_tbf_file)."
  },
  {
   "property": "C122",
   "status": "proved",
   "theorems": [
    "C122_needles"
   ],
   "note": "The bound of 255 thread commands is needed: the thread number is packed below the needle and carries."
  },
  {
   "property": "C123",
   "status": "proved",
   "theorems": [
    "C123_tbf",
    "C123_default_settings"
   ],
   "note": "Numbers are exact rationals; the settings completed by write_embroidery meet the conditions by the second theorem."
  },
  {
   "property": "C124",
   "status": "proved",
   "theorems": [
    "C124_u01",
    "C123_default_settings"
   ],
   "note": "Numbers are exact rationals; the settings completed by write_embroidery meet the conditions by the second theorem."
  },
  {
   "property": "C125",
   "status": "proved",
   "theorems": [
    "C125_xxx"
   ],
   "note": "The default lengths of 124 are refuted in C55_xxx_long_stitch_refuted."
  },
  {
   "property": "C126",
   "status": "partial",
   "theorems": [
    "C126_u01_speeds_refuted",
    "C124_u01"
   ],
   "note": "REFUTED in full generality: a stitch after SLOW and FAST is read as a trim, one in place after SLOW is not read. Proved for designs without speed commands."
  },
  {
   "property": "C127",
   "status": "proved",
   "theorems": [
    "C127_color_text",
    "C127_other_names"
   ],
   "note": ""
  },
  {
   "property": "C128",
   "status": "proved",
   "theorems": [
    "C128_dict",
    "C128_order"
   ],
   "note": ""
  },
  {
   "property": "C129",
   "status": "partial",
   "theorems": [
    "C129_color_text_refuted",
    "C129_any_text_partial"
   ],
   "note": "REFUTED in full generality: #12345 gives the colour None, #-00001 gives -1. Proved: what can come of any text."
  },
  {
   "property": "C130",
   "status": "proved",
   "theorems": [
    "C130_points"
   ],
   "note": ""
  },
  {
   "property": "C131",
   "status": "partial",
   "theorems": [
    "C131_iadd_refuted",
    "C131_only_adds_partial",
    "C131_add_color"
   ],
   "note": "REFUTED in full generality: the empty list leaves None in the variable, an odd list of numbers is half added. Proved: stitches and threads are only ever added at the end; adding a colour text."
  },
  {
   "property": "C132",
   "status": "partial",
   "theorems": [
    "C132_equality",
    "C132_mixed_refuted"
   ],
   "note": "Proved between threads; REFUTED with numbers and texts: different threads equal the same number."
  },
  {
   "property": "C133",
   "status": "proved",
   "theorems": [
    "C133_blocks"
   ],
   "note": ""
  },
  {
   "property": "C134",
   "status": "proved",
   "theorems": [
    "C134_stable"
   ],
   "note": ""
  },
  {
   "property": "C135",
   "status": "partial",
   "theorems": [
    "C135_stable_again_refuted",
    "C134_stable"
   ],
   "note": "REFUTED in full generality: the stitch blocks of a stable pattern all have its first thread, because colour breaks are not counted."
  },
  {
   "property": "C136",
   "status": "proved",
   "theorems": [
    "C136_read_by_name",
    "C136_write_by_name",
    "C136_other_names",
    "C136_one_format",
    "C136_own_modules"
   ],
   "note": "for any readers, writers and encoder"
  },
  {
   "property": "C137",
   "status": "partial",
   "theorems": [
    "C137_listed_extensions_refuted",
    "C137_listed_extensions_partial"
   ],
   "note": "REFUTED in full generality: rose.u02 is neither read nor written although the u01 format lists u02; only the first field, not the list, is looked up. Proved for all formats but six (svg, u01, exy, fxy, zxy, gcode)."
  },
  {
   "property": "C138",
   "status": "proved",
   "theorems": [
    "C138_save_touches_one_file"
   ],
   "note": "for any readers, writers and encoder"
  },
  {
   "property": "C139",
   "status": "partial",
   "theorems": [
    "C139_failed_save_refuted",
    "C139_failed_save_partial"
   ],
   "note": "REFUTED in full generality: a DST save that stops at a stitch too long (or at a name that cannot be put in the header) leaves the first stitches only (or an empty file) in place of the design saved before. Proved: the files are as before, or the writer raised and the file holds what it had written until then."
  },
  {
   "property": "C140",
   "status": "proved",
   "theorems": [
    "C140_convert",
    "C140_convert_fails"
   ],
   "note": "for any readers, writers and encoder"
  },
  {
   "property": "C141",
   "status": "proved",
   "theorems": [
    "C141_saved_and_read",
    "C141_dst_by_name"
   ],
   "note": "general part for any formats; the DST part under the same conditions as C116"
  },
  {
   "property": "C142",
   "status": "proved",
   "theorems": [
    "C142_version"
   ],
   "note": ""
  },
  {
   "property": "C143",
   "status": "partial",
   "theorems": [
    "C143_open_refuted",
    "C143_open_partial"
   ],
   "note": "REFUTED in full generality: names of formats without a reader, and files that do not exist under names without a known extension, give an empty pattern without an exception. Proved for formats with a reader."
  },
  {
   "property": "C144",
   "status": "partial",
   "theorems": [
    "C144_pes_readable_refuted",
    "C144_pes_readable_partial"
   ],
   "note": "REFUTED in full generality: version 5 writes an empty file and raises nothing; reading it raises. Proved for versions 1 and 6, asked for in any way, for designs as in C72 and C73."
  },
  {
   "property": "C145",
   "status": "partial",
   "theorems": [
    "C145_silent_refuted",
    "C145_silent_partial"
   ],
   "note": "REFUTED in full generality: converting from a format that cannot be read (rose.svg) does nothing and raises nothing. Proved for source formats with a reader."
  },
  {
   "property": "C146",
   "status": "proved",
   "theorems": [
    "C146_threads_kept"
   ],
   "note": "threads as references into the design's list, Filler beyond it"
  },
  {
   "property": "C147",
   "status": "proved",
   "theorems": [
    "C147_blocks"
   ],
   "note": ""
  },
  {
   "property": "C148",
   "status": "proved",
   "theorems": [
    "C148_pes_version_6",
    "C148_pes_version_1",
    "C148_pec",
    "C148_default_settings"
   ],
   "note": "encoder, writer and reader composed; exact rational arithmetic"
  },
  {
   "property": "C149",
   "status": "proved",
   "theorems": [
    "C149_dst",
    "C149_exp",
    "C149_jef",
    "C149_jef_neighbours",
    "C148_default_settings"
   ],
   "note": "encoder, writer and reader composed; the JEF palette is a parameter"
  },
  {
   "property": "C150",
   "status": "proved",
   "theorems": [
    "C150_jef_colours"
   ],
   "note": ""
  },
  {
   "property": "C151",
   "status": "partial",
   "theorems": [
    "C151_same_thread_refuted",
    "C151_same_thread_partial"
   ],
   "note": "REFUTED in full generality: after a block in 0xFF0000, two blocks of thread 0xFE0000 come back as 0xF0331F and 0xFF0000. The partial theorem covers threads of colours in the table whose different neighbours differ in colour."
  },
  {
   "property": "C152",
   "status": "proved",
   "theorems": [
    "C152_dst",
    "C152_exp",
    "C152_jef",
    "C152_pec",
    "C152_pes_version_6",
    "C152_default_settings"
   ],
   "note": "file_design in ConvertSpec.v describes the designs; C152_default_settings and C148_default_settings show that the writers' own settings qualify; C152_case and C154_run run an example."
  },
  {
   "property": "C153",
   "status": "proved",
   "theorems": [
    "C153_exp",
    "C153_pec",
    "C153_dst",
    "C153_jef"
   ],
   "note": "C153_dst_needs shows that the condition on sequins is needed."
  },
  {
   "property": "C154",
   "status": "proved",
   "theorems": [
    "C154_conversions"
   ],
   "note": "Induction over the sequence of conversions; C154_run runs EXP to EXP to DST."
  },
  {
   "property": "C155",
   "status": "proved",
   "theorems": [
    "C155_no_sequins"
   ],
   "note": ""
  },
  {
   "property": "C156",
   "status": "partial",
   "theorems": [
    "C156_offset_partial",
    "C156_offset_refuted"
   ],
   "note": "REFUTED in full generality: after translate, after add_command, and after inserting into an empty pattern the next offset counts from somewhere else. Proved for all histories without these."
  },
  {
   "property": "C157",
   "status": "proved",
   "theorems": [
    "C157_singleton",
    "C157_unique"
   ],
   "note": ""
  },
  {
   "property": "C158",
   "status": "proved",
   "theorems": [
    "C158_match",
    "C158_numbered"
   ],
   "note": ""
  },
  {
   "property": "C159",
   "status": "proved",
   "theorems": [
    "C159_vp3_sections"
   ],
   "note": "The general form of C18 without its condition on extents and colour-change places; C18 itself stays refuted."
  },
  {
   "property": "C160",
   "status": "proved",
   "theorems": [
    "C160_stays_in_frame"
   ],
   "note": "Over exact rationals; of the direction of a lock stitch only that its point lies between needle and anchor is used."
  },
  {
   "property": "C161",
   "status": "partial",
   "theorems": [
    "C161_pierces_in_frame_partial",
    "C161_pierces_in_frame_refuted"
   ],
   "note": "REFUTED in full generality: a TIE_ON command before the first stitch (with tie-on enabled) sews four stitches on the way from the origin, and one at the origin. Proved for all patterns without TIE_ON and TIE_OFF commands; locks made by the settings stay inside."
  },
  {
   "property": "C162",
   "status": "proved",
   "theorems": [
    "C162_exp_plain",
    "C162_exp_resaved",
    "C162_encoded_again"
   ],
   "note": ""
  },
  {
   "property": "C163",
   "status": "partial",
   "theorems": [
    "C163_leading_changes_lost_refuted",
    "C162_exp_plain"
   ],
   "note": "REFUTED in full generality: the colour changes before the first stitch are lost one with each save (a file with two of them loads and saves as a file with one, then with none). C162 is the true part: with a stitch before the first colour change the file stays the same."
  },
  {
   "property": "C164",
   "status": "proved",
   "theorems": [
    "C164_no_drift"
   ],
   "note": ""
  },
  {
   "property": "C165",
   "status": "partial",
   "theorems": [
    "C165_no_displacement_refuted",
    "C165_no_displacement_on_grid"
   ],
   "note": "REFUTED in full generality: -7, x, x with x the double just below a half is written as -7, 8, -1. Proved for coordinates up to 2^20 that are multiples of 2^-30 (for instance whole units or quarters)."
  },
  {
   "property": "C166",
   "status": "proved",
   "theorems": [
    "C166_encodes",
    "C166_steps_fit",
    "C166_dst",
    "C166_exp",
    "C166_pec",
    "C166_jef",
    "C166_direction"
   ],
   "note": "The point in a direction at a distance, used by lock stitches, is a parameter required to be at most one unit further on each axis than that distance; C166_direction proves this of the code's own function for every cosine and sine between -1 and 1. JEF as in C20: what is encoded sews and does not begin with a colour change, no explicit ties."
  },
  {
   "property": "C167",
   "status": "proved",
   "theorems": [
    "C167_exp",
    "C167_dst",
    "C167_jef",
    "C167_pec",
    "C167_put_plain"
   ],
   "note": "Direction parameter and JEF conditions as in C166."
  },
  {
   "property": "C168",
   "status": "proved",
   "theorems": [
    "C168_zhs"
   ],
   "note": ""
  },
  {
   "property": "C169",
   "status": "proved",
   "theorems": [
    "C169_type_error",
    "C169_any"
   ],
   "note": ""
  },
  {
   "property": "C170",
   "status": "proved",
   "theorems": [
    "C170_last_value"
   ],
   "note": ""
  },
  {
   "property": "C171",
   "status": "partial",
   "theorems": [
    "C171_encoded",
    "C171_written",
    "C171_txt_refuted",
    "C171_txt"
   ],
   "note": "REFUTED in full generality: TXT prints all the bits of a colour (C171_txt_refuted, witness: a red thread with and without an opaque alpha byte). Proved for the encoder (C171_encoded: same stitches and equal threads) and for EDR, COL, INF, CSV, JSON, GCODE, DST, VP3, TBF, XXX, JEF, PEC, PES, SVG and PNG (C171_written); for TXT if the colours have 24 bits or with the setting mimic (C171_txt). The models of the remaining writers (EXP, U01, PMV) take no threads."
  },
  {
   "property": "C172",
   "status": "proved",
   "theorems": [
    "C172_stitches",
    "C172_recolour"
   ],
   "note": "Over any arithmetic of the model's Num interface: exact rationals, reals and the double model alike. With needles being set (thread_change_command NEEDLE_SET) the number of threads in the result is that of the pattern."
  },
  {
   "property": "C173",
   "status": "partial",
   "theorems": [
    "C173_refuted",
    "C173_design",
    "C173_version_6_exact"
   ],
   "note": "REFUTED in full generality: a colour change directly after a stop or another colour change is lost, because adjacent colour changes are one command block and advance the colour counter once; what follows is shown in the colour of the thread before it (C173_refuted: stop, then colour change). Proved for all patterns in which no colour change or stop directly follows another (C173_design, for versions 1 and 6; C173_version_6_exact: the version 6 colours are exact)."
  },
  {
   "property": "C174",
   "status": "proved",
   "theorems": [
    "C174_history",
    "C174_fails",
    "C174_product"
   ],
   "note": "Over exact reals (standard axioms of Coq's reals)."
  },
  {
   "property": "C175",
   "status": "partial",
   "theorems": [
    "C175_equal_refuted",
    "C175_print_refuted",
    "C175_in_place_refuted",
    "C175_equal",
    "C175_print"
   ],
   "note": "REFUTED in full generality: a new matrix holds a tuple and every multiplication makes a list, so a new matrix and one translated by (0, 0) differ, a changed matrix cannot be printed (TypeError), and m @= n always leaves None in m. Proved: equality and printing are decided exactly by the numbers and whether the matrices were multiplied since they were made or reset."
  },
  {
   "property": "C176",
   "status": "proved",
   "theorems": [
    "C176_pec_stable",
    "C176_pec_same",
    "C176_loaded",
    "C176_third",
    "C176_resaved",
    "C176_encoded"
   ],
   "note": "Exact rational arithmetic. The stitch data block; labels, colour bytes and pictures of the file are not compared here. C176_third and C176_resaved are for all fitting settings."
  },
  {
   "property": "C177",
   "status": "partial",
   "theorems": [
    "C177_pec_resaved_refuted",
    "C176_pec_same",
    "C176_pec_stable"
   ],
   "note": "REFUTED in full generality: after a jump without a trim a stitch along one axis is written without a needle-down; loading puts a trim before the jump, and saving adds a jump to where the stitch ends. True for designs that jump only with cut thread (C176_pec_same) and from the second save on (C176_pec_stable)."
  },
  {
   "property": "C178",
   "status": "proved",
   "theorems": [
    "C178_vp3_document"
   ],
   "note": "Independent reader (Vp3FileSpec.v) that refuses anything but nested blocks of exactly the recorded lengths; the library's own reader is not used. Coordinates are integers, as the encoder produces with rounding on."
  },
  {
   "property": "C179",
   "status": "partial",
   "theorems": [
    "C179_vp3_colours_partial",
    "C179_vp3_colours_refuted"
   ],
   "note": "REFUTED in full generality: with 256 colours the header says 0 while the file has 256 blocks. True for fewer than 256 colours."
  },
  {
   "property": "C180",
   "status": "proved",
   "theorems": [
    "C180_dst_loaded_again"
   ],
   "note": "Model: dst_read, transcode, dst_write on exact coordinates; the trim interpolation with the default clipping and no trim_distance."
  },
  {
   "property": "C181",
   "status": "proved",
   "theorems": [
    "C181_dst_same_file"
   ],
   "note": "As C180."
  },
  {
   "property": "C182",
   "status": "partial",
   "theorems": [
    "C182_dst_resave_refuted",
    "C180_dst_loaded_again",
    "C181_dst_same_file"
   ],
   "note": "REFUTED in full generality: leading colour changes are dropped one per save; a colour change whose record moves is put back to the needle; jumps after it may vanish with the second save, so that the first resaved file is not a fixed point. C180 and C181 are the restriction that holds."
  },
  {
   "property": "C183",
   "status": "proved",
   "theorems": [
    "C183_vp3_fractions",
    "C183_whole_coordinates"
   ],
   "note": "Writer modelled on exact rationals; C183_whole_coordinates: on integers it is the writer of C17, C18, C159, C178."
  },
  {
   "property": "C184",
   "status": "proved",
   "theorems": [
    "C184_vp3_pipeline",
    "C184_default_settings"
   ],
   "note": "Positions are those of sewn_at, as in C24 and C146 (the matrix of the settings, rounded if asked for)."
  },
  {
   "property": "C185",
   "status": "partial",
   "theorems": [
    "C185_speed_refuted",
    "C185_speed_in_place_partial"
   ],
   "note": "REFUTED in full generality: the VP3 writer takes the displacement of a SLOW or FAST for done without writing it, and saving as VP3 leaves writes_speeds on; after a jump of 100 units and a SLOW the following stitches come back 100 units off. True where the speed command is given at the last stitch."
  },
  {
   "property": "C186",
   "status": "partial",
   "theorems": [
    "C186_far_off_refuted",
    "C183_vp3_fractions"
   ],
   "note": "REFUTED in full generality: forty one-stitch sections along y = 0, 0.9 units apart, all come back at the origin, the last 35.1 units off. True (C183) if colour changes are made two units from both axes."
  },
  {
   "property": "C187",
   "status": "partial",
   "theorems": [
    "C187_wanders_refuted",
    "C18_vp3_write_read_partial",
    "C159_vp3_sections"
   ],
   "note": "REFUTED in full generality: in a design 101 units wide and high the second section moves by one unit at each of thirty savings. A single saving moves sections by at most one unit (C159); if the middle of the extents is whole, by none (C18)."
  },
  {
   "property": "C188",
   "status": "proved",
   "theorems": [
    "C188_jef",
    "C188_pec",
    "C188_pes",
    "C188_pes_cut_table",
    "C188_tbf",
    "C188_xxx",
    "C188_xxx_cut",
    "C188_vp3"
   ],
   "note": "Exact for JEF, PEC, TBF and XXX and for PES files without a thread table; for VP3 the possible outcomes. The trim interpolation after the JEF reader is not part of this theorem."
  },
  {
   "property": "C189",
   "status": "proved",
   "theorems": [
    "C189_matrix_commands"
   ],
   "note": "Over exact reals (axioms of Coq's Reals). C189_case carries out a design with a translation and a scale about the needle."
  },
  {
   "property": "C190",
   "status": "proved",
   "theorems": [
    "C190_added_pattern_placed"
   ],
   "note": "Over exact reals; composed of C60 and C189. C190_case: a stitch added with displacement (2, 0) and scale 2."
  },
  {
   "property": "C191",
   "status": "partial",
   "theorems": [
    "C191_append_translation_refuted",
    "C191_append_translation_partial",
    "C191_append_translation_at_origin_partial"
   ],
   "note": "REFUTED in full generality: the translation is made relative to the last position, so a pattern that has moved to (3, 4) is translated by (3+x, 4+y). Proved: what follows is moved by the last position plus (x, y), which is the documented effect exactly when the last position is the origin."
  },
  {
   "property": "C192",
   "status": "proved",
   "theorems": [
    "C192_picture_text",
    "C192_whole",
    "C192_no_stride"
   ],
   "note": ""
  },
  {
   "property": "C193",
   "status": "proved",
   "theorems": [
    "C193_strokes"
   ],
   "note": ""
  },
  {
   "property": "C194",
   "status": "proved",
   "theorems": [
    "C194_csv_pictures"
   ],
   "note": ""
  },
  {
   "property": "C195",
   "status": "partial",
   "theorems": [
    "C195_saving_values",
    "C195_csv_from_pec_refuted"
   ],
   "note": "REFUTED in full generality: a file whose stride byte is 0 loads and then saving raises ValueError (range() with a step of 0). Proved: preparing the metadata fails exactly when a picture has a stride of 0, and then with ValueError."
  },
  {
   "property": "C196",
   "status": "proved",
   "theorems": [
    "C196_encoding_again_changes_nothing"
   ],
   "note": "Doubles as rounded reals (FNum), any cosine, sine and direction function; real-number axioms of the standard library."
  },
  {
   "property": "C197",
   "status": "partial",
   "theorems": [
    "C197_encoding_again_refuted"
   ],
   "note": "REFUTED in full generality: a colour change that asks for thread 5 gets a made-up thread in the second encoding, and of two colour changes before the first stitch the second encoding drops one, with a thread. The strongest true version is C196."
  },
  {
   "property": "C198",
   "status": "proved",
   "theorems": [
    "C198_encode_onto_itself",
    "C198_succeeds"
   ],
   "note": "Any object sharing and any arithmetic; metadata keys distinct as in a dictionary."
  },
  {
   "property": "C199",
   "status": "proved",
   "theorems": [
    "C199_section_threads"
   ],
   "note": "About the section as read, before repeated neighbouring colours are turned into stops."
  },
  {
   "property": "C200",
   "status": "proved",
   "theorems": [
    "C200_inf_lengths"
   ],
   "note": "Names outside ASCII are C65 (refuted)."
  },
  {
   "property": "C201",
   "status": "proved",
   "theorems": [
    "C201_same_table"
   ],
   "note": "Rows are not empty lines; csv.reader of the standard library is modelled as a state machine."
  },
  {
   "property": "C202",
   "status": "proved",
   "theorems": [
    "C202_compressed_streams",
    "C202_one_meaning"
   ],
   "note": "The grammar is in ExpandSpec.v. The fuel is the number of tokens plus one; C48 bounds it from the size of the data."
  },
  {
   "property": "C203",
   "status": "proved",
   "theorems": [
    "C203_jef_saved_again",
    "C203_jef_settles",
    "C203_jef_settled",
    "C203_jef_defaults",
    "C203_two_saves_needed"
   ],
   "note": "Exact arithmetic in the encoder; threads put in for missing ones are arbitrary."
  },
  {
   "property": "C204",
   "status": "proved",
   "theorems": [
    "C204_jef_trims",
    "C204_one_list"
   ],
   "note": "The trims are described by the relation jef_loads, which determines one list (C204_one_list)."
  },
  {
   "property": "C205",
   "status": "proved",
   "theorems": [
    "C205_vp3_anywhere",
    "C205_pec_anywhere",
    "C205_inf_anywhere",
    "C205_vp3_read",
    "C205_pec_read",
    "C205_two_designs"
   ],
   "note": "The writers are modelled operation by operation on a stream with write, tell and seek, and shown to write what the models of whole files say. VP3 with integer coordinates."
  },
  {
   "property": "C206",
   "status": "partial",
   "theorems": [
    "C206_dst_refuted",
    "C206_u01_refuted",
    "C206_jef_refuted",
    "C206_dst_at",
    "C206_dst_alone",
    "C206_jef_alone"
   ],
   "note": "REFUTED in full generality: the DST and U01 writers fill the header up to a position of the stream, so behind k bytes the header is k bytes short and, for k = 3, the first stitch is lost; the JEF reader looks for the stitches at a position counted from the beginning of the stream. What is written at a position is stated exactly for DST (C206_dst_at); at position 0 all is well."
  },
  {
   "property": "C207",
   "status": "partial",
   "theorems": [
    "C207_equality",
    "C207_same_calls_partial",
    "C207_same_calls_refuted"
   ],
   "note": "REFUTED in full generality: patterns made by translate, by a raw command or by an insertion into an empty pattern are equal to a pattern of stitches, but the next offset counts from another place. The first sentence is proved; the second is proved for patterns made by calls that keep count of the last command. Metadata is not part of these patterns."
  },
  {
   "property": "C208",
   "status": "partial",
   "theorems": [
    "C208_csv_settles",
    "C208_quote_refuted"
   ],
   "note": "REFUTED in full generality: a quote in a text is written without doubling; the first save changes the text, the second loses it and the entry after it. Proved for every file whose loaded texts have no quote and no NUL, whose threads have colours and whose commands have names and numbers that fit. Coordinates are abstract with a printing that reads back, as in C66."
  },
  {
   "property": "C209",
   "status": "proved",
   "theorems": [
    "C209_xxx_saved_again",
    "C209_xxx_settles",
    "C209_xxx_defaults",
    "C209_long_stitch_lost"
   ],
   "note": "Coordinates in exact arithmetic (they are integers after loading). C209_xxx_defaults: the settings the library completes for XXX qualify. Example C209_case runs a file with cut trims, a long jump, an unknown code and a missing thread through two saves."
  },
  {
   "property": "C210",
   "status": "proved",
   "theorems": [
    "C210_json_file_round_trip",
    "C210_json_ascii",
    "C210_pair_merged"
   ],
   "note": "Floats: any type with a repr of decimal shape that float() reads back. The exception for surrogate pairs is shown to be needed by C210_pair_merged. NaN and infinities are not modelled."
  },
  {
   "property": "C211",
   "status": "proved",
   "theorems": [
    "C211_truncated_refused",
    "C211_trailing_blanks",
    "C211_trailing_text_refused"
   ],
   "note": "json.load runs before anything is added to the pattern."
  },
  {
   "property": "C212",
   "status": "proved",
   "theorems": [
    "C212_json_settles",
    "C212_json_saved",
    "C212_no_command_refuted"
   ],
   "note": "The exception for NO_COMMAND is part of the statement; C212_no_command_refuted is its witness. A file in which a thread attribute is neither text nor null, or a coordinate is no number, counts as not loadable in the model."
  },
  {
   "property": "C213",
   "status": "proved",
   "theorems": [
    "C213_line_ends",
    "C213_windows"
   ],
   "note": "Stated for files that load; nothing is said about files that do not."
  },
  {
   "property": "C214",
   "status": "proved",
   "theorems": [
    "C214_statistics",
    "C214_words"
   ],
   "note": ""
  },
  {
   "property": "C215",
   "status": "proved",
   "theorems": [
    "C215_metadata_harmless"
   ],
   "note": ""
  },
  {
   "property": "C216",
   "status": "proved",
   "theorems": [
    "C216_entries"
   ],
   "note": ""
  },
  {
   "property": "C217",
   "status": "partial",
   "theorems": [
    "C217_last_thread_partial",
    "C217_refuted"
   ],
   "note": "REFUTED in full generality: the thread looked up for a colour (GenericWriter.py 342) is never put among the values, so a colour's template shows the last thread of the pattern, or raises KeyError if no thread entry was asked for. Proved: in every template after the entries, thread values are those of the pattern's last thread, hence right for a pattern with one thread."
  },
  {
   "property": "C218",
   "status": "proved",
   "theorems": [
    "C218_conversions",
    "C218_no_texts",
    "C218_settles"
   ],
   "note": ""
  },
  {
   "property": "C219",
   "status": "proved",
   "theorems": [
    "C219_lines"
   ],
   "note": ""
  },
  {
   "property": "C220",
   "status": "proved",
   "theorems": [
    "C220_assigned"
   ],
   "note": "Stated with the index modulo the length and the latest assignment in the history; slices are in C221."
  },
  {
   "property": "C221",
   "status": "proved",
   "theorems": [
    "C221_read",
    "C221_cut",
    "C221_write"
   ],
   "note": "Slices without a step."
  },
  {
   "property": "C222",
   "status": "proved",
   "theorems": [
    "C222_iteration"
   ],
   "note": "The loop of Python's old sequence protocol is modelled with explicit fuel; it ends for every fuel above the number of stitches."
  },
  {
   "property": "C223",
   "status": "proved",
   "theorems": [
    "C223_printed"
   ],
   "note": ""
  },
  {
   "property": "C224",
   "status": "partial",
   "theorems": [
    "C224_refuted",
    "C224_copy_partial",
    "C31_copy_equal"
   ],
   "note": "REFUTED in full generality: __deepcopy__ takes no memo argument, so copy.deepcopy raises TypeError for every pattern; called directly it shares the stitch objects. The part about copy.copy is proved."
  },
  {
   "property": "C225",
   "status": "partial",
   "theorems": [
    "C225_refuted",
    "C225_chosen_partial",
    "C225_without_tables"
   ],
   "note": "REFUTED in full generality: the key is filled in before the positions are updated, so a key made of x or y asks for the position of the command before, and raises KeyError at the first. Proved for keys made of index, command, name, thread, needle and order, with files of segments only."
  },
  {
   "property": "C226",
   "status": "proved",
   "theorems": [
    "C226_hus",
    "C226_hus_distinct",
    "C226_shv",
    "C226_shv_distinct"
   ],
   "note": "The palettes themselves are checked entry by entry by computation; the theorems range over files."
  },
  {
   "property": "C227",
   "status": "partial",
   "theorems": [
    "C227_appended_partial",
    "C227_only_first_sewn",
    "C227_refuted"
   ],
   "note": "REFUTED in full generality: a second file begins where the first ended, and its design stands behind the END of the first, so that encoding drops it (C227_refuted). C227_appended_partial: for all patterns and lists of files, the old stitches stay and each design follows, moved to where the one before ended. C227_only_first_sewn: for every EXP file followed by any files, the encoded pattern has the needle points of the first file only."
  },
  {
   "property": "C228",
   "status": "partial",
   "theorems": [
    "C228_again",
    "C228_same_partial",
    "C228_refuted"
   ],
   "note": "REFUTED in full generality: the middle of a design of odd size is a tie that round() takes to the even number, so that the two results are one unit apart (C228_refuted). C228_again: centring twice is centring once. C228_same_partial: the two results are at most one unit apart each way, and equal where the shift is even or the middle is no tie."
  },
  {
   "property": "C229",
   "status": "proved",
   "theorems": [
    "C229_work",
    "C229_stops_and_speeds"
   ],
   "note": "For every arithmetic the encoder may run on. C229_stops_and_speeds: stops and speeds are exactly those of the design. Positions of the stitches are in C24."
  },
  {
   "property": "C230",
   "status": "proved",
   "theorems": [
    "C230_exp"
   ],
   "note": "By C229, C117 and the EXP round trip."
  },
  {
   "property": "C231",
   "status": "proved",
   "theorems": [
    "C231_dst",
    "C231_jef"
   ],
   "note": "By C229 and the round trips of C20. JEF: the pattern as decoded, before trims are interpolated."
  },
  {
   "property": "C232",
   "status": "proved",
   "theorems": [
    "C232_u01"
   ],
   "note": "By C229 (for needle changes), C124 and the U01 round trip."
  },
  {
   "property": "C233",
   "status": "proved",
   "theorems": [
    "C233_xxx"
   ],
   "note": "By C229, C120 and C125."
  },
  {
   "property": "C234",
   "status": "partial",
   "theorems": [
    "C234_tbf_partial",
    "C234_refuted"
   ],
   "note": "REFUTED in full generality: a jump that goes nowhere is written as the record that the reader takes for a cut, so the loaded design has a cut nobody asked for (C234_refuted). Proved for every design: the needle changes and stops between the same stitches; and the cuts too whenever no written jump is in place (C234_tbf_partial)."
  },
  {
   "property": "C235",
   "status": "proved",
   "theorems": [
    "C235_pec",
    "C235_pes"
   ],
   "note": "Whole files. Cuts are not part of the claim: these formats store a cut with every jump."
  },
  {
   "property": "C236",
   "status": "proved",
   "theorems": [
    "C236_vp3"
   ],
   "note": ""
  },
  {
   "property": "C237",
   "status": "proved",
   "theorems": [
    "C237_gcode",
    "C237_default_settings"
   ],
   "note": "The encoder's theorems C24, C115 and C229 composed with the G-code round trip C97; the writer's own settings meet the conditions (C237_default_settings)."
  },
  {
   "property": "C238",
   "status": "partial",
   "theorems": [
    "C238_gcode_colours_partial",
    "C238_refuted"
   ],
   "note": "REFUTED in full generality: the writer puts M00 for a stop as well as for a colour change, and the reader loads both as a colour change, so after a stop every stitch has the next thread and the last section has none (C238_refuted). Proved for designs that never stop (no STOP or FRAME_EJECT)."
  },
  {
   "property": "C239",
   "status": "partial",
   "theorems": [
    "C239_again_partial",
    "C239_refuted"
   ],
   "note": "REFUTED in full generality: a loaded design that begins with a colour change (two changes, or a stop, before the first stitch) loses that change at the next save (C239_refuted). Proved for all loaded designs that do not begin with a colour change; that the second save and load always succeed is proved without that condition."
  },
  {
   "property": "C240",
   "status": "proved",
   "theorems": [
    "C240_exp",
    "C240_dst",
    "C240_xxx",
    "C240_stop_shifts_threads"
   ],
   "note": "The thread numbers of C146 composed with the order of commands of C230, C231 and C233. JEF is left to C150, VP3 to C184, PEC and PES to C148."
  },
  {
   "property": "C241",
   "status": "proved",
   "theorems": [
    "C241_u01",
    "C241_tbf"
   ],
   "note": "What C232 and C234 say about the order of commands, read against the numbers of the design's threads by induction over the design. Which needle number each change names is C122 to C124."
  },
  {
   "property": "C242",
   "status": "proved",
   "theorems": [
    "C242_needles_in_turn",
    "C242_u01",
    "C242_tbf",
    "C242_256_threads_refuted"
   ],
   "note": "For every number type of the model; the file theorems are over the rationals. Limited, as the statement says, to the first 255 thread changes; C242_256_threads_refuted shows the limit is needed: the number of the 256th thread runs over into the needle field and the wrong needle is asked for."
  },
  {
   "property": "C243",
   "status": "proved",
   "theorems": [
    "C243_u01",
    "C243_tbf"
   ],
   "note": "Over the rationals, for any sine, cosine and direction helper as in C241."
  },
  {
   "property": "C244",
   "status": "partial",
   "theorems": [
    "C244_tbf",
    "C244_u01_partial",
    "C244_u01_refuted"
   ],
   "note": "REFUTED in full generality for U01: needle 15 is written as needle 1 (U01Writer.py 83-84), so fifteen threads on fifteen needles have the first and the last thread on one needle (C244_u01_refuted). Proved for U01 with at most 14 needles and for TBF with any number."
  },
  {
   "property": "C245",
   "status": "proved",
   "theorems": [
    "C245_pec",
    "C245_pes"
   ],
   "note": "Over the rationals, for any sine, cosine and direction helper as in C235. The loaded pattern may sew once more where a jump lands (C235); such stitches are extra. Colours of PEC files are the nearest in the palette (C71)."
  },
  {
   "property": "C246",
   "status": "proved",
   "theorems": [
    "C246_jef"
   ],
   "note": "Over the rationals, for any sine, cosine and direction helper as in C231. With stops the claim fails: see C53."
  }
 ]
}