{
 "claims": [
  {
   "property": "C01",
   "status": "partial",
   "theorems": [
    "C01_names_round_trip",
    "C01_nul_refused",
    "C01_long_names_refuted"
   ],
   "note": "Proved for every name whose escaped form fits the 4095-byte token buffer; longer names do not survive (refuted with a witness)."
  },
  {
   "property": "C02",
   "status": "proved",
   "theorems": [
    "C02_literal_strings_round_trip"
   ],
   "note": ""
  },
  {
   "property": "C03",
   "status": "proved",
   "theorems": [
    "C03_hex_strings_round_trip",
    "C03_hex_strings_conform"
   ],
   "note": ""
  },
  {
   "property": "C04",
   "status": "partial",
   "theorems": [
    "C04_integers_round_trip",
    "C04_followed_by",
    "C04_second_number_lost_refuted"
   ],
   "note": "Every 64-bit integer in every context that is not the start of a reference; the lookahead loses the second of two numbers at the end of the data."
  },
  {
   "property": "C05",
   "status": "proved",
   "theorems": [
    "C05_objects_round_trip",
    "C05_endobj",
    "C05_noinline_refuted"
   ],
   "note": "For all flag combinations except NoInlineLiteral without Clean (refuted: neighbouring numbers merge), and names/depth within the reader limits."
  },
  {
   "property": "C06",
   "status": "partial",
   "theorems": [
    "C06_reals_partial",
    "C06_reals_exact",
    "C06_reals_refuted"
   ],
   "note": "Value within half a unit of the sixth decimal and exact for decimals of 1-6 places; integral reals change type and large ones are rejected (refuted). Reals are exact decimals in the model."
  },
  {
   "property": "C07",
   "status": "partial",
   "theorems": [
    "C07_parsing_terminates",
    "C07_more_fuel_same",
    "C07_progress",
    "C07_array_nesting_partial",
    "C07_nesting_refuted"
   ],
   "note": "Termination, progress and absence of out-of-bounds proved; the nesting limit only holds for arrays, dictionaries nest without limit (refuted)."
  },
  {
   "property": "C09",
   "status": "proved",
   "theorems": [
    "C09_hex_round_trip"
   ],
   "note": ""
  },
  {
   "property": "C10",
   "status": "partial",
   "theorems": [
    "C10_hex_standard_partial",
    "C10_hex_marker_refuted"
   ],
   "note": "Proved for unmarked text with white space anywhere, and for an odd last digit before '>'; an even number of digits before '>' yields an extra byte (refuted)."
  },
  {
   "property": "C11",
   "status": "proved",
   "theorems": [
    "C11_ascii85_round_trip",
    "C11_ascii85_text"
   ],
   "note": ""
  },
  {
   "property": "C12",
   "status": "proved",
   "theorems": [
    "C12_filter_chains",
    "C12_reading_chains",
    "C12_filters_qualify"
   ],
   "note": "The Flate filter (zlib) enters as any filter pair with the round-trip property."
  },
  {
   "property": "C13",
   "status": "proved",
   "theorems": [
    "C13_declared_filters",
    "C13_declared_name",
    "C13_array_object_refuted"
   ],
   "note": "For stream dictionaries (the only use in the library) and names; an array object passed directly is ignored (refuted)."
  },
  {
   "property": "C14",
   "status": "partial",
   "theorems": [
    "C14_png_predictors_partial",
    "C14_tiff_predictor_partial",
    "C14_average_refuted",
    "C14_subbyte_refuted",
    "C14_odd_row_refuted",
    "C14_undefined_refuted"
   ],
   "note": "None, Up, Sub, Paeth and TIFF predictor 2 for whole-byte pixels; Average, sub-byte pixels and odd rows are false."
  },
  {
   "property": "C15",
   "status": "partial",
   "theorems": [
    "C15_literal_run_refuted",
    "C15_repeated_run_refuted"
   ],
   "note": "False of the code; the refutation is proved. "
  },
  {
   "property": "C16",
   "status": "partial",
   "theorems": [
    "C16_lzw_one_block_partial",
    "C16_lzw_splits_refuted"
   ],
   "note": "A conforming stream in one block decodes as the standard says; splits change the result (refuted)."
  },
  {
   "property": "C64",
   "status": "partial",
   "theorems": [
    "C64_ascii85_conforming_partial",
    "C64_marker_split_refuted"
   ],
   "note": ""
  },
  {
   "property": "C65",
   "status": "partial",
   "theorems": [
    "C65_eod_marker_refuted"
   ],
   "note": "False of the code; the refutation is proved. "
  },
  {
   "property": "C44",
   "status": "partial",
   "theorems": [
    "C44_round_trip_partial",
    "C44_accepts_partial",
    "C44_byte_22_refuted"
   ],
   "note": "Byte 0x16 maps to U+0017 like 0x17 and does not survive."
  },
  {
   "property": "C45",
   "status": "partial",
   "theorems": [
    "C45_text_round_trip_partial",
    "C45_reading",
    "C45_marked_refuted"
   ],
   "note": "All texts except those of PDFDocEncoding characters that begin like a byte order mark (refuted). End to end: written as a literal string, parsed, evaluated."
  },
  {
   "property": "C54",
   "status": "partial",
   "theorems": [
    "C54_guard_partial",
    "C54_shrinking_limit",
    "C54_guard_leaks_refuted",
    "C54_zero_limit_refuted"
   ],
   "note": "Exact while no error has happened; each error leaves the thread's limit one lower (refuted)."
  },
  {
   "property": "C55",
   "status": "proved",
   "theorems": [
    "C55_multiplication_overflow"
   ],
   "note": ""
  },
  {
   "property": "C56",
   "status": "proved",
   "theorems": [
    "C56_unsigned_round_trip",
    "C56_signed_round_trip",
    "C56_big_endian",
    "C56_reading",
    "C56_big_endian_host_refuted"
   ],
   "note": "Round trip on any host; the bytes are big-endian on little-endian hosts and reversed on big-endian hosts (refuted there)."
  },
  {
   "property": "C57",
   "status": "partial",
   "theorems": [
    "C57_keywords_partial",
    "C57_keywords_refuted"
   ],
   "note": "Only a single keyword survives; separators end up in the keywords."
  },
  {
   "property": "C58",
   "status": "partial",
   "theorems": [
    "C58_filters",
    "C58_short_filters",
    "C58_versions",
    "C58_annotations",
    "C58_colour_spaces_partial",
    "C58_calrgb_refuted"
   ],
   "note": "All but CalRGB."
  },
  {
   "property": "C66",
   "status": "partial",
   "theorems": [
    "C66_comparison_partial",
    "C66_evaluation_refuted",
    "C66_different_texts_refuted"
   ],
   "note": ""
  },
  {
   "property": "C67",
   "status": "partial",
   "theorems": [
    "C67_integer_text_partial",
    "C67_integer_text_refuted"
   ],
   "note": ""
  },
  {
   "property": "C68",
   "status": "partial",
   "theorems": [
    "C68_coincidence_partial",
    "C68_coincidence_refuted"
   ],
   "note": ""
  },
  {
   "property": "C69",
   "status": "proved",
   "theorems": [
    "C69_utf8_exact",
    "C69_utf16_round_trip"
   ],
   "note": ""
  },
  {
   "property": "C08",
   "status": "partial",
   "theorems": [
    "C08_next_token_partial",
    "C08_two_tokens",
    "C08_long_token_refuted",
    "C08_angle_at_end_refuted"
   ],
   "note": "Exact description for every input; tokens longer than the 4095-character buffer are cut and a final angle bracket is a literal (refuted)."
  },
  {
   "property": "C17",
   "status": "partial",
   "theorems": [
    "C17_round_trip_partial",
    "C17_text",
    "C17_calendar",
    "C17_offset_refuted"
   ],
   "note": "All seconds of the years 0..9999 and offsets below 60 hours, both formats; larger offsets are refuted. The calendar is proved Gregorian for all days."
  },
  {
   "property": "C18",
   "status": "partial",
   "theorems": [
    "C18_digits_partial",
    "C18_accepts_refuted"
   ],
   "note": "Exact for 14-digit texts; several kinds of garbage are accepted (refuted)."
  },
  {
   "property": "C70",
   "status": "partial",
   "theorems": [
    "C70_full_partial",
    "C70_no_seconds_partial",
    "C70_year_refuted"
   ],
   "note": "Dates given at least to the day; a bare year or month is read as a day in the preceding month (refuted)."
  },
  {
   "property": "C28",
   "status": "partial",
   "theorems": [
    "C28_create_partial",
    "C28_remove",
    "C28_clobbers_refuted",
    "C28_two_generations_refuted",
    "C28_zero_refuted"
   ],
   "note": "All histories in which the counter stays below 65535 or a free number is reused; beyond that object 1 is overwritten (refuted)."
  },
  {
   "property": "C29",
   "status": "partial",
   "theorems": [
    "C29_generation_partial",
    "C29_generation_refuted"
   ],
   "note": ""
  },
  {
   "property": "C30",
   "status": "partial",
   "theorems": [
    "C30_replace_partial",
    "C30_missing_refuted",
    "C30_foreign_refuted"
   ],
   "note": "References in use, same document; otherwise another object or the old object is lost (refuted)."
  },
  {
   "property": "C31",
   "status": "proved",
   "theorems": [
    "C31_collect"
   ],
   "note": "All histories and all trailers, cyclic graphs included. Recursion depth of the code is not bounded."
  },
  {
   "property": "C32",
   "status": "partial",
   "theorems": [
    "C32_append_partial",
    "C32_gap_refuted"
   ],
   "note": "Only lists without gaps in their numbering; refuted with a gap."
  },
  {
   "property": "C33",
   "status": "partial",
   "theorems": [
    "C33_insert_refuted"
   ],
   "note": "Refuted: the loop runs over the list it inserts into."
  },
  {
   "property": "C71",
   "status": "partial",
   "theorems": [
    "C71_clear_partial",
    "C71_clear_refuted"
   ],
   "note": ""
  },
  {
   "property": "C34",
   "status": "proved",
   "theorems": [
    "C34_lookup",
    "C34_has_key",
    "C34_remove_reports",
    "C34_keys_once"
   ],
   "note": "All histories of additions and removals."
  },
  {
   "property": "C35",
   "status": "partial",
   "theorems": [
    "C35_equal_partial",
    "C35_equivalence_partial",
    "C35_indirect",
    "C35_null_refuted",
    "C35_both_refuted",
    "C35_direct_indirect_refuted"
   ],
   "note": "Refuted: null == anything, != true for equal values, direct/indirect asymmetric. Proved: == is value equality without nulls."
  },
  {
   "property": "C36",
   "status": "partial",
   "theorems": [
    "C36_dirty_partial",
    "C36_growth_refuted",
    "C36_insert_refuted",
    "C36_resize_refuted"
   ],
   "note": "Histories of modifications that do not move array elements; refuted when elements are moved, and for resize."
  },
  {
   "property": "C62",
   "status": "partial",
   "theorems": [
    "C62_nearest_partial",
    "C62_terminates_partial",
    "C62_cycle_refuted"
   ],
   "note": "Nearest ancestor whenever the chain of parents is finite; refuted on cycles."
  },
  {
   "property": "C72",
   "status": "partial",
   "theorems": [
    "C72_assign_partial",
    "C72_self_refuted",
    "C72_child_refuted",
    "C72_parent_refuted"
   ],
   "note": "Places apart from each other; refuted otherwise."
  },
  {
   "property": "C73",
   "status": "partial",
   "theorems": [
    "C73_resolve_partial",
    "C73_histories_partial",
    "C73_growth_refuted"
   ],
   "note": "While array elements do not move; refuted after growth."
  },
  {
   "property": "C74",
   "status": "proved",
   "theorems": [
    "C74_add",
    "C74_insert",
    "C74_remove_at",
    "C74_set_at",
    "C74_out_of_range",
    "C74_add_key"
   ],
   "note": ""
  },
  {
   "property": "C75",
   "status": "partial",
   "theorems": [
    "C75_literal_strings_partial",
    "C75_octal_paren_refuted",
    "C75_ignored_backslash_refuted",
    "C75_continued_line_refuted",
    "C75_end_of_line_refuted"
   ],
   "note": "All literals without the four constructs that are refuted."
  },
  {
   "property": "C19",
   "status": "partial",
   "theorems": [
    "C19_table_lists_objects_partial",
    "C19_size",
    "C19_generations_refuted"
   ],
   "note": "Each number added once; refuted with two generations of a number."
  },
  {
   "property": "C20",
   "status": "partial",
   "theorems": [
    "C20_table_read_back_partial",
    "C20_objects_read_back_partial",
    "C20_subsections_refuted",
    "C20_offset_refuted",
    "C20_entry_line_ends",
    "C20_end_token"
   ],
   "note": "Up to 511 subsections and ten-digit offsets; refuted beyond."
  },
  {
   "property": "C21",
   "status": "partial",
   "theorems": [
    "C21_free_chain_partial",
    "C21_no_head_refuted"
   ],
   "note": "With entry 0 in the table; refuted when object 1 is absent."
  },
  {
   "property": "C22",
   "status": "partial",
   "theorems": [
    "C22_stream_read_back_partial",
    "C22_offset_refuted",
    "C22_field_widths",
    "C22_no_index"
   ],
   "note": "Offsets below 2^32; refuted for all others."
  },
  {
   "property": "C23",
   "status": "partial",
   "theorems": [
    "C23_stream_bounds_partial",
    "C23_stream_bounds_refuted"
   ],
   "note": "Data of whole entries; refuted otherwise."
  },
  {
   "property": "C76",
   "status": "partial",
   "theorems": [
    "C76_written_text_partial",
    "C76_no_spaces_refuted"
   ],
   "note": "Reals of at most six decimals, layouts with separators; refuted for the layout without any."
  },
  {
   "property": "C24",
   "status": "partial",
   "theorems": [
    "C24_newest_wins_partial",
    "C24_long_chain_refuted",
    "C24_header_offset_refuted"
   ],
   "note": "Chains within the recursion guard and header at the start; refuted from 128 tables on and for leading bytes."
  },
  {
   "property": "C25",
   "status": "partial",
   "theorems": [
    "C25_once_partial",
    "C25_stops",
    "C25_streams_refuted"
   ],
   "note": "Offsets are visited once and reading stops; refuted for streams named by XRefStm, which can be read again."
  },
  {
   "property": "C26",
   "status": "partial",
   "theorems": [
    "C26_again_partial",
    "C26_header_partial",
    "C26_again_refuted"
   ],
   "note": "Only when no section has been read; refuted after every successful parse."
  },
  {
   "property": "C27",
   "status": "partial",
   "theorems": [
    "C27_sound",
    "C27_found_partial",
    "C27_found_refuted"
   ],
   "note": "Found when what precedes has no % or ends in another byte; refuted for %%PDF-."
  },
  {
   "property": "C77",
   "status": "partial",
   "theorems": [
    "C77_end_partial",
    "C77_end_refuted"
   ],
   "note": "At most 512 bytes from startxref to the marker; refuted for strict mode with a final line end and startxref at the start of the buffer."
  },
  {
   "property": "C78",
   "status": "partial",
   "theorems": [
    "C78_trailer_partial",
    "C78_trailer_refuted"
   ],
   "note": "Refuted with a table without trailer; success implies a trailer."
  },
  {
   "property": "C37",
   "status": "partial",
   "theorems": [
    "C37_update_partial",
    "C37_history_partial",
    "C37_save_total",
    "C37_spelled_partial",
    "C37_header_refuted"
   ],
   "note": "Without streams, at most 510 changes per update and 126 updates; refuted when bytes precede the header."
  },
  {
   "property": "C79",
   "status": "partial",
   "theorems": [
    "C79_save_load_partial",
    "C79_free_refuted",
    "C79_empty_object"
   ],
   "note": "Without streams and encryption, fewer than 511 entries; refuted for free entries, whose generation grows."
  },
  {
   "property": "C60",
   "status": "partial",
   "theorems": [
    "C60_set_read_partial",
    "C60_append_partial",
    "C60_predictor_applies",
    "C60_decodeparms_refuted",
    "C60_parms_array_refuted",
    "C60_copy",
    "C60_move"
   ],
   "note": "zlib is any pair where decoding undoes encoding. Refuted where /DecodeParms of former data is left."
  },
  {
   "property": "C80",
   "status": "partial",
   "theorems": [
    "C80_refused_append_partial",
    "C80_refused_unwrap",
    "C80_refused_set_refuted"
   ],
   "note": "Refuted for SetData with a filter that cannot encode: the old data is cleared first."
  },
  {
   "property": "C81",
   "status": "partial",
   "theorems": [
    "C81_unwrap_partial",
    "C81_media_refuted"
   ],
   "note": "Without media filters; refuted with one behind another filter, its declaration is lost."
  },
  {
   "property": "C63",
   "status": "partial",
   "theorems": [
    "C63_write_partial",
    "C63_write_load_partial",
    "C63_uncompressed_lost_refuted"
   ],
   "note": "Streams with filters or without compression; every stream without filters loses its data with the default options. Without encryption."
  },
  {
   "property": "C82",
   "status": "partial",
   "theorems": [
    "C82_data_found_partial",
    "C82_short_file_refuted",
    "C82_negative_length_refuted"
   ],
   "note": "Refuted for a file that ends early and for negative lengths."
  },
  {
   "property": "C61",
   "status": "partial",
   "theorems": [
    "C61_members_partial",
    "C61_layout",
    "C61_negative_offset_refuted",
    "C61_missing_member_refuted"
   ],
   "note": "Offsets not negative; a number missing from the table is skipped silently."
  },
  {
   "property": "C38",
   "status": "partial",
   "theorems": [
    "C38_tree_partial",
    "C38_deep_refuted"
   ],
   "note": "At most as many levels as the recursion guard allows; refuted for deeper trees, which are refused."
  },
  {
   "property": "C39",
   "status": "proved",
   "theorems": [
    "C39_any_graph",
    "C39_unguarded"
   ],
   "note": ""
  },
  {
   "property": "C40",
   "status": "proved",
   "theorems": [
    "C40_history",
    "C40_opens",
    "C40_index_refuted"
   ],
   "note": "The object is right; the index stored in a cached page object is not updated (C40_index_refuted)."
  },
  {
   "property": "C83",
   "status": "partial",
   "theorems": [
    "C83_resources_partial",
    "C83_far_refuted"
   ],
   "note": "Own entry or that of the nearest parent; refuted when only a farther ancestor has one."
  },
  {
   "property": "C84",
   "status": "proved",
   "theorems": [
    "C84_page_numbers",
    "C84_ends"
   ],
   "note": "At most 1000 levels, root without /Parent."
  },
  {
   "property": "C41",
   "status": "proved",
   "theorems": [
    "C41_map",
    "C41_value",
    "C41_empty_refuted"
   ],
   "note": "Keys as evaluated strings; recursion deep enough. The root without any entry raises an error on lookup (C41_empty_refuted)."
  },
  {
   "property": "C85",
   "status": "partial",
   "theorems": [
    "C85_dictionary",
    "C85_loop_refuted",
    "C85_odd_refuted"
   ],
   "note": "Holds for the dictionary; refuted for lookup and addition with loops and odd arrays."
  },
  {
   "property": "C42",
   "status": "partial",
   "theorems": [
    "C42_step",
    "C42_history_partial",
    "C42_continued_partial",
    "C42_loaded_refuted",
    "C42_insert_refuted",
    "C42_inserted_erase_refuted"
   ],
   "note": "Holds for outlines made in memory, all histories; refuted for loaded outlines and for InsertChild."
  },
  {
   "property": "C86",
   "status": "partial",
   "theorems": [
    "C86_total",
    "C86_load_partial",
    "C86_long_refuted",
    "C86_work_refuted"
   ],
   "note": "Holds for outlines that nest at most 256 constructors; refuted for 256 siblings and more, and for the amount of work."
  },
  {
   "property": "C50",
   "status": "partial",
   "theorems": [
    "C50_history_partial",
    "C50_roundtrip_partial",
    "C50_string",
    "C50_zero_key_refuted",
    "C50_zero_key_reread_refuted"
   ],
   "note": "Holds for all keys but those of zero bytes only, with keys of one length; refuted for a zero key, which the cache of the key schedule treats as already prepared."
  },
  {
   "property": "C51",
   "status": "proved",
   "theorems": [
    "C51_conform",
    "C51_user",
    "C51_owner",
    "C51_other"
   ],
   "note": "For any hash to 16 bytes and consistent settings (`ready`); the test compares as many bytes as the key has."
  },
  {
   "property": "C52",
   "status": "partial",
   "theorems": [
    "C52_settings_partial",
    "C52_new_ready",
    "C52_reopened_ready",
    "C52_rc4v1_refuted",
    "C52_metadata_refuted",
    "C52_metadata_v1_refuted"
   ],
   "note": "Holds for consistent settings; refuted for RC4V1 with more than 40 bits and for loaded RC4 documents with EncryptMetadata false."
  },
  {
   "property": "C87",
   "status": "partial",
   "theorems": [
    "C87_resave_partial",
    "C87_resave_refuted",
    "C87_lost_refuted",
    "C87_update_refuted"
   ],
   "note": "The password used goes on opening the document; refuted otherwise: the other password becomes empty, and updates cannot be opened."
  },
  {
   "property": "C88",
   "status": "partial",
   "theorems": [
    "C88_encrypt",
    "C88_string",
    "C88_any",
    "C88_load_partial",
    "C88_load_lucky_partial",
    "C88_load_refuted",
    "C88_short_refuted",
    "C88_small_reads_refuted",
    "C88_split_rest_refuted"
   ],
   "note": "Holds for strings, and for streams of up to 4112 bytes; refuted for longer streams (uninitialised variable) and for reads of other sizes."
  },
  {
   "property": "C53",
   "status": "partial",
   "theorems": [
    "C53_history",
    "C53_defined",
    "C53_determined",
    "C53_write_read",
    "C53_seek",
    "C53_seek_least_refuted",
    "C53_shortened_refuted",
    "C53_null_length",
    "C53_null_refuted"
   ],
   "note": "Any history of a device over bytes that nobody else changes, total below 2^63 bytes; refuted for the least offset, for containers shortened by others, and for the null device."
  },
  {
   "property": "C59",
   "status": "partial",
   "theorems": [
    "C59_corners",
    "C59_arrays",
    "C59_array_roundtrip",
    "C59_intersect_partial",
    "C59_intersect_zero_refuted",
    "C59_disjoint_refuted",
    "C59_matrix_partial",
    "C59_matrix_refuted"
   ],
   "note": "Exact rational numbers instead of doubles. Intersection with the rectangle of zeros, disjoint rectangles saved and loaded, and matrices that rotate by no quarter turn are refuted."
  },
  {
   "property": "C89",
   "status": "partial",
   "theorems": [
    "C89_identifier_refuted",
    "C89_identifier_zeros"
   ],
   "note": "Refuted: the identifier depends on the length of the information only."
  },
  {
   "property": "C90",
   "status": "proved",
   "theorems": [
    "C90_product",
    "C90_identity",
    "C90_translation",
    "C90_scale",
    "C90_translate",
    "C90_rotation"
   ],
   "note": "Exact rational numbers instead of doubles."
  },
  {
   "property": "C43",
   "status": "partial",
   "theorems": [
    "C43_longest_partial",
    "C43_exact_partial",
    "C43_runs_partial",
    "C43_decode",
    "C43_limits",
    "C43_order_refuted",
    "C43_point_refuted",
    "C43_size_refuted",
    "C43_overwrite_refuted"
   ],
   "note": "Holds for all histories in which no number is used with two sizes; refuted for two codes of one text, for the look up of one code point and for numbers with two sizes."
  },
  {
   "property": "C91",
   "status": "partial",
   "theorems": [
    "C91_encode_ends",
    "C91_decode_ends",
    "C91_round_trip_partial",
    "C91_refusal",
    "C91_sizes_refuted",
    "C91_moved_refuted"
   ],
   "note": "Round trip for codes of one size; refuted for several sizes and for encodings made from a map."
  },
  {
   "property": "C46",
   "status": "partial",
   "theorems": [
    "C46_ranges_partial",
    "C46_ends",
    "C46_text_refuted",
    "C46_undefined_refuted",
    "C46_full_refuted",
    "C46_name_refuted"
   ],
   "note": "Holds for destinations of one code point and for arrays, with any white space and spelling; refuted for all destinations of two or more code points; empty destinations, negative numbers and codes of five bytes are undefined."
  },
  {
   "property": "C47",
   "status": "partial",
   "theorems": [
    "C47_texts_partial",
    "C47_short_refuted"
   ],
   "note": "Refuted for every one byte encoding: the text of the last code is missing, and reading the map fails."
  },
  {
   "property": "C92",
   "status": "partial",
   "theorems": [
    "C92_read_back_partial",
    "C92_identity_refuted",
    "C92_surrogate_refuted",
    "C92_size_refuted"
   ],
   "note": "Holds for codes below 256^size and texts of scalar values, except that identities are read as the identity of all codes."
  },
  {
   "property": "C93",
   "status": "partial",
   "theorems": [
    "C93_sizes_partial",
    "C93_cid_refuted"
   ],
   "note": "Refuted for CIDs, whose own sizes are counted."
  },
  {
   "property": "C48",
   "status": "partial",
   "theorems": [
    "C48_load_partial",
    "C48_load_none",
    "C48_sign_refuted",
    "C48_places",
    "C48_one_partial",
    "C48_second_refuted"
   ],
   "note": "Refuted: in every map of two entries or more the second one is lost, and bytes of 128 and more are read with their sign. Holds for maps of one entry with smaller bytes."
  },
  {
   "property": "C49",
   "status": "partial",
   "theorems": [
    "C49_code_partial",
    "C49_round_partial",
    "C49_large",
    "C49_decode",
    "C49_zero_refuted",
    "C49_four_refuted",
    "C49_last_refuted",
    "C49_unicode_refuted"
   ],
   "note": "Holds for one to three bytes and all code points but 0, which is undefined; four bytes are undefined; the last code is one too large, which spoils the ToUnicode map."
  },
  {
   "property": "C94",
   "status": "partial",
   "theorems": [
    "C94_read_partial",
    "C94_written",
    "C94_round_trip",
    "C94_default",
    "C94_no_default_refuted",
    "C94_outside_refuted",
    "C94_glyph_refuted"
   ],
   "note": "Proved for CIDs below 2^32 - 1; arrays with larger CIDs are written outside of the vector; with a stream /CIDToGIDMap the widths of the CIDs are looked up by glyph."
  },
  {
   "property": "C95",
   "status": "partial",
   "theorems": [
    "C95_cid_set",
    "C95_numbers",
    "C95_answers",
    "C95_map",
    "C95_set",
    "C95_widths",
    "C95_total",
    "C95_no_code"
   ],
   "note": "Glyphs that are added by way of encoded strings (AddSubsetGIDs) are left out."
  },
  {
   "property": "C96",
   "status": "partial",
   "theorems": [
    "C96_text_partial",
    "C96_first",
    "C96_written",
    "C96_many_refuted",
    "C96_shared_refuted",
    "C96_embedded_refuted",
    "C96_cids_total_partial",
    "C96_cids_refuted"
   ],
   "note": "Proved up to 255 glyphs for characters with glyphs of their own; the 256th glyph is read as the first one, and maps from files with several numbers for a code lead past the end of the string."
  },
  {
   "property": "C97",
   "status": "partial",
   "theorems": [
    "C97_loaded",
    "C97_created_refuted",
    "C97_string",
    "C97_string_refuted"
   ],
   "note": "In created fonts the length of a text is 0 and that of a string is measured with other glyphs."
  },
  {
   "property": "C98",
   "status": "partial",
   "theorems": [
    "C98_round_trip_partial",
    "C98_single_refuted",
    "C98_zero_refuted"
   ],
   "note": "Proved for two codes or more; a font with one code loses its width."
  },
  {
   "property": "C99",
   "status": "partial",
   "theorems": [
    "C99_last",
    "C99_read",
    "C99_reads",
    "C99_written",
    "C99_dictionary",
    "C99_name_refuted",
    "C99_point_refuted",
    "C99_code_refuted",
    "C99_identity_refuted"
   ],
   "note": "Proved: reading counts codes modulo 256, lists and encodings with a named or implicit base are read back. Refuted: codes outside 0..255 wrap around, one name like unit makes the whole font fail, differences added by a code point may come back as another one, encodings over a TrueType identity cannot be written."
  },
  {
   "property": "C100",
   "status": "partial",
   "theorems": [
    "C100_round",
    "C100_listed",
    "C100_uni",
    "C100_other",
    "C100_high_refuted",
    "C100_word_refuted",
    "C100_forms_refuted"
   ],
   "note": "Below 65536 exactly 102 code points are lost (listed in DiffSpec.v); from 65536 on all of them are. Names with suffixes, sequences and more than four digits are read wrongly."
  },
  {
   "property": "C101",
   "status": "partial",
   "theorems": [
    "C101_code",
    "C101_points",
    "C101_text",
    "C101_tables",
    "C101_builtin",
    "C101_latin",
    "C101_ascii",
    "C101_unique",
    "C101_standard",
    "C101_identity_refuted",
    "C101_narrow_refuted"
   ],
   "note": "Proved for bases with one byte codes inside their limits, with the size of the code 0 as 1. Refuted for TrueType identities as the base and for differences outside the limits of the base."
  },
  {
   "property": "C102",
   "status": "partial",
   "theorems": [
    "C102_chars",
    "C102_peek",
    "C102_buffer",
    "C102_buffer_refuted"
   ],
   "note": "Proved for characters, for looking ahead and for the first buffer. Refuted: a buffer that ends inside a stream loses the rest of that stream."
  },
  {
   "property": "C103",
   "status": "proved",
   "theorems": [
    "C103_names",
    "C103_inverse",
    "C103_counts"
   ],
   "note": ""
  },
  {
   "property": "C104",
   "status": "partial",
   "theorems": [
    "C104_page",
    "C104_device",
    "C104_throw_refuted"
   ],
   "note": "Proved for reading without throwing. Refuted: with ThrowOnWarnings reading fails at the first content though there is no warning. References cannot be operands; the spelling of each value is that of the writer with any of its flags."
  },
  {
   "property": "C105",
   "status": "partial",
   "theorems": [
    "C105_data",
    "C105_sound",
    "C105_inside_refuted",
    "C105_hidden_refuted",
    "C105_last_refuted",
    "C105_key_refuted",
    "C105_form_refuted",
    "C105_keys_refuted"
   ],
   "note": "Proved for data without EI before white space that do not end with E or EI. Refuted: data ending with E or EI hide the end, EI at the end of the stream is not seen, a key without a value ends the stream silently, an image without end in a form swallows what follows the form, with a handler the dictionaries of successive images run together."
  },
  {
   "property": "C106",
   "status": "proved",
   "theorems": [
    "C106_ends",
    "C106_device",
    "C106_same"
   ],
   "note": ""
  },
  {
   "property": "C107",
   "status": "partial",
   "theorems": [
    "C107_subset_partial",
    "C107_full_partial",
    "C107_mono_partial",
    "C107_zero_refuted",
    "C107_twice_refuted",
    "C107_metrics_refuted",
    "C107_order_refuted",
    "C107_empty_refuted"
   ],
   "note": "Proved for distinct listed glyphs other than 0, when no empty glyph is followed by bytes that look like a glyph of components: the outlines always, the metrics when those glyphs with full metrics come first, and all of it when every needed glyph has full metrics or the font has one width; refuted with glyph 0 or a repeated glyph in the list, for the advance of glyphs beyond the full metrics, for both metrics when such a glyph comes before one with full metrics, and with empty glyphs at the end of the file or before a glyph of components."
  },
  {
   "property": "C108",
   "status": "partial",
   "theorems": [
    "C108_directory_partial",
    "C108_adjustment_refuted",
    "C108_checksums_refuted",
    "C108_search_refuted"
   ],
   "note": "Tags, alignment, bounds, programs and the head table are proved; refuted: the adjustment of the checksum (the revision of the font is overwritten instead), the checksums of the tables, and the fields for searching, which are wrong in every subset."
  },
  {
   "property": "C109",
   "status": "partial",
   "theorems": [
    "C109_ends",
    "C109_defined",
    "C109_short_refuted",
    "C109_outside_refuted",
    "C109_required_refuted"
   ],
   "note": "Building ends for every file below 2^31 bytes and is defined for every valid font and every list; refuted for a short head table, for components outside their glyph, and for a font without metrics, which is not refused."
  },
  {
   "property": "C110",
   "status": "partial",
   "theorems": [
    "C110_spellings_read",
    "C110_before_keyword",
    "C110_written_spelled",
    "C110_one_object",
    "C110_left_out_refuted"
   ],
   "note": "Proved for the grammar of the standard within the reader's limits (4095 bytes in a token, 64-bit integers, 256 levels); refuted for plus signs, a comment right after an empty name and longer tokens; literal strings as far as C75 goes."
  },
  {
   "property": "C111",
   "status": "partial",
   "theorems": [
    "C111_signed_partial",
    "C111_total",
    "C111_load",
    "C111_failed_refuted",
    "C111_again_refuted"
   ],
   "note": "As C37: without streams, at most 510 changes, bytes before the header excluded; refuted: the file after a failed signing is not readable, and the dictionary written again after signing has lost the signature."
  },
  {
   "property": "C112",
   "status": "partial",
   "theorems": [
    "C112_list",
    "C112_answers",
    "C112_pointer",
    "C112_broken",
    "C112_no_array",
    "C112_annotation",
    "C112_pointer_refuted",
    "C112_added_refuted",
    "C112_twice_refuted",
    "C112_direct_refuted",
    "C112_iterate_refuted"
   ],
   "note": "Proved for arrays of distinct references to valid items; refuted for repeated references, several direct dictionaries, items added after a failed initialisation, iterating before any other use, and for the field pointer of a reference that is not in the form's own list."
  },
  {
   "property": "C113",
   "status": "proved",
   "theorems": [
    "C113_codes",
    "C113_set",
    "C113_get",
    "C113_kind",
    "C113_new",
    "C113_new_child",
    "C113_kind_kept"
   ],
   "note": ""
  },
  {
   "property": "C114",
   "status": "partial",
   "theorems": [
    "C114_full",
    "C114_unique",
    "C114_set",
    "C114_refused",
    "C114_removed",
    "C114_escaped_refuted",
    "C114_empty_refuted",
    "C114_cycle_refuted",
    "C114_indirect_refuted"
   ],
   "note": "Proved for non-empty names (unique without periods; escaped, if no name begins with a period); refuted: escaped names can collide, empty names vanish, a cyclic parent has no end, an indirect name raises."
  },
  {
   "property": "C115",
   "status": "partial",
   "theorems": [
    "C115_insert",
    "C115_remove",
    "C115_items",
    "C115_select",
    "C115_unselected",
    "C115_removed_refuted",
    "C115_single_refuted",
    "C115_indirect_refuted"
   ],
   "note": "Proved for items that are strings or arrays of two strings; the selected index is the first one with the value. Refuted: the value of a removed item stays, items of one element are found but cannot be read, nor can indirect items."
  },
  {
   "property": "C116",
   "status": "partial",
   "theorems": [
    "C116_text",
    "C116_checked",
    "C116_mode",
    "C116_action",
    "C116_max_len_refuted",
    "C116_spell_refuted",
    "C116_scroll_refuted",
    "C116_focus_refuted"
   ],
   "note": "Text, check mark, highlighting and all triggers but one are proved; refuted: the maximum length is always read as -1, spell checking and scrolling are read back as the opposite, and the action for losing the focus has an unknown key."
  },
  {
   "property": "C117",
   "status": "partial",
   "theorems": [
    "C117_session"
   ],
   "note": "Proved for sequences of calls that are done right (the list of conditions is `right` in PainterSpec.v); dashes other than solid, arcs, images and patterns are not covered. Calls outside these conditions: C120."
  },
  {
   "property": "C118",
   "status": "partial",
   "theorems": [
    "C118_page",
    "C118_read",
    "C118_twice",
    "C118_third_refuted",
    "C118_form_refuted",
    "C118_form_lost_refuted"
   ],
   "note": "Proved for pages with at most one stream; refuted for the third painter on a page (the joint becomes the word Qq), and for forms with old contents (shown twice, or lost)."
  },
  {
   "property": "C119",
   "status": "partial",
   "theorems": [
    "C119_resources",
    "C119_second_refuted",
    "C119_state_refuted",
    "C119_open_refuted"
   ],
   "note": "Proved for one canvas; refuted on a second canvas of the same painter: the font is not in its resources, the state is taken as set, an open text stays open."
  },
  {
   "property": "C120",
   "status": "partial",
   "theorems": [
    "C120_restore_refuted",
    "C120_width_refuted",
    "C120_cap_refuted",
    "C120_matrix_refuted",
    "C120_begin_refuted",
    "C120_spacing_refuted",
    "C120_mode_refuted",
    "C120_last_mode_refuted",
    "C120_lines_refuted",
    "C120_tab_refuted",
    "C120_points_refuted",
    "C120_corner_refuted"
   ],
   "note": "Refuted in twelve ways, with witnesses or for all inputs; where it holds is C117."
  },
  {
   "property": "C121",
   "status": "partial",
   "theorems": [
    "C121_circle",
    "C121_ellipse",
    "C121_round",
    "C121_smooth",
    "C121_quad_refuted"
   ],
   "note": "Circles, ellipses, round corners and smooth quadratic curves are proved; refuted for QuadCurveTo, which uses the control point it has just overwritten."
  },
  {
   "property": "C122",
   "status": "partial",
   "theorems": [
    "C122_conversions_partial",
    "C122_rgb_back",
    "C122_gray_back",
    "C122_cmyk_back_partial",
    "C122_cmyk_back_refuted",
    "C122_standard_partial",
    "C122_standard_refuted",
    "C122_separation_refuted"
   ],
   "note": "Proved for device colours; the weights are within 0.004 of the standard's and the light of inks within a quarter of it (refuted: equal to it); refuted: separations, which become RGB when converted to gray and lose their tint, and inks that do not have as much black as can be."
  },
  {
   "property": "C123",
   "status": "partial",
   "theorems": [
    "C123_array_back_partial",
    "C123_array_read",
    "C123_array_only",
    "C123_transparent_refuted",
    "C123_spaces_refuted",
    "C123_hex",
    "C123_hex_inks",
    "C123_array_text",
    "C123_name",
    "C123_other_name",
    "C123_number_partial",
    "C123_number_refuted",
    "C123_equal"
   ],
   "note": "Proved for device colours, hexadecimal texts, arrays in any spelling, names, and numbers that begin with a zero and a point; refuted: the transparent colour, Lab and separations through arrays, and other texts of numbers, whose first byte is skipped."
  },
  {
   "property": "C124",
   "status": "partial",
   "theorems": [
    "C124_inks_partial",
    "C124_rgb_partial",
    "C124_high_refuted",
    "C124_gray_refuted",
    "C124_entries_refuted"
   ],
   "note": "Proved where every part is below 128/255; refuted: other colours (undefined conversion to char), gray (not scaled), the number of entries of Decode for RGB, Lab."
  },
  {
   "property": "C125",
   "status": "partial",
   "theorems": [
    "C125_made",
    "C125_read_partial",
    "C125_rect_refuted",
    "C125_fitbv_refuted",
    "C125_fit_refuted",
    "C125_short_refuted",
    "C125_named"
   ],
   "note": "Making and finding by name are proved, reading for what the getters support; refuted: GetRect away from the origin, the value of FitBV, a fit that needs a value, arrays with a page alone."
  },
  {
   "property": "C126",
   "status": "partial",
   "theorems": [
    "C126_exclusive",
    "C126_kept",
    "C126_kinds_partial",
    "C126_kinds_refuted",
    "C126_text",
    "C126_link_refuted",
    "C126_empty_refuted",
    "C126_copy_refuted",
    "C126_named_refuted"
   ],
   "note": "Proved for outline items and all kinds of actions but the last; refuted: links, empty destinations, actions changed after they are set, named destinations of links, the kind RichMediaExecute."
  },
  {
   "property": "C127",
   "status": "partial",
   "theorems": [
    "C127_made_partial",
    "C127_base",
    "C127_bytes_refuted",
    "C127_path_refuted",
    "C127_same_refuted"
   ],
   "note": "Proved for names of letters, digits and underscores; refuted: names with any other byte (undefined), paths that are not stripped, and different names with one specification."
  },
  {
   "property": "C128",
   "status": "partial",
   "theorems": [
    "C128_new",
    "C128_rect_read",
    "C128_rect",
    "C128_flags",
    "C128_read_partial",
    "C128_text",
    "C128_border",
    "C128_open",
    "C128_parent_refuted"
   ],
   "note": "Proved; reading a missing entry only without a parent, refuted with one."
  },
  {
   "property": "C129",
   "status": "partial",
   "theorems": [
    "C129_set_partial",
    "C129_get",
    "C129_list",
    "C129_form_refuted"
   ],
   "note": "Proved where the appearance dictionaries are different objects; refuted: a state beside a form for all states."
  },
  {
   "property": "C130",
   "status": "partial",
   "theorems": [
    "C130_text_partial",
    "C130_code_refuted",
    "C130_keyword_refuted",
    "C130_recursive_refuted"
   ],
   "note": "Proved for all contents that the standard allows; words need codes whose text is not mixed with white space (refuted: undefined); unexpected keywords are errors and recursive forms change the fonts (refuted)."
  },
  {
   "property": "C131",
   "status": "partial",
   "theorems": [
    "C131_lines_partial",
    "C131_trimmed_partial",
    "C131_quotes_refuted",
    "C131_parameters_refuted",
    "C131_form_refuted",
    "C131_slant_refuted",
    "C131_textless_refuted",
    "C131_gaps_refuted",
    "C131_trimmed_refuted"
   ],
   "note": "Proved for contents without the operators that are refuted; the gaps on pages that are not scaled."
  },
  {
   "property": "C132",
   "status": "partial",
   "theorems": [
    "C132_words_partial",
    "C132_one_way",
    "C132_options"
   ],
   "note": "For contents as in C131; the code with white space inside is refuted in C130."
  },
  {
   "property": "C133",
   "status": "partial",
   "theorems": [
    "C133_search_partial",
    "C133_regex_partial",
    "C133_parts_partial",
    "C133_whole_refuted",
    "C133_last_code_refuted",
    "C133_width_refuted"
   ],
   "note": "Proved; parts if they are given at all; the library's regular expressions are a parameter. Refuted: whole words after parts of words, parts of the last code, widths of parts."
  },
  {
   "property": "C134",
   "status": "partial",
   "theorems": [
    "C134_read_partial",
    "C134_silent",
    "C134_level",
    "C134_safe_partial",
    "C134_creator_refuted",
    "C134_date_refuted",
    "C134_fraction_refuted",
    "C134_default_refuted",
    "C134_entity_refuted"
   ],
   "note": "Proved for packets that say a property once; refuted: the creator tool is never read, one bad date hides everything, fractions of a second drop the zone, default namespaces are undefined, entities in attributes are read twice."
  },
  {
   "property": "C135",
   "status": "partial",
   "theorems": [
    "C135_update_partial",
    "C135_new_partial",
    "C135_kinds",
    "C135_made",
    "C135_reload_partial",
    "C135_cycle_partial",
    "C135_creator_refuted",
    "C135_entity_refuted",
    "C135_twice_refuted"
   ],
   "note": "Proved for packets that say a property at most once and texts without ampersands; refuted: the creator is not read back, entities change, properties that stand twice keep the old value."
  },
  {
   "property": "C136",
   "status": "partial",
   "theorems": [
    "C136_history_partial",
    "C136_saved_partial",
    "C136_trapped",
    "C136_text_refuted",
    "C136_author_refuted",
    "C136_ensure_refuted",
    "C136_bad_date_refuted",
    "C136_second_refuted"
   ],
   "note": "Proved for dates, the level, reading, synchronising, saving and trapped; refuted: setters of texts do nothing, EnsureXMPMetadata removes dates of a document not read yet, a bad date makes every call fail, saving in the second of the modification date loses changes."
  },
  {
   "property": "C137",
   "status": "partial",
   "theorems": [
    "C137_whole",
    "C137_one_partial",
    "C137_list_refuted"
   ],
   "note": "Nothing is lost and one keyword is read back; refuted for two or more keywords."
  },
  {
   "property": "C138",
   "status": "partial",
   "theorems": [
    "C138_settings_partial",
    "C138_full_refuted",
    "C138_twice_refuted"
   ],
   "note": "Proved for all sequences of calls but full screen without a page mode; refuted: SetUseFullScreen fails without a page mode, and set twice it forgets the mode to go back to."
  },
  {
   "property": "C139",
   "status": "partial",
   "theorems": [
    "C139_has",
    "C139_list",
    "C139_add",
    "C139_remove_refuted",
    "C139_type_refuted"
   ],
   "note": "Proved for has, get and add; refuted: nothing is removed, and extensions with a Type are not listed."
  },
  {
   "property": "C140",
   "status": "partial",
   "theorems": [
    "C140_append_partial",
    "C140_range_partial",
    "C140_beyond_refuted",
    "C140_all_refuted"
   ],
   "note": "Proved for the pages and ranges within the other document; the outlines are not modelled. Refuted: a range beyond the pages fails after everything was appended, and with the largest count an own page is lost."
  },
  {
   "property": "C141",
   "status": "partial",
   "theorems": [
    "C141_inherited",
    "C141_foreign_refuted"
   ],
   "note": "Proved for all chains of parents; refuted: entries that the page did not have are inherited from the new parents."
  },
  {
   "property": "C142",
   "status": "partial",
   "theorems": [
    "C142_boxes_partial",
    "C142_trim_refuted",
    "C142_reference_refuted",
    "C142_set",
    "C142_rotation_partial",
    "C142_real_refuted",
    "C142_set_rotation"
   ],
   "note": "Proved for all chains of parents; refuted: TrimBox, ArtBox and BleedBox of parents are used, boxes with references to numbers and rotations written as reals are errors."
  },
  {
   "property": "C143",
   "status": "partial",
   "theorems": [
    "C143_size_partial",
    "C143_answer_refuted",
    "C143_others_refuted",
    "C143_moved_refuted"
   ],
   "note": "Proved for pages with own boxes; refuted: the answer is false without a crop box, inherited boxes are changed for all pages, boxes written from right to left are moved."
  },
  {
   "property": "C144",
   "status": "partial",
   "theorems": [
    "C144_fill_partial",
    "C144_shows_partial",
    "C144_single",
    "C144_glued_refuted",
    "C144_resources_refuted",
    "C144_empty_refuted",
    "C144_loop_refuted",
    "C144_turn_refuted",
    "C144_rect_refuted"
   ],
   "note": "Proved for pages with own resources and streams that end with white space; refuted: streams are glued together, inherited resources are lost, an old stream stays, references to themselves are followed for ever, turns of more than 360 degrees are misplaced, GetRect is not the box."
  },
  {
   "property": "C145",
   "status": "partial",
   "theorems": [
    "C145_written_partial",
    "C145_memory_partial",
    "C145_default_refuted",
    "C145_filter_refuted",
    "C145_twice_refuted",
    "C145_interleaved_refuted"
   ],
   "note": "Proved for all histories of calls with NoFlateCompress; refuted: the default options fail, filters are not in the dictionary that is written, opening a stream again or two at once is undefined. Encryption is left out."
  },
  {
   "property": "C146",
   "status": "partial",
   "theorems": [
    "C146_objects_partial",
    "C146_close_refuted",
    "C146_memory_refuted"
   ],
   "note": "Objects are proved to stand where the table says; refuted: closing always raises an error, and only streams created before the first one is opened go to the file at once."
  },
  {
   "property": "C147",
   "status": "partial",
   "theorems": [
    "C147_set_partial",
    "C147_ends",
    "C147_narrow_refuted",
    "C147_transparent_refuted"
   ],
   "note": "Proved for gray, RGB and BGR buffers of any size and row size that hold the pixels, and that short buffers are an error. Refuted: row sizes smaller than the pixels are read beyond the buffer; formats with transparency cannot be set. Sizes beyond 32 bits are excluded."
  },
  {
   "property": "C148",
   "status": "partial",
   "theorems": [
    "C148_rgb_partial",
    "C148_gray_partial",
    "C148_set_decode_partial",
    "C148_gray_refuted",
    "C148_short_refuted",
    "C148_mask_refuted",
    "C148_wide_refuted",
    "C148_shades_refuted",
    "C148_buffer_refuted",
    "C148_decode_refuted"
   ],
   "note": "Proved for RGB images with enough data and mask, for gray images of one row, and for pixels that were set. Refuted: gray images of more rows, short data and small soft masks are read beyond their ends; overflowing widths; gray output of RGB images; buffers with longer rows; the array for decoding is ignored. JPEG, CCITT and black and white images are not modelled."
  },
  {
   "property": "C149",
   "status": "partial",
   "theorems": [
    "C149_entries_partial",
    "C149_palette_refuted",
    "C149_filters_refuted",
    "C149_lost_refuted"
   ],
   "note": "Proved for the entries and data with a named colour space. Refuted: colour spaces that are arrays lose their name; the stream does not know the declared filters, is read without them, and is saved without data by default."
  },
  {
   "property": "C150",
   "status": "partial",
   "theorems": [
    "C150_sound",
    "C150_image_partial",
    "C150_form_partial",
    "C150_new_form",
    "C150_untyped_refuted",
    "C150_indirect_refuted",
    "C150_new_image_refuted",
    "C150_broken_refuted"
   ],
   "note": "Proved: what is made is an XObject of the kind asked for, and typed XObjects with valid entries are made with their sizes. Refuted: without type, which is optional, or with an indirect one they are not recognised; broken entries and new images raise errors."
  },
  {
   "property": "C151",
   "status": "partial",
   "theorems": [
    "C151_get_partial",
    "C151_set",
    "C151_new",
    "C151_indirect_refuted",
    "C151_numbers_refuted"
   ],
   "note": "Proved for direct matrices and for what is set; refuted for indirect matrices and numbers, which raise an error."
  },
  {
   "property": "C152",
   "status": "partial",
   "theorems": [
    "C152_distinct_partial",
    "C152_prefix_refuted",
    "C152_direct_refuted"
   ],
   "note": "Proved for the same prefix and different numbers; refuted for prefixes that end with digits and for direct objects."
  },
  {
   "property": "C153",
   "status": "partial",
   "theorems": [
    "C153_calls",
    "C153_frequency",
    "C153_fill_partial",
    "C153_stroke_refuted",
    "C153_both_refuted"
   ],
   "note": "Proved for all calls, for overprinting of fills only without SetStrokeOverprint and without SetOverprint after SetFillOverprint; refuted for these: the first overprints fills too, the second does not reach them."
  },
  {
   "property": "C154",
   "status": "partial",
   "theorems": [
    "C154_twice",
    "C154_std_twice",
    "C154_loaded",
    "C154_imported_refuted"
   ],
   "note": "Proved for names, standard fonts and objects of fonts that were loaded; refuted for the objects of fonts made in the document, which are an error."
  },
  {
   "property": "C155",
   "status": "partial",
   "theorems": [
    "C155_encoding",
    "C155_name",
    "C155_exact",
    "C155_std_partial",
    "C155_std_refuted",
    "C155_flags_refuted"
   ],
   "note": "Encodings, names and styles proved; standard fonts proved when the table of hashes never compares keys of two of them, and refuted otherwise; flags refuted: those of the first who asked are kept."
  },
  {
   "property": "C156",
   "status": "partial",
   "theorems": [
    "C156_safe_partial",
    "C156_exact_refuted",
    "C156_unsupported_refuted"
   ],
   "note": "Proved for histories without exact names and without fonts of an unknown type; both leave an empty list behind, whose first font is read by the next request."
  },
  {
   "property": "C157",
   "status": "partial",
   "theorems": [
    "C157_tags",
    "C157_distinct_partial",
    "C157_wrap_refuted"
   ],
   "note": "Proved for prefixes less than 26^6 apart; refuted for those 26^6 apart."
  },
  {
   "property": "C158",
   "status": "partial",
   "theorems": [
    "C158_widths",
    "C158_name",
    "C158_box_partial",
    "C158_box_refuted",
    "C158_default_refuted",
    "C158_indirect_refuted"
   ],
   "note": "Widths and names proved; boxes proved for integers in descriptors; refuted for Type 3 fonts with a font matrix, for the width of missing glyphs (a thousand times too wide) and for widths behind references."
  },
  {
   "property": "C159",
   "status": "partial",
   "theorems": [
    "C159_named",
    "C159_refused_partial",
    "C159_safe_partial",
    "C159_descriptor_refuted",
    "C159_descendant_refuted",
    "C159_stretch_refuted",
    "C159_standard_refuted",
    "C159_master_refuted"
   ],
   "note": "Proved for encodings by name and for dictionaries with the parts they need; refuted for TrueType fonts without a descriptor, descendants that are not there, stretches that are strings, /StandardEncoding and multiple masters."
  },
  {
   "property": "C160",
   "status": "partial",
   "theorems": [
    "C160_history",
    "C160_raises",
    "C160_date",
    "C160_frame"
   ],
   "note": "Proved for every sequence of operations on a signature field that starts without a value: the field says exactly what was last set (names, reasons, locations, dates, application, certification), the getters give it, opening the field again gives the same, only a missing value raises and then nothing changes, and no other object changes. /SigFlags, appearances and the raw bytes of /Contents and /ByteRange are not modelled."
  },
  {
   "property": "C161",
   "status": "partial",
   "theorems": [
    "C161_read",
    "C161_dangling",
    "C161_null_refuted",
    "C161_direct_refuted",
    "C161_orphans_refuted",
    "C161_permissions_refuted",
    "C161_build_refuted"
   ],
   "note": "Proved: a text set on a field that was read, with a direct or an indirect value, is got and other texts stay; a field whose value refers to a missing object gets a new value. Refuted: fields whose value is null cannot be prepared, certifying a direct value raises after removing its references, the two objects made by a certification are orphans, other permissions of the catalog and other entries of the build are lost."
  },
  {
   "property": "C162",
   "status": "partial",
   "theorems": [
    "C162_history",
    "C162_getters",
    "C162_raises"
   ],
   "note": "Proved for every sequence of settings and clearings on a widget without characteristics: its dictionary holds exactly what was last set, at most one object is made, clearing makes none, nothing else changes, opening the widget again gives the same, and the getters return it. Colours are taken as the arrays that are written."
  },
  {
   "property": "C163",
   "status": "partial",
   "theorems": [
    "C163_read",
    "C163_taken",
    "C163_form_refuted",
    "C163_inherited_refuted",
    "C163_transparent_refuted",
    "C163_lab_refuted",
    "C163_raised_refuted",
    "C163_null_refuted"
   ],
   "note": "Proved: a caption set on any widget that was read is got. Refuted: captions of buttons that come from the form use a null pointer, entries are inherited and then cannot be cleared, transparent and absent colours are got as black, Lab colours are set and cannot be got, setting a transparent colour raises after making an empty dictionary, a null entry stops the widget from being opened."
  },
  {
   "property": "C164",
   "status": "partial",
   "theorems": [
    "C164_glyphs",
    "C164_absent",
    "C164_ascii_refuted",
    "C164_letter_refuted",
    "C164_refused",
    "C164_widths_refuted"
   ],
   "note": "Proved: the glyph that a character is mapped to has the width of the tables, and a font is refused exactly when its widths are not an array of direct numbers. Refuted: in a font that was read without widths each ASCII code has the width of the character before it, and in one with widths every listed code has the width 0 and the numbers, not scaled, are those of as many codes later. The glyph tables are those of Times-Roman."
  },
  {
   "property": "C165",
   "status": "partial",
   "theorems": [
    "C165_names_partial",
    "C165_distinct_partial",
    "C165_stream_refuted",
    "C165_what_refuted",
    "C165_messages_refuted",
    "C165_frames",
    "C165_path",
    "C165_print",
    "C165_print_refuted"
   ],
   "note": "Proved: all but two codes are told by their own names, frames are kept in order, files of the library are told by their path in it, and printing gets to the end exactly when no path is shorter than that of the sources. Refuted: InvalidStreamLength has the name of another code, the description of XmpMetadata is a null pointer, fifteen codes have no message, and printing raises for a file with a short path."
  },
  {
   "property": "C166",
   "status": "partial",
   "theorems": [
    "C166_copy",
    "C166_assign",
    "C166_plain",
    "C166_apart",
    "C166_kept_refuted",
    "C166_move",
    "C166_moved_refuted",
    "C166_self_refuted",
    "C166_self_move_refuted"
   ],
   "note": "Proved for loaded objects with streams in memory: a copy and an object that is assigned another have its entries and read the same data, nothing else changes, and after any program without moves no object sees what was done to others. Refuted: an object that is assigned one without a stream keeps its own, the stream of a moved object still looks into the object it was moved from so that it cannot be decoded or copied and is undefined when that one is gone, assigning an object to itself is undefined."
  },
  {
   "property": "C167",
   "status": "partial",
   "theorems": [
    "C167_hangs_refuted",
    "C167_ends",
    "C167_parts_refuted",
    "C167_given",
    "C167_truetype",
    "C167_cff",
    "C167_opentype_refuted",
    "C167_refused"
   ],
   "note": "Proved: TrueType files have their length, CFF files the name of their kind, given lengths are written, and nothing is written without a file or for another kind. Refuted: embedding a Type 1 file that FreeType read never ends when anything but spaces follows its eexec, it ends exactly otherwise, the three lengths are then those of the parts only when there is no eexec, and the kind of an OpenType file is added to a copy and so is not written."
  },
  {
   "property": "C168",
   "status": "partial",
   "theorems": [
    "C168_read_back",
    "C168_again",
    "C168_missing_width_refuted",
    "C168_type3_refuted",
    "C168_flipped_refuted",
    "C168_angle_refuted"
   ],
   "note": "fonts but Type 3 ones are proved, without /MissingWidth for writing again; /MissingWidth, Type 3 fonts and angles with fractions are refuted; doubles are fractions and texts of strings are their bytes"
  },
  {
   "property": "C169",
   "status": "partial",
   "theorems": [
    "C169_items_partial",
    "C169_last",
    "C169_none_refuted",
    "C169_nothing",
    "C169_parent_refuted",
    "C169_loaded_refuted"
   ],
   "note": "the order of the items is proved for runs that succeed and outlines made in memory; that loading the items succeeds is not proved here (C86 says when); documents without outlines, the parents of the items and loaded outlines are refuted"
  }
 ]
}