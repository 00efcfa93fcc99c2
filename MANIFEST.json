{
 "claims": [
  {
   "property": "C01",
   "status": "proved",
   "theorems": [
    "C01_ascii85_roundtrip",
    "C01_ascii85_encodable"
   ],
   "note": "ascii85 round trip for every byte string and every line-breaking of the encoding"
  },
  {
   "property": "C02",
   "status": "partial",
   "theorems": [
    "C02_asciihex_even_partial",
    "C02_asciihex_odd_partial",
    "C02_asciihex_split_refuted",
    "C02_asciihex_eod_refuted"
   ],
   "note": "even/odd digit counts proved for data whose digit pairs are not split by white space; split pairs and data after EOD refuted with witnesses"
  },
  {
   "property": "C03",
   "status": "proved",
   "theorems": [
    "C03_runlength_roundtrip",
    "C03_runlength_only_runs",
    "C03_runlength_truncated",
    "C03_runlength_only_error"
   ],
   "note": "round trip, soundness, truncation, only IndexError"
  },
  {
   "property": "C04",
   "status": "proved",
   "theorems": [
    "C04_lzw_roundtrip",
    "C04_lzw_any_encoder"
   ],
   "note": "any conforming LZW encoder output is decoded, including code width changes and table resets"
  },
  {
   "property": "C05",
   "status": "partial",
   "theorems": [
    "C05_lzw_prefix_partial",
    "C05_lzw_errors",
    "C05_lzw_after_eod_refuted"
   ],
   "note": "prefix stability and error set proved; data after EOD is still decoded (refuted)"
  },
  {
   "property": "C06",
   "status": "partial",
   "theorems": [
    "C06_png_roundtrip_partial",
    "C06_png_average_refuted",
    "C06_png_paeth_refuted",
    "C06_png_sub_rgb_refuted",
    "C06_png_up_rgb_refuted",
    "C06_png_total"
   ],
   "note": "None/Sub/Up rows for 1-byte pixels round-trip; Average, Paeth and multi-byte Sub/Up refuted with witnesses; totality"
  },
  {
   "property": "C07",
   "status": "proved",
   "theorems": [
    "C07_filter_chain",
    "C07_same_answer",
    "C07_rawdata_lost_refuted",
    "C07_indirect_parms_refuted",
    "C07_corrupt_flate_refuted",
    "C07_unsupported_filter_refuted"
   ],
   "note": "every chain of supported filters (zlib and CCITT are parameters), with predictors where C06 holds, any history of calls; outside the property: raw data lost, indirect parameters, unsupported filters: refuted witnesses"
  },
  {
   "property": "C08",
   "status": "partial",
   "theorems": [
    "C08_filters_partial",
    "C08_short_parms_refuted",
    "C08_indirect_filters_refuted",
    "C08_indirect_filter_name_refuted",
    "C08_file_specification_refuted"
   ],
   "note": "every direct form of the declaration; short parameter arrays, indirect filters and file specifications refuted"
  },
  {
   "property": "C09",
   "status": "proved",
   "theorems": [
    "C09_tokens_any_chunks",
    "C09_tokens_bufsiz",
    "C09_nexttoken_step"
   ],
   "note": "token sequence, positions and final exception are the same for every chunking of the bytes"
  },
  {
   "property": "C10",
   "status": "partial",
   "theorems": [
    "C10_nextline",
    "C10_all_lines_partial",
    "C10_lines_bufsiz",
    "C10_last_line_refuted"
   ],
   "note": "lines and positions proved for every chunking; that no byte is lost is refuted for an unfinished last line"
  },
  {
   "property": "C11",
   "status": "proved",
   "theorems": [
    "C11_revreadlines",
    "C11_revreadlines_bufsiz"
   ],
   "note": "backward reader yields the segments for every buffer size"
  },
  {
   "property": "C12",
   "status": "partial",
   "theorems": [
    "C12_literal_string_partial",
    "C12_write_string_roundtrip",
    "C12_unknown_escape_refuted",
    "C12_octal_overflow_refuted",
    "C12_crlf_continuation_refuted",
    "C12_raw_eol_refuted"
   ],
   "note": "every spelling of Lex_Spec.StrBody is read back; unknown escapes, octal overflow, CRLF continuation, raw CR refuted"
  },
  {
   "property": "C13",
   "status": "partial",
   "theorems": [
    "C13_hex_string_partial",
    "C13_write_hexstring_roundtrip",
    "C13_odd_digit_refuted"
   ],
   "note": "every even-length spelling is read back; odd number of digits refuted"
  },
  {
   "property": "C14",
   "status": "proved",
   "theorems": [
    "C14_name",
    "C14_write_name_roundtrip"
   ],
   "note": "every spelling of a name is read back as its bytes (UTF-8 decoding of the name not modelled)"
  },
  {
   "property": "C15",
   "status": "proved",
   "theorems": [
    "C15_integer",
    "C15_integer_roundtrip"
   ],
   "note": "numerals of any length and sign; every integer has one"
  },
  {
   "property": "C16",
   "status": "partial",
   "theorems": [
    "C16_pdf_object",
    "C16_pdf_object_resumes",
    "C16_stream_strays",
    "C16_stream_objects_partial",
    "C16_stream_null_refuted",
    "C16_stream_toplevel_ref_refuted",
    "C16_odd_dictionary",
    "C16_stray_bracket"
   ],
   "note": "file objects: every written form, at any offset, with any gaps and buffer size; object streams likewise but null and top-level references refuted with witnesses"
  },
  {
   "property": "C17",
   "status": "partial",
   "theorems": [
    "C17_last_token_refuted",
    "C17_complete_partial"
   ],
   "note": "complete when a boundary follows; a last undelimited token is lost (refuted for all of them)"
  },
  {
   "property": "C18",
   "status": "partial",
   "theorems": [
    "C18_layout_positions_partial",
    "C18_layout_values",
    "C18_position_after_hex_refuted",
    "C18_gaps_irrelevant",
    "C18_nul_refuted"
   ],
   "note": "layout theorem: any gaps of white space and comments; NUL refuted; position of >> right after a hex string refuted"
  },
  {
   "property": "C19",
   "status": "proved",
   "theorems": [
    "C19_identity",
    "C19_names_kept"
   ],
   "note": "every history of intern calls; object identity is a creation number"
  },
  {
   "property": "C20",
   "status": "partial",
   "theorems": [
    "C20_exact_length",
    "C20_fallback_data_partial",
    "C20_fallback_extra_newline_refuted",
    "C20_fallback_truncated_refuted",
    "C20_negative_length_loops_refuted"
   ],
   "note": "exact for every payload when the Length is used (fallback off); with fallback (the default for unencrypted documents) the data up to the first endstream including the newline before it: proved, and exactness refuted with witnesses"
  },
  {
   "property": "C21",
   "status": "partial",
   "theorems": [
    "C21_get_inline_data",
    "C21_no_marker",
    "C21_inline_image_partial",
    "C21_payload_ending_in_E_refuted",
    "C21_payload_ending_in_EI_refuted",
    "C21_payload_ending_in_newline_refuted"
   ],
   "note": "any payload without the marker, under conditions on its last bytes; the conditions are necessary (three refutations)"
  },
  {
   "property": "C22",
   "status": "partial",
   "theorems": [
    "C22_concatenation_partial",
    "C22_any_split",
    "C22_glued_refuted",
    "C22_glued_comment_refuted",
    "C22_last_token_lost_refuted"
   ],
   "note": "proved when every token is finished inside its stream; gluing and loss of the last token refuted"
  },
  {
   "property": "C23",
   "status": "partial",
   "theorems": [
    "C23_newest_wins_partial",
    "C23_absent",
    "C23_fuel",
    "C23_zero",
    "C23_freed_object_refuted",
    "C23_freed_object_general_refuted",
    "C23_syntax_error_not_skipped_refuted",
    "C23_offset_before_header_refuted"
   ],
   "note": "exact characterisation for every document: first readable entry in section order, else not-found; freed objects reappearing, PSSyntaxError not skipped and the broken offset recovery are refuted with witnesses"
  },
  {
   "property": "C24",
   "status": "partial",
   "theorems": [
    "C24_get_pos_partial",
    "C24_objids_partial",
    "C24_objids_two_subsections_refuted",
    "C24_width5_refuted",
    "C24_wide_general_refuted"
   ],
   "note": "lookup exact for widths 0,1,2,3,4,8 and any Index; listing exact for one subsection; widths 5-7 and several subsections refuted"
  },
  {
   "property": "C25",
   "status": "proved",
   "theorems": [
    "C25_caching",
    "C25_repeat"
   ],
   "note": "every history of lookups on every document; returned objects are values (mutation by the caller not modelled)"
  },
  {
   "property": "C26",
   "status": "proved",
   "theorems": [
    "C26_members",
    "C26_lookup",
    "C26_index_out_of_range"
   ],
   "note": "any n, i, object contents and layout, and through lookup; objects that are references at top level are outside (see C16)"
  },
  {
   "property": "C27",
   "status": "partial",
   "theorems": [
    "C27_chain_in_order",
    "C27_chain_only",
    "C27_terminates_partial",
    "C27_cycle_refuted"
   ],
   "note": "visited list is exactly the chain, in order, for every chain; termination when links point backwards; cyclic chains do not terminate (refuted)"
  },
  {
   "property": "C28",
   "status": "partial",
   "theorems": [
    "C28_pages_partial",
    "C28_not_inherited",
    "C28_fallback",
    "C28_direct_kid_refuted",
    "C28_indirect_type_refuted",
    "C28_no_mediabox_refuted",
    "C28_cycle_refuted",
    "C28_catalog_refuted"
   ],
   "note": "every page tree with at least one page whose leaves have a MediaBox; direct or indirectly typed kids, missing MediaBox, cyclic trees and catalog attributes refuted with witnesses"
  },
  {
   "property": "C29",
   "status": "partial",
   "theorems": [
    "C29_selection",
    "C29_maximum",
    "C29_both_partial",
    "C29_both_refuted",
    "C29_empty_selection_refuted",
    "C29_extractable"
   ],
   "note": "page numbers alone and maximum alone exact; both together: sound and bounded, but not complete (refuted); empty selection refuted"
  },
  {
   "property": "C30",
   "status": "proved",
   "theorems": [
    "C30_rotation",
    "C30_default"
   ],
   "note": ""
  },
  {
   "property": "C31",
   "status": "partial",
   "theorems": [
    "C31_rotation_partial",
    "C31_onto_origin",
    "C31_distance",
    "C31_size_refuted"
   ],
   "note": "transform exact for all boxes and rotations; reported width and height are not rotated (refuted)"
  },
  {
   "property": "C32",
   "status": "partial",
   "theorems": [
    "C32_serial_partial",
    "C32_preloaded_partial",
    "C32_abandoned_refuted",
    "C32_interleaved_refuted",
    "C32_error_forgotten_refuted",
    "C32_empty"
   ],
   "note": "complete serial iterations; every interleaving when preloaded; abandoned, interleaved or failed first iterations truncate (refuted for every document)"
  },
  {
   "property": "C33",
   "status": "proved",
   "theorems": [
    "C33_compose",
    "C33_assoc",
    "C33_identity",
    "C33_translate",
    "C33_translate_is_mult",
    "C33_norm"
   ],
   "note": "exact rationals; floating-point rounding not modelled"
  },
  {
   "property": "C34",
   "status": "partial",
   "theorems": [
    "C34_corners",
    "C34_from_points_partial",
    "C34_contains",
    "C34_large_coordinates_refuted",
    "C34_no_points_refuted"
   ],
   "note": "least box for every non-empty list with coordinates within 2^31-1; containment always; larger coordinates and the empty list refuted"
  },
  {
   "property": "C35",
   "status": "partial",
   "theorems": [
    "C35_find_partial",
    "C35_find_outside",
    "C35_find_anywhere_partial",
    "C35_sound",
    "C35_iter",
    "C35_zero_width_refuted",
    "C35_negative_fraction_refuted",
    "C35_outside_refuted",
    "C35_readd_refuted",
    "C35_iter_twice_refuted"
   ],
   "note": "every valid history on every plane in the first quadrant (objects of positive size inside it), and anywhere if no right or upper edge lies strictly between -1 and 0; soundness for every history; zero-width, outside, re-added objects and negative fractions refuted"
  },
  {
   "property": "C36",
   "status": "proved",
   "theorems": [
    "C36_operand_pushed",
    "C36_unknown_no_effect",
    "C36_exact_operands",
    "C36_too_few_rejected",
    "C36_program_frame",
    "C36_colour_operands"
   ],
   "note": "every operator of fixed arity and every program of them; SC/SCN/sc/scn with enough operands (too few are accepted: C36_colour_too_few_accepted); names T_a, f_a, B_a, b_a, _q, _w are accepted as operators, and keywords with bytes over 127 are outside the model"
  },
  {
   "property": "C37",
   "status": "partial",
   "theorems": [
    "C37_restored_partial",
    "C37_graphics_not_restored",
    "C37_position_partial",
    "C37_reachable"
   ],
   "note": "CTM and text state for every balanced content; position in the line for content with page structure; the graphics parameters are never restored (C37_graphics_not_restored)"
  },
  {
   "property": "C38",
   "status": "partial",
   "theorems": [
    "C38_Tm",
    "C38_Td",
    "C38_TD_is_TL_Td",
    "C38_Tstar_is_Td",
    "C38_TL_stored",
    "C38_quote",
    "C38_dquote_partial",
    "C38_line_history"
   ],
   "note": "Td TD TL T* Tm ' and every history of them; the double-quote operator does not move to the next line (refuted)"
  },
  {
   "property": "C39",
   "status": "partial",
   "theorems": [
    "C39_painted_partial",
    "C39_item_line",
    "C39_item_rect",
    "C39_stroke_or_fill_lost",
    "C39_item_curve_partial",
    "C39_curve_box_not_transformed_refuted",
    "C39_curve_leaves_box_refuted"
   ],
   "note": "every path history, order, even-odd flag and clearing; skewed rectangles come out as None and stroke/fill is not recorded (both refuted); boxes of lines and rectangles exact; those of other paths are the least around the end points before the matrix is applied (refuted: the matrix is ignored, and curves can leave the box)"
  },
  {
   "property": "C40",
   "status": "partial",
   "theorems": [
    "C40_gray",
    "C40_rgb",
    "C40_cmyk_stroke_partial",
    "C40_k_is_K",
    "C40_others_keep_colours"
   ],
   "note": "G g RG rg K exact; k sets the stroking colour (refuted); no other operator changes colours"
  },
  {
   "property": "C41",
   "status": "partial",
   "theorems": [
    "C41_show_partial",
    "C41_show_exact_without_Tc_partial",
    "C41_vertical_partial",
    "C41_empty_string_raises",
    "C41_Tj_is_TJ"
   ],
   "note": "every TJ array and horizontal font: each character's box and the final position, exact but for one character spacing (lost between two showing operators: refuted); exact when Tc is 0; vertical fonts: displacement only, with Th applied; empty strings raise"
  },
  {
   "property": "C43",
   "status": "partial",
   "theorems": [
    "C43_widths",
    "C43_widths_vertical",
    "C43_cid_declared",
    "C43_cid_default",
    "C43_cid_zero_partial",
    "C43_vertical_declared",
    "C43_vertical_default",
    "C43_simple",
    "C43_standard",
    "C43_type3_partial",
    "C43_zero_refuted",
    "C43_default_reference_refuted",
    "C43_array_reference_refuted",
    "C43_vertical_reference_refuted",
    "C43_standard_widths_refuted",
    "C43_type3_skew_refuted"
   ],
   "note": "W, W2, DW, DW2, Widths, MissingWidth, standard metrics and Type 3 scaling for every font of these kinds; DW 0, references as DW, DW2 or inside W, Widths of fonts with standard names and skewed Type 3 matrices refuted"
  },
  {
   "property": "C44",
   "status": "partial",
   "theorems": [
    "C44_differences_partial",
    "C44_base",
    "C44_history",
    "C44_tables",
    "C44_unknown_refuted",
    "C44_large_refuted"
   ],
   "note": "every Differences array over names with a meaning, every base, every history (base tables never modified); a name without meaning keeps the base character (as coded), a name over U+10FFFF raises ValueError (refuted)"
  },
  {
   "property": "C45",
   "status": "proved",
   "theorems": [
    "C45_segmentation",
    "C45_concatenation",
    "C45_order"
   ],
   "note": "every prefix-free map, any order of declarations; overlapping codes raise TypeError (example)"
  },
  {
   "property": "C46",
   "status": "partial",
   "theorems": [
    "C46_tounicode_partial",
    "C46_range",
    "C46_wrap_refuted",
    "C46_short_array_refuted",
    "C46_name_refuted"
   ],
   "note": "every ToUnicode file written of bfchar/bfrange/cidrange sections, any layout and buffering, codes of 1-4 bytes; bases whose low part overflows, arrays shorter than the range and name targets refuted"
  },
  {
   "property": "C47",
   "status": "proved",
   "theorems": [
    "C47_identity",
    "C47_even",
    "C47_odd"
   ],
   "note": "odd lengths raise struct.error (C47_odd)"
  },
  {
   "property": "C48",
   "status": "partial",
   "theorems": [
    "C48_rc4",
    "C48_objects_partial",
    "C48_aes_refuted"
   ],
   "note": "RC4 (V 1, 2, 4) exact for every key, object and data, and for every string of an object tree; AES leaves the padding on the data (refuted). MD5 and AES are parameters (any 16-byte hash, any inverse pair); RC4 is concrete"
  },
  {
   "property": "C49",
   "status": "partial",
   "theorems": [
    "C49_user_partial",
    "C49_owner_partial",
    "C49_wrong_refuted",
    "C49_unsigned_refuted",
    "C49_owner5_partial",
    "C49_user5_partial",
    "C49_wrong5_refuted"
   ],
   "note": "revisions 2, 3, 4 and 5, all passwords, keys of 40 to 128 bits, any hash of the right length; a wrong password gives NameError instead of PDFPasswordIncorrect and unsigned P raises struct.error (both refuted)"
  },
  {
   "property": "C50",
   "status": "proved",
   "theorems": [
    "C50_permissions"
   ],
   "note": "every integer"
  },
  {
   "property": "C51",
   "status": "partial",
   "theorems": [
    "C51_roundtrip_partial",
    "C51_roundtrip_aligned",
    "C51_t6_coding_exists",
    "C51_columns_refuted",
    "C51_group3_refuted"
   ],
   "note": "Group 4 (K -1) for every width, every image and every coding of it, with or without byte alignment and EOFB; K >= 0 (Group 3) and missing Columns raise (refuted)"
  },
  {
   "property": "C52",
   "status": "proved",
   "theorems": [
    "C52_geometry",
    "C52_zero_width"
   ],
   "note": "every data and every positive width; a width of 0 raises IndexError (C52_zero_width)"
  },
  {
   "property": "C53",
   "status": "partial",
   "theorems": [
    "C53_roundtrip_partial",
    "C53_unambiguous",
    "C53_place_object",
    "C53_integers",
    "C53_backslash_refuted",
    "C53_backslash_altered_refuted",
    "C53_newline_refuted",
    "C53_duplicate_refuted",
    "C53_number_refuted"
   ],
   "note": "Round trip against an independent RFC 8259 reader for every tree of calls, with exceptions at any point (every object and array is closed and what was told before is there); json.dumps values unrestricted. Missing because false: strings with a backslash or control character, repeated keys, None and nan are written wrongly (refuted theorems)."
  },
  {
   "property": "C54",
   "status": "partial",
   "theorems": [
    "C54_wellformed_partial",
    "C54_character_good",
    "C54_character_text",
    "C54_enc_value",
    "C54_attribute_refuted",
    "C54_exception_refuted",
    "C54_declaration_refuted",
    "C54_html_text_refuted"
   ],
   "note": "Every element tree with proper names and escaped values reads back, by an independent XML reader, as the same tree with the same attributes and texts. False when the client passes unescaped attribute values (the XML converter does for font descriptors), when an exception leaves an element open, for the XML declaration's version and for HTML text (refuted theorems)."
  },
  {
   "property": "C55",
   "status": "proved",
   "theorems": [
    "C55_roundtrip",
    "C55_ascii",
    "C55_injective",
    "C55_character_text",
    "C55_bytes_refuted",
    "C55_control_refuted"
   ],
   "note": "Escaping is reversed by an independent expander of references for every text; no raw markup character remains. Limits: bytes become empty and control characters pass (refuted theorems)."
  },
  {
   "property": "C57",
   "status": "partial",
   "theorems": [
    "C57_rows",
    "C57_size_partial",
    "C57_size_refuted",
    "C57_write_all_partial",
    "C57_depth_refuted",
    "C57_bad_depth"
   ],
   "note": "Any history of line writes reads back row by row through an independent reader of the bitmap format. False: declared size when rows need padding, and depth of 8/24-bit images written by write_all (refuted theorems, for all such images)."
  },
  {
   "property": "C58",
   "status": "proved",
   "theorems": [
    "C58_nunpack",
    "C58_default",
    "C58_widths"
   ],
   "note": "all supported lengths"
  },
  {
   "property": "C59",
   "status": "partial",
   "theorems": [
    "C59_resolve1",
    "C59_never_a_reference",
    "C59_terminates",
    "C59_cycle_refuted",
    "C59_diverges",
    "C59_resolve_all_partial",
    "C59_resolve_all_no_refs",
    "C59_resolve_all_dict_refuted"
   ],
   "note": "resolve1 exactly follows the chain; terminates on acyclic documents, diverges on cycles (refuted); resolve_all for arrays, dictionaries refuted"
  },
  {
   "property": "C60",
   "status": "proved",
   "theorems": [
    "C60_decipher_all",
    "C60_inverse"
   ],
   "note": "if and only if, at any depth"
  },
  {
   "property": "C61",
   "status": "proved",
   "theorems": [
    "C61_tokenizer_total"
   ],
   "note": ""
  },
  {
   "property": "C62",
   "status": "proved",
   "theorems": [
    "C62_table",
    "C62_damaged_subsection_refuted",
    "C62_missing_trailer_refuted"
   ],
   "note": "every table, chunking and end-of-line; damaged tables raise NameError instead of starting the recovery scan (refuted separately)"
  },
  {
   "property": "C63",
   "status": "partial",
   "theorems": [
    "C63_startxref_partial",
    "C63_missing",
    "C63_no_number_refuted",
    "C63_bad_number_refuted"
   ],
   "note": "every file and buffer size; bad or missing numbers escape as ValueError/TypeError (refuted)"
  },
  {
   "property": "C64",
   "status": "partial",
   "theorems": [
    "C64_sections",
    "C64_object_partial",
    "C64_stream_partial",
    "C64_absent"
   ],
   "note": "any number of revisions with tables (cross-reference streams: C88), plain and stream objects, any layout, with and without caching; freed objects reappear (refuted)"
  },
  {
   "property": "C65",
   "status": "partial",
   "theorems": [
    "C65_page_partial",
    "C65_reported"
   ],
   "note": "page content, for every operator history; forms always report (refuted)"
  },
  {
   "property": "C66",
   "status": "proved",
   "theorems": [
    "C66_form_isolated",
    "C66_form_start"
   ],
   "note": "statement covers the state seen by the form and by the page afterwards; the form's Matrix is not applied to its content and BBox is read as x y w h (noted as deviations from the PDF Reference)"
  },
  {
   "property": "C67",
   "status": "partial",
   "theorems": [
    "C67_meaning_partial",
    "C67_meaningless",
    "C67_uni_refuted",
    "C67_uni_hex_refuted",
    "C67_large_refuted"
   ],
   "note": "glyph list, numeric suffixes and rejection for every name; uniXXXX reads the digits as decimal (refuted) and large numbers raise ValueError (refuted)"
  },
  {
   "property": "C70",
   "status": "partial",
   "theorems": [
    "C70_header_partial",
    "C70_standard_refuted"
   ],
   "note": "every header of dup/put sequences in any layout and buffering; StandardEncoding headers give the empty encoding (refuted)"
  },
  {
   "property": "C68",
   "status": "partial",
   "theorems": [
    "C68_simple_partial",
    "C68_cid_partial"
   ],
   "note": "simple fonts (ToUnicode, Differences, base) and CID fonts with ToUnicode; encodings read from the font program are covered by C70; exotic Differences names as in C44"
  },
  {
   "property": "C69",
   "status": "proved",
   "theorems": [
    "C69_cache"
   ],
   "note": "every history, every document"
  },
  {
   "property": "C71",
   "status": "partial",
   "theorems": [
    "C71_composite_partial",
    "C71_decode",
    "C71_unknown_refuted",
    "C71_embedded_refuted"
   ],
   "note": "merge and decoding for every font; embedded CMap streams and unknown CMap names refuted"
  },
  {
   "property": "C72",
   "status": "proved",
   "theorems": [
    "C72_text_file",
    "C72_one_text",
    "C72_surrogate_refuted"
   ],
   "note": "every document and every failure point; a text with a lone surrogate (ToUnicode can produce one) makes the converter fail (C72_surrogate_refuted)"
  },
  {
   "property": "C73",
   "status": "proved",
   "theorems": [
    "C73_content_text",
    "C73_page_text",
    "C73_text_file"
   ],
   "note": "every program whose text operators have their operands directly before them, Do outside text objects, forms nested to any depth, and from there to the bytes of the text file; fonts (decoding and characters) and the content parser are parameters here (C68, C71, C19)"
  },
  {
   "property": "C74",
   "status": "partial",
   "theorems": [
    "C74_uniq",
    "C74_uniq_set",
    "C74_pick",
    "C74_pick_empty",
    "C74_choplist",
    "C74_choplist_zero",
    "C74_groups_unique",
    "C74_csort_partial",
    "C74_csort_duplicates_refuted"
   ],
   "note": "uniq, pick, choplist for every list; csort is stable only for lists without repeated objects (with repetitions refuted: C74_csort_duplicates_refuted)"
  },
  {
   "property": "C75",
   "status": "partial",
   "theorems": [
    "C75_state",
    "C75_graphics_partial"
   ],
   "note": "matrix and all text parameters exact through every nesting of q and Q; general graphics parameters only as set by the latest operator, since Q does not restore them (see C36)"
  },
  {
   "property": "C76",
   "status": "proved",
   "theorems": [
    "C76_plain",
    "C76_rootless",
    "C76_permissions"
   ],
   "note": "every list of trailers and every document without compressed-object restrictions of C25; permissions for every P; the fallback section (PDFXRefFallback) is not part of the list of trailers here"
  },
  {
   "property": "C77",
   "status": "partial",
   "theorems": [
    "C77_sealed_partial",
    "C77_history_partial",
    "C77_stream_data",
    "C77_stream_dictionary_refuted",
    "C77_user",
    "C77_owner"
   ],
   "note": "V 1 and 2 (RC4), user and owner passwords, every file of revisions with cross-reference tables, every history of lookups. MD5 is any function with 16-byte results. False: strings in stream dictionaries stay encrypted (C77_stream_dictionary_refuted). C77_sealed_partial: also V 4 with RC4 crypt filters, every layout of the file (C88), streams, missing objects. V 5 and AES are refuted at the level of the handler (C48)"
  },
  {
   "property": "C78",
   "status": "partial",
   "theorems": [
    "C78_xml_partial",
    "C78_exception_refuted",
    "C78_descriptor_refuted"
   ],
   "note": "every document that ends normally, with descriptor values that need no escaping; refuted for every document that ends with an exception (open elements are never closed) and for descriptor values with <, & or a quote, which are written raw. How numbers, colour values and descriptor values are printed is a parameter; text encoding of the file is not modelled"
  },
  {
   "property": "C79",
   "status": "partial",
   "theorems": [
    "C79_json_partial",
    "C79_empty_refuted",
    "C79_backslash_refuted",
    "C79_escape_refuted",
    "C79_descriptor_refuted"
   ],
   "note": "every document and failure point, for texts and descriptor values without backslash and control characters, distinct descriptor keys, colour values that HTML does not escape; refuted for an empty text object (None is written), a backslash in page text (broken or other text), escaped colour names and repeated keys"
  },
  {
   "property": "C80",
   "status": "partial",
   "theorems": [
    "C80_scan",
    "C80_recovered_partial",
    "C80_absent",
    "C80_kept",
    "C80_unlisted",
    "C80_second_part_refuted",
    "C80_line_start_refuted",
    "C80_truncated_refuted",
    "C80_damaged_refuted",
    "C80_valid_file_refuted"
   ],
   "note": "any number of plain, stream and packed objects between lines without interest, up to a trailer or the end; the data of a stream go to the first endstream, and endobj must be there. For a file with tables: objects that the tables define, in use, and objects they do not list (found by the scan). Refuted: objects after the first trailer or not at the beginning of a line are lost; a file cut off within an object, or with a damaged table, cannot be opened; a valid file with endstream in the data of a stream is misread or cannot be opened by default (it can with fallback=False)"
  },
  {
   "property": "C81",
   "status": "partial",
   "theorems": [
    "C81_found_partial",
    "C81_absent",
    "C81_false_value_refuted",
    "C81_dest",
    "C81_old_dest",
    "C81_dest_absent",
    "C81_mixed_refuted",
    "C81_root_limits_refuted",
    "C81_indirect_limits_refuted"
   ],
   "note": "every name tree with keys in order and limits as in ISO 32000-1; objects found must be true in Python. Refuted: objects that are false (0, empty, null) are not found when the tree has kids; with a name tree present a destination of the old dictionary cannot be asked for by its name (TypeError); a root that has limits gives None for other names; indirect limits are a TypeError"
  },
  {
   "property": "C82",
   "status": "partial",
   "theorems": [
    "C82_outline",
    "C82_no_outline",
    "C82_ring_refuted",
    "C82_title_refuted"
   ],
   "note": "every outline, with titles that are text strings; refuted for items linked in a ring (never ends) and a title that is no string (TypeError, what follows is lost)"
  },
  {
   "property": "C83",
   "status": "proved",
   "theorems": [
    "C83_text",
    "C83_every_text"
   ],
   "note": "text strings made of bytes; undefined codes are outside of the claim. utf16be decoding with errors='ignore' is the model of CMap_Model"
  },
  {
   "property": "C84",
   "status": "proved",
   "theorems": [
    "C84_content",
    "C84_page",
    "C84_page_text",
    "C84_ICC_N_refuted",
    "C84_CalCMYK_refuted",
    "C84_missing_space_refuted"
   ],
   "note": "Well-formedness (Total_Spec.v: Shows, Draws) asks for: every shown string has at least one code, and its codes have text unless bad characters are ignored; balanced text objects, no Do inside one; colour spaces of the families whose component number the code knows, N of an ICC profile direct (refuted otherwise: C84_ICC_N_refuted, C84_CalCMYK_refuted, C84_missing_space_refuted; for empty strings C41_empty_string_raises)."
  },
  {
   "property": "C85",
   "status": "partial",
   "theorems": [
    "C85_streams_partial",
    "C85_inline_images_partial",
    "C85_unambiguous",
    "C85_cutting",
    "C85_null_refuted",
    "C85_open_array_refuted",
    "C85_page_partial",
    "C85_page_unambiguous"
   ],
   "note": "C85_page_partial: any number of streams and of inline images (C85_streams_partial and C85_inline_images_partial are its special cases), operands may begin in one stream and end in a later one; tokens must be finished and comments closed within their stream (C22), the data of an image is in the stream of its ID, images as in C21. Refuted: null is not the null object in contents but an operator; an array left open swallows the rest of the page"
  },
  {
   "property": "C86",
   "status": "proved",
   "theorems": [
    "C86_font",
    "C86_resource"
   ],
   "note": "well-formed: entries that are looked at have references that end; Encoding, ToUnicode, W/W2, DW2 and CIDSystemInfo as in C43, C44, C46, C68, C70, C71, whose refuted cases (indirect DW2, embedded CMaps, odd bfranges, ...) are outside"
  },
  {
   "property": "C87",
   "status": "partial",
   "theorems": [
    "C87_blank_page_refuted",
    "C87_text_file_partial",
    "C87_none_chosen"
   ],
   "note": "files without encryption, with cross-reference tables and streams linked in any way (C88; objects they list, also in object streams, or that are found by the scan) or without any (objects found by the scan, also in object streams); at least one page chosen. Encrypted files: C93. Refuted: a page without contents ends the conversion with PSEOF"
  },
  {
   "property": "C88",
   "status": "partial",
   "theorems": [
    "C88_sections",
    "C88_lookup_exact",
    "C88_lookup_partial",
    "C88_absent"
   ],
   "note": "with fallback=False proved in full; opened as by default, with the additional search through the file, stream data extends to the first endstream, so the objects are stated with that data (C88_lookup_partial). Field widths are those of the code (C24); XRefStm and Prev are direct integers; a file whose links form a cycle is read until RecursionError (C27)"
  },
  {
   "property": "C89",
   "status": "partial",
   "theorems": [
    "C89_dispatch",
    "C89_mismatch",
    "C89_types",
    "C89_default",
    "C89_no_extension",
    "C89_cli_partial",
    "C89_cli_output_refuted",
    "C89_cli_several",
    "C89_others_kept",
    "C89_text_file_partial",
    "C89_missing_input",
    "C89_input_kept_refuted"
   ],
   "note": "the command line tool is proved only without an output file (C89_cli_partial): with one, the file is emptied and TypeError comes out (C89_cli_output_refuted), and the type asked for with -t is ignored. An input whose own name ends with the type is its own default output, and is emptied before it is read (C89_input_kept_refuted); a missing input leaves an empty output (C89_missing_input). The end-to-end theorem is for text (within C87); the other converters are parameters, their outputs are C54, C55, C78, C79. Not modelled: links and relative components in paths, files that cannot be written, other codecs than UTF-8"
  },
  {
   "property": "C90",
   "status": "partial",
   "theorems": [
    "C90_yaml_partial",
    "C90_injection_refuted",
    "C90_colon_refuted",
    "C90_text_refuted",
    "C90_descriptor_refuted",
    "C90_nested_first_refuted"
   ],
   "note": "texts, image names, colour values and descriptor entries that are plain scalars on one line (plainb), descriptor entries with other names than the members; an empty collection is read as null. Refuted beyond this, as nothing is quoted or escaped: a line end in the text of a page adds keys to the document (C90_injection_refuted), a colon, dash, bracket or quote makes the file unreadable (C90_colon_refuted) or changes the text (C90_text_refuted), an entry named text of a font descriptor replaces the text (C90_descriptor_refuted). Scalars are read as strings; the reader covers the part of YAML named in Yaml_Spec; the codec is not modelled; values of descriptors that are lists are outside"
  },
  {
   "property": "C91",
   "status": "partial",
   "theorems": [
    "C91_placement",
    "C91_inside",
    "C91_html_partial",
    "C91_exception_refuted",
    "C91_curves_refuted",
    "C91_text_refuted",
    "C91_narrow_refuted",
    "C91_vertical_refuted"
   ],
   "note": "texts without the characters of markup, clean attribute values (no quote, <, & or line end), a value for colours of one component, curves with an extent. C91_placement: boxes at least 1/100 wide with a height, or flat ones; C91_inside: the points of every box with an extent are within the drawing. Refuted beyond this: text is not escaped, so it makes elements of its own or a file that is no document (C91_text_refuted); a curve without extent raises ZeroDivisionError and, as after any exception, the file has no end (C91_exception_refuted); the segments of v and y are not drawn (C91_curves_refuted); narrow curves are squeezed (C91_narrow_refuted) and vertical lines have a coordinate system of no width (C91_vertical_refuted). Text of numbers, fonts' names and image names are parameters; the codec is not modelled"
  },
  {
   "property": "C92",
   "status": "partial",
   "theorems": [
    "C92_overlap",
    "C92_distance",
    "C92_symmetric",
    "C92_common_partial",
    "C92_inside_refuted",
    "C92_empty",
    "C92_vector"
   ],
   "note": "distances, overlap tests, is_empty, symmetry and vecBetweenBoxes are proved for all proper boxes; hoverlap and voverlap only when neither extent is strictly inside the other, and refuted otherwise (C92_inside_refuted: the result is larger than the inner width). Rounding is not modelled"
  },
  {
   "property": "C93",
   "status": "partial",
   "theorems": [
    "C93_owner_denied_refuted",
    "C93_user_partial",
    "C93_owner_partial",
    "C93_denied",
    "C93_wrong_password_refuted"
   ],
   "note": "RC4 only (AES leaves the padding and V 5 is refuted: C50, C51); objects that stand by themselves in the file, not in object streams; no strings that matter in the dictionaries of streams (refuted, C77). MD5 is a parameter with results of 16 bytes. Refuted: a wrong password raises NameError instead of PDFPasswordIncorrect (C93_wrong_password_refuted); the owner is refused what the permissions do not give to users (C93_owner_denied_refuted)"
  },
  {
   "property": "C94",
   "status": "partial",
   "theorems": [
    "C94_file_partial",
    "C94_run"
   ],
   "note": "Horizontal fonts, strings of at least one character, and a character space of 0 (with another one the boxes are refuted, C41); not the operator \" (refuted, C38), and of nested forms only that they are read (C84), not where their characters stand. C94_run is the theorem on contents, C94_file_partial the one on files (encrypted ones: C108), which also gives the texts; C94_hypotheses is a file of two pages"
  },
  {
   "property": "C95",
   "status": "proved",
   "theorems": [
    "C95_text_boxes",
    "C95_page",
    "C95_file"
   ],
   "note": "C95_text_boxes for any state without an open text object, C95_page for any page whose resources can be read, C95_file for any file whatever its bytes"
  },
  {
   "property": "C96",
   "status": "proved",
   "theorems": [
    "C96_measures"
   ],
   "note": "For the fonts of C86 (FontReads) with numbers in their places, not vertical, and Type 3 with a FontMatrix that only scales. The height of a Type 3 line is that of its FontBBox"
  },
  {
   "property": "C97",
   "status": "partial",
   "theorems": [
    "C97_program_refuted",
    "C97_program_harmless"
   ],
   "note": "the first half is refuted for every program (C97_program_refuted): the tables are keyed by byte strings and looked up by the text 'cmap', so that the map is never found; what is proved is that the program is harmless (C97_program_harmless). The inversion of the map (create_unicode_map, formats 0, 2, 4) is modelled but never reached."
  },
  {
   "property": "C98",
   "status": "partial",
   "theorems": [
    "C98_style",
    "C98_weight",
    "C98_bold_name",
    "C98_plain_refuted",
    "C98_indirect_refuted",
    "C98_standard_refuted"
   ],
   "note": "is_bold raises TypeError instead of answering for fonts with neither a FontWeight nor bold in the name (C98_plain_refuted), for each of the standard 14, whose weight is a word (C98_standard_refuted), and for a FontWeight given by reference (C98_indirect_refuted). Lower case is modelled for ASCII letters only."
  },
  {
   "property": "C99",
   "status": "partial",
   "theorems": [
    "C99_data",
    "C99_absolute",
    "C99_jpeg_partial",
    "C99_bitmap_partial",
    "C99_float_refuted",
    "C99_size_refuted",
    "C99_jpeg_used_refuted",
    "C99_jpeg_encrypted_refuted"
   ],
   "note": "C99_data is full for images that are neither JPEG nor of one bit. JPEG: not after get_data (C99_jpeg_used_refuted), not in encrypted documents (C99_jpeg_encrypted_refuted), CMYK left out (done by PIL). One bit: only if the sides of the box are ints equal to the size in pixels (C99_float_refuted, C99_size_refuted). A file name that begins with a slash is the whole path (C99_absolute). open() is taken to succeed."
  },
  {
   "property": "C100",
   "status": "partial",
   "theorems": [
    "C100_tables_partial",
    "C100_hyphen_refuted",
    "C100_expert_refuted",
    "C100_font_partial"
   ],
   "note": "Proved for all codes of the four encodings except one, and for fonts: C100_tables_partial, C100_font_partial. False for code 173 of WinAnsiEncoding, which the library reads as a space instead of a hyphen (C100_hyphen_refuted), and MacExpertEncoding is read as StandardEncoding (C100_expert_refuted). The bullet that WinAnsiEncoding gives to its unused codes is not in the specification used here."
  },
  {
   "property": "C101",
   "status": "proved",
   "theorems": [
    "C101_page_colours",
    "C101_file"
   ],
   "note": "C101_page_colours for any content and resources, C101_file for any file (colour spaces)"
  },
  {
   "property": "C102",
   "status": "partial",
   "theorems": [
    "C102_forms_partial",
    "C102_xml_partial"
   ],
   "note": "C102_xml_partial, from the bytes of the file to the bytes of the XML document. C102_forms_partial adds the forms, nested as the file nests them, with their characters at their places (for forms without a matrix or with the identity, as C107). Missing: colour values, image names and entries of font descriptors are assumed to be texts XML can hold (C78_descriptor_refuted shows that they need not be); restrictions of C94 (horizontal fonts, no character spacing)."
  },
  {
   "property": "C103",
   "status": "partial",
   "theorems": [
    "C103_defaults_refuted",
    "C103_file_partial",
    "C103_run"
   ],
   "note": "C103_file_partial for files (C103_run for a content stream in any state). Missing: slanted quadrilaterals, which the code loses (C39), pens changed between q and Q (Q does not restore them, C37), k, sc and scn (C40), the box of general curves (C39), shapes inside forms (encrypted files: C108). C103_defaults_refuted: without w, G and the like the items have width 0 and no colour components."
  },
  {
   "property": "C104",
   "status": "partial",
   "theorems": [
    "C104_dict_partial",
    "C104_integers",
    "C104_escape_refuted"
   ],
   "note": "Proved for operators of one byte. Two-byte operators (12 k) are misread: C104_escape_refuted shows that for every DICT, 12 k with k <= 21 leaves the entry of operator k empty. Floats are exact rationals."
  },
  {
   "property": "C105",
   "status": "partial",
   "theorems": [
    "C105_index_partial",
    "C105_empty_partial",
    "C105_empty_refuted"
   ],
   "note": "Proved for INDEXes with objects, and for the empty one before a byte 0. An empty INDEX at the end or before other bytes is misread (C105_empty_refuted)."
  },
  {
   "property": "C106",
   "status": "partial",
   "theorems": [
    "C106_standard_strings",
    "C106_font_partial",
    "C106_encoding_refuted",
    "C106_ranges_refuted",
    "C106_predefined_charset_refuted",
    "C106_charset1_refuted"
   ],
   "note": "Proved but for the codes: for every encoding of format 0 or 1 the codes are wrong (C106_encoding_refuted, C106_ranges_refuted: index and value are exchanged). Charsets of format 1 give no names (C106_charset1_refuted, first identifier below 256), the predefined one neither (C106_predefined_charset_refuted); format 2 raises AssertionError. The standard strings are checked for number, distinctness and 34 positions. CFFFont is not imported by the rest of the package."
  },
  {
   "property": "C107",
   "status": "partial",
   "theorems": [
    "C107_matrix_refuted",
    "C107_inherit_refuted",
    "C107_file_partial"
   ],
   "note": "C107_file_partial (every form without a matrix, or with the identity; each form sets the text state it uses; horizontal fonts; C108 has the encrypted files). Refuted: the matrix of a form is ignored for its characters (C107_matrix_refuted); a form does not start with the text state of the page (C107_inherit_refuted: it ends with an error where the font is inherited). A concrete file with a form meets the hypotheses (C107_hypotheses)."
  },
  {
   "property": "C108",
   "status": "partial",
   "theorems": [
    "C108_json_partial",
    "C108_xml_forms_partial",
    "C108_yaml_partial",
    "C108_html_partial",
    "C108_characters_partial",
    "C108_shapes_partial",
    "C108_forms_partial",
    "C108_xml_partial",
    "C108_denied"
   ],
   "note": "C108_characters_partial, C108_shapes_partial, C108_forms_partial, C108_xml_partial, C108_xml_forms_partial, C108_json_partial, C108_yaml_partial, C108_html_partial and C108_denied, for the user password and for the owner password. Missing: AES (refuted, C48) and V 5; what C93, C94, C102, C103, C107 and C110 to C112 leave out. MD5 is a parameter with results of 16 bytes."
  },
  {
   "property": "C109",
   "status": "partial",
   "theorems": [
    "C109_search",
    "C109_history",
    "C109_kept",
    "C109_outside_refuted",
    "C109_climb_refuted",
    "C109_font"
   ],
   "note": "C109_search for names that are one component of a path; C109_history and C109_kept for every name. Refuted: a name is not checked, so that one with a slash in front (C109_outside_refuted) or with .. (C109_climb_refuted) makes the library open and unpickle a file outside of its directories; the name is that of the Encoding of a font. C109_font ties the fonts of Font_Model, which read CMaps without caches, to the cached lookups. gzip and pickle are parameters; type() with odd names is not modelled."
  },
  {
   "property": "C110",
   "status": "partial",
   "theorems": [
    "C110_json_partial"
   ],
   "note": "C110_json_partial. Partial as C107 and C79 are: forms without a matrix or with the identity, horizontal fonts, no control character or backslash in the texts (C79_backslash_refuted), no text object without a string (C79_empty_refuted); colour values, image names and entries of font descriptors are assumed to be plain texts. The positions of single characters are not in the JSON file. A concrete file with a form meets the hypotheses (C110_hypotheses)."
  },
  {
   "property": "C111",
   "status": "partial",
   "theorems": [
    "C111_yaml_partial"
   ],
   "note": "C111_yaml_partial; for encrypted files C108_yaml_partial. Partial as C107 and C90 are: forms without a matrix or with the identity, horizontal fonts, every string a plain scalar on one line (C90_colon_refuted, C90_text_refuted, C90_injection_refuted), no text object without a string; colour values, image names and entries of font descriptors are assumed to be plain scalars. A concrete file with a form meets the hypotheses (C111_hypotheses)."
  },
  {
   "property": "C112",
   "status": "partial",
   "theorems": [
    "C112_html_partial"
   ],
   "note": "C112_html_partial; for encrypted files C108_html_partial. Partial as C107 and C91 are: forms without a matrix or with the identity, horizontal fonts, no character of markup in the texts (C91_text_refuted); colour values, image names and names of fonts are assumed to be plain. At a curve without extent the file has no end (C91_exception_refuted). A concrete file with a form meets the hypotheses (C112_hypotheses); that the conversion completes is a condition on the items of the pages (C112_drawable has one that meets it and one that does not), not on the content streams."
  }
 ]
}