(* What the property theorems rest on: each definition names the theorems of one or more files, and each command prints "Closed under the
   global context" for them, that is, no axiom at all, not even one of the standard library.  Generated; see DESIGN.md. *)
From Verif Require A85_Props LZW_Props PNG_Props Lex_Props Lines_Props Stack_Props Content_Props Stream_Props XRef_Props Doc_Props Geom_Props Page_Props Interp_Props Forms_Props CMap_Props Font_Props Font_Witness Sec_Props CCITT_Props Markup_Props BMP_Props TextFile_Props Generic_Props State_Props Open_Props XmlFile_Props JsonFile_Props Fallback_Props Names_Props Total_Props Instr_Props Multi_Props PathBox_Props FontTotal_Props TrueType_Props Weight_Props Sections_Props Extract_Props Extract_Cases Dispatch_Props YamlFile_Props Html_Props Layout_Props ExtractEnc_Props ExtractEnc_Denied Boxes_Props Place_Props Measure_Props PlaceFile_Props Image_Props Latin_Props Colour_Props Whole_Props FileXml_Props Shape_Props ShapeFile_Props ShapeFile_Cases CFF_Props Nest_Props Nest_Cases FileJson_Props FileNest_Props FileYaml_Props FileHtml_Props CMapDB_Props PlaceEnc_Props PlaceEncFile_Props.
Definition theorems_1 : unit :=
  let _ := @A85_Props.C01_ascii85_roundtrip in
  let _ := @A85_Props.C01_ascii85_encodable in
  let _ := @A85_Props.C02_asciihex_even_partial in
  let _ := @A85_Props.C02_asciihex_odd_partial in
  let _ := @A85_Props.C02_asciihex_split_refuted in
  let _ := @A85_Props.C02_asciihex_eod_refuted in
  let _ := @A85_Props.C03_runlength_roundtrip in
  let _ := @A85_Props.C03_runlength_only_runs in
  let _ := @A85_Props.C03_runlength_truncated in
  let _ := @A85_Props.C03_runlength_only_error in
  let _ := @LZW_Props.C04_lzw_roundtrip in
  let _ := @LZW_Props.C04_lzw_any_encoder in
  let _ := @LZW_Props.C05_lzw_prefix_partial in
  let _ := @LZW_Props.C05_lzw_errors in
  let _ := @LZW_Props.C05_lzw_after_eod_refuted in
  let _ := @PNG_Props.C06_png_roundtrip_partial in
  let _ := @PNG_Props.C06_png_average_refuted in
  let _ := @PNG_Props.C06_png_paeth_refuted in
  let _ := @PNG_Props.C06_png_sub_rgb_refuted in
  let _ := @PNG_Props.C06_png_up_rgb_refuted in
  let _ := @PNG_Props.C06_png_total in
  let _ := @PNG_Props.C58_nunpack in
  let _ := @PNG_Props.C58_default in
  let _ := @PNG_Props.C58_widths in
  let _ := @Lex_Props.C09_tokens_any_chunks in
  let _ := @Lex_Props.C09_tokens_bufsiz in
  let _ := @Lex_Props.C09_nexttoken_step in
  let _ := @Lex_Props.C18_layout_positions_partial in
  let _ := @Lex_Props.C18_layout_values in
  let _ := @Lex_Props.C18_position_after_hex_refuted in
  let _ := @Lex_Props.C18_gaps_irrelevant in
  let _ := @Lex_Props.C18_nul_refuted in
  let _ := @Lex_Props.C12_literal_string_partial in
  let _ := @Lex_Props.C12_write_string_roundtrip in
  let _ := @Lex_Props.C12_unknown_escape_refuted in
  let _ := @Lex_Props.C12_octal_overflow_refuted in
  let _ := @Lex_Props.C12_crlf_continuation_refuted in
  let _ := @Lex_Props.C12_raw_eol_refuted in
  let _ := @Lex_Props.C13_hex_string_partial in
  let _ := @Lex_Props.C13_write_hexstring_roundtrip in
  let _ := @Lex_Props.C13_odd_digit_refuted in
  let _ := @Lex_Props.C14_name in
  let _ := @Lex_Props.C14_write_name_roundtrip in
  let _ := @Lex_Props.C15_integer in
  let _ := @Lex_Props.C15_integer_roundtrip in
  let _ := @Lex_Props.C17_last_token_refuted in
  let _ := @Lex_Props.C17_complete_partial in
  let _ := @Lex_Props.C61_tokenizer_total in
  let _ := @Lines_Props.C10_nextline in
  let _ := @Lines_Props.C10_all_lines_partial in
  let _ := @Lines_Props.C10_lines_bufsiz in
  let _ := @Lines_Props.C10_last_line_refuted in
  let _ := @Lines_Props.C11_revreadlines in
  let _ := @Lines_Props.C11_revreadlines_bufsiz in
  let _ := @Stack_Props.C16_pdf_object in
  let _ := @Stack_Props.C16_pdf_object_resumes in
  let _ := @Stack_Props.C16_stream_strays in
  let _ := @Stack_Props.C16_stream_objects_partial in
  let _ := @Stack_Props.C16_stream_null_refuted in
  let _ := @Stack_Props.C16_stream_toplevel_ref_refuted in
  tt.
Print Assumptions theorems_1.
Definition theorems_2 : unit :=
  let _ := @Stack_Props.C16_odd_dictionary in
  let _ := @Stack_Props.C16_stray_bracket in
  let _ := @Stack_Props.C20_exact_length in
  let _ := @Stack_Props.C20_fallback_data_partial in
  let _ := @Stack_Props.C20_fallback_extra_newline_refuted in
  let _ := @Stack_Props.C20_fallback_truncated_refuted in
  let _ := @Stack_Props.C20_negative_length_loops_refuted in
  let _ := @Content_Props.C19_identity in
  let _ := @Content_Props.C19_names_kept in
  let _ := @Content_Props.C22_concatenation_partial in
  let _ := @Content_Props.C22_any_split in
  let _ := @Content_Props.C22_glued_refuted in
  let _ := @Content_Props.C22_glued_comment_refuted in
  let _ := @Content_Props.C22_last_token_lost_refuted in
  let _ := @Content_Props.C21_get_inline_data in
  let _ := @Content_Props.C21_no_marker in
  let _ := @Content_Props.C21_inline_image_partial in
  let _ := @Content_Props.C21_payload_ending_in_E_refuted in
  let _ := @Content_Props.C21_payload_ending_in_EI_refuted in
  let _ := @Content_Props.C21_payload_ending_in_newline_refuted in
  let _ := @Stream_Props.C08_filters_partial in
  let _ := @Stream_Props.C08_short_parms_refuted in
  let _ := @Stream_Props.C08_indirect_filters_refuted in
  let _ := @Stream_Props.C08_indirect_filter_name_refuted in
  let _ := @Stream_Props.C08_file_specification_refuted in
  let _ := @Stream_Props.C07_filter_chain in
  let _ := @Stream_Props.C07_same_answer in
  let _ := @Stream_Props.C07_rawdata_lost_refuted in
  let _ := @Stream_Props.C07_indirect_parms_refuted in
  let _ := @Stream_Props.C07_corrupt_flate_refuted in
  let _ := @Stream_Props.C07_unsupported_filter_refuted in
  let _ := @Stream_Props.C59_resolve1 in
  let _ := @Stream_Props.C59_never_a_reference in
  let _ := @Stream_Props.C59_terminates in
  let _ := @Stream_Props.C59_cycle_refuted in
  let _ := @Stream_Props.C59_diverges in
  let _ := @Stream_Props.C59_resolve_all_partial in
  let _ := @Stream_Props.C59_resolve_all_no_refs in
  let _ := @Stream_Props.C59_resolve_all_dict_refuted in
  let _ := @Stream_Props.C60_decipher_all in
  let _ := @Stream_Props.C60_inverse in
  let _ := @XRef_Props.C24_get_pos_partial in
  let _ := @XRef_Props.C24_objids_partial in
  let _ := @XRef_Props.C24_objids_two_subsections_refuted in
  let _ := @XRef_Props.C24_width5_refuted in
  let _ := @XRef_Props.C24_wide_general_refuted in
  let _ := @XRef_Props.C62_table in
  let _ := @XRef_Props.C62_damaged_subsection_refuted in
  let _ := @XRef_Props.C62_missing_trailer_refuted in
  let _ := @Doc_Props.C23_newest_wins_partial in
  let _ := @Doc_Props.C23_absent in
  let _ := @Doc_Props.C23_fuel in
  let _ := @Doc_Props.C23_zero in
  let _ := @Doc_Props.C25_caching in
  let _ := @Doc_Props.C25_repeat in
  let _ := @Doc_Props.C26_members in
  let _ := @Doc_Props.C26_lookup in
  let _ := @Doc_Props.C27_chain_in_order in
  let _ := @Doc_Props.C27_chain_only in
  let _ := @Doc_Props.C27_terminates_partial in
  tt.
Print Assumptions theorems_2.
Definition theorems_3 : unit :=
  let _ := @Doc_Props.C27_cycle_refuted in
  let _ := @Doc_Props.C63_startxref_partial in
  let _ := @Doc_Props.C63_missing in
  let _ := @Doc_Props.C63_no_number_refuted in
  let _ := @Doc_Props.C63_bad_number_refuted in
  let _ := @Doc_Props.C64_sections in
  let _ := @Doc_Props.C64_object_partial in
  let _ := @Doc_Props.C64_stream_partial in
  let _ := @Doc_Props.C64_absent in
  let _ := @Doc_Props.C23_freed_object_refuted in
  let _ := @Doc_Props.C23_freed_object_general_refuted in
  let _ := @Doc_Props.C23_syntax_error_not_skipped_refuted in
  let _ := @Doc_Props.C23_offset_before_header_refuted in
  let _ := @Doc_Props.C26_index_out_of_range in
  let _ := @Geom_Props.C33_compose in
  let _ := @Geom_Props.C33_assoc in
  let _ := @Geom_Props.C33_identity in
  let _ := @Geom_Props.C33_translate in
  let _ := @Geom_Props.C33_translate_is_mult in
  let _ := @Geom_Props.C33_norm in
  let _ := @Geom_Props.C34_corners in
  let _ := @Geom_Props.C34_from_points_partial in
  let _ := @Geom_Props.C34_contains in
  let _ := @Geom_Props.C34_large_coordinates_refuted in
  let _ := @Geom_Props.C34_no_points_refuted in
  let _ := @Geom_Props.C35_find_partial in
  let _ := @Geom_Props.C35_find_outside in
  let _ := @Geom_Props.C35_find_anywhere_partial in
  let _ := @Geom_Props.C35_sound in
  let _ := @Geom_Props.C35_iter in
  let _ := @Geom_Props.C35_zero_width_refuted in
  let _ := @Geom_Props.C35_negative_fraction_refuted in
  let _ := @Geom_Props.C35_outside_refuted in
  let _ := @Geom_Props.C35_readd_refuted in
  let _ := @Geom_Props.C35_iter_twice_refuted in
  let _ := @Page_Props.C28_pages_partial in
  let _ := @Page_Props.C28_not_inherited in
  let _ := @Page_Props.C28_fallback in
  let _ := @Page_Props.C28_direct_kid_refuted in
  let _ := @Page_Props.C28_indirect_type_refuted in
  let _ := @Page_Props.C28_no_mediabox_refuted in
  let _ := @Page_Props.C28_cycle_refuted in
  let _ := @Page_Props.C28_catalog_refuted in
  let _ := @Page_Props.C29_selection in
  let _ := @Page_Props.C29_maximum in
  let _ := @Page_Props.C29_both_partial in
  let _ := @Page_Props.C29_both_refuted in
  let _ := @Page_Props.C29_empty_selection_refuted in
  let _ := @Page_Props.C29_extractable in
  let _ := @Page_Props.C30_rotation in
  let _ := @Page_Props.C30_default in
  let _ := @Page_Props.C31_rotation_partial in
  let _ := @Page_Props.C31_onto_origin in
  let _ := @Page_Props.C31_distance in
  let _ := @Page_Props.C31_size_refuted in
  let _ := @Page_Props.C32_serial_partial in
  let _ := @Page_Props.C32_preloaded_partial in
  let _ := @Page_Props.C32_abandoned_refuted in
  let _ := @Page_Props.C32_interleaved_refuted in
  let _ := @Page_Props.C32_error_forgotten_refuted in
  tt.
Print Assumptions theorems_3.
Definition theorems_4 : unit :=
  let _ := @Page_Props.C32_empty in
  let _ := @Interp_Props.C36_operand_pushed in
  let _ := @Interp_Props.C36_unknown_no_effect in
  let _ := @Interp_Props.C36_exact_operands in
  let _ := @Interp_Props.C36_too_few_rejected in
  let _ := @Interp_Props.C36_program_frame in
  let _ := @Interp_Props.C36_colour_operands in
  let _ := @Interp_Props.C37_restored_partial in
  let _ := @Interp_Props.C37_graphics_not_restored in
  let _ := @Interp_Props.C37_position_partial in
  let _ := @Interp_Props.C37_reachable in
  let _ := @Interp_Props.C38_Tm in
  let _ := @Interp_Props.C38_Td in
  let _ := @Interp_Props.C38_TD_is_TL_Td in
  let _ := @Interp_Props.C38_Tstar_is_Td in
  let _ := @Interp_Props.C38_TL_stored in
  let _ := @Interp_Props.C38_quote in
  let _ := @Interp_Props.C38_dquote_partial in
  let _ := @Interp_Props.C38_line_history in
  let _ := @Interp_Props.C39_painted_partial in
  let _ := @Interp_Props.C39_item_line in
  let _ := @Interp_Props.C39_item_rect in
  let _ := @Interp_Props.C39_stroke_or_fill_lost in
  let _ := @Interp_Props.C40_gray in
  let _ := @Interp_Props.C40_rgb in
  let _ := @Interp_Props.C40_cmyk_stroke_partial in
  let _ := @Interp_Props.C40_k_is_K in
  let _ := @Interp_Props.C40_others_keep_colours in
  let _ := @Interp_Props.C41_show_partial in
  let _ := @Interp_Props.C41_show_exact_without_Tc_partial in
  let _ := @Interp_Props.C41_vertical_partial in
  let _ := @Interp_Props.C41_empty_string_raises in
  let _ := @Interp_Props.C41_Tj_is_TJ in
  let _ := @Forms_Props.C65_page_partial in
  let _ := @Forms_Props.C65_reported in
  let _ := @Forms_Props.C66_form_isolated in
  let _ := @Forms_Props.C66_form_start in
  let _ := @CMap_Props.C45_segmentation in
  let _ := @CMap_Props.C45_concatenation in
  let _ := @CMap_Props.C45_order in
  let _ := @CMap_Props.C47_identity in
  let _ := @CMap_Props.C47_even in
  let _ := @CMap_Props.C47_odd in
  let _ := @CMap_Props.C46_tounicode_partial in
  let _ := @CMap_Props.C46_range in
  let _ := @CMap_Props.C46_wrap_refuted in
  let _ := @CMap_Props.C46_short_array_refuted in
  let _ := @CMap_Props.C46_name_refuted in
  let _ := @CMap_Props.C67_meaning_partial in
  let _ := @CMap_Props.C67_meaningless in
  let _ := @CMap_Props.C67_uni_refuted in
  let _ := @CMap_Props.C67_uni_hex_refuted in
  let _ := @CMap_Props.C67_large_refuted in
  let _ := @CMap_Props.C44_differences_partial in
  let _ := @CMap_Props.C44_base in
  let _ := @CMap_Props.C44_history in
  let _ := @CMap_Props.C44_tables in
  let _ := @CMap_Props.C44_unknown_refuted in
  let _ := @CMap_Props.C44_large_refuted in
  let _ := @CMap_Props.C70_header_partial in
  tt.
Print Assumptions theorems_4.
Definition theorems_5 : unit :=
  let _ := @CMap_Props.C70_standard_refuted in
  let _ := @Font_Props.C43_widths in
  let _ := @Font_Props.C43_widths_vertical in
  let _ := @Font_Props.C43_cid_declared in
  let _ := @Font_Props.C43_cid_default in
  let _ := @Font_Props.C43_cid_zero_partial in
  let _ := @Font_Props.C43_vertical_declared in
  let _ := @Font_Props.C43_vertical_default in
  let _ := @Font_Props.C43_simple in
  let _ := @Font_Props.C43_standard in
  let _ := @Font_Props.C43_type3_partial in
  let _ := @Font_Props.C68_simple_partial in
  let _ := @Font_Props.C68_cid_partial in
  let _ := @Font_Props.C69_cache in
  let _ := @Font_Props.C71_composite_partial in
  let _ := @Font_Props.C71_decode in
  let _ := @Font_Props.C71_unknown_refuted in
  let _ := @Font_Props.C71_embedded_refuted in
  let _ := @Font_Witness.C43_zero_refuted in
  let _ := @Font_Witness.C43_default_reference_refuted in
  let _ := @Font_Witness.C43_array_reference_refuted in
  let _ := @Font_Witness.C43_vertical_reference_refuted in
  let _ := @Font_Witness.C43_standard_widths_refuted in
  let _ := @Font_Witness.C43_type3_skew_refuted in
  let _ := @Sec_Props.C50_permissions in
  let _ := @Sec_Props.C49_user_partial in
  let _ := @Sec_Props.C49_owner_partial in
  let _ := @Sec_Props.C49_wrong_refuted in
  let _ := @Sec_Props.C49_unsigned_refuted in
  let _ := @Sec_Props.C48_rc4 in
  let _ := @Sec_Props.C48_objects_partial in
  let _ := @Sec_Props.C49_owner5_partial in
  let _ := @Sec_Props.C49_user5_partial in
  let _ := @Sec_Props.C49_wrong5_refuted in
  let _ := @Sec_Props.C48_aes_refuted in
  let _ := @CCITT_Props.C51_roundtrip_partial in
  let _ := @CCITT_Props.C51_roundtrip_aligned in
  let _ := @CCITT_Props.C51_t6_coding_exists in
  let _ := @CCITT_Props.C51_columns_refuted in
  let _ := @CCITT_Props.C51_group3_refuted in
  let _ := @CCITT_Props.C52_geometry in
  let _ := @CCITT_Props.C52_zero_width in
  let _ := @Markup_Props.C55_roundtrip in
  let _ := @Markup_Props.C55_ascii in
  let _ := @Markup_Props.C55_injective in
  let _ := @Markup_Props.C55_character_text in
  let _ := @Markup_Props.C55_bytes_refuted in
  let _ := @Markup_Props.C55_control_refuted in
  let _ := @Markup_Props.C54_wellformed_partial in
  let _ := @Markup_Props.C54_character_good in
  let _ := @Markup_Props.C54_character_text in
  let _ := @Markup_Props.C54_enc_value in
  let _ := @Markup_Props.C54_attribute_refuted in
  let _ := @Markup_Props.C54_exception_refuted in
  let _ := @Markup_Props.C54_declaration_refuted in
  let _ := @Markup_Props.C54_html_text_refuted in
  let _ := @Markup_Props.C53_roundtrip_partial in
  let _ := @Markup_Props.C53_unambiguous in
  let _ := @Markup_Props.C53_place_object in
  let _ := @Markup_Props.C53_integers in
  tt.
Print Assumptions theorems_5.
Definition theorems_6 : unit :=
  let _ := @Markup_Props.C53_backslash_refuted in
  let _ := @Markup_Props.C53_backslash_altered_refuted in
  let _ := @Markup_Props.C53_newline_refuted in
  let _ := @Markup_Props.C53_duplicate_refuted in
  let _ := @Markup_Props.C53_number_refuted in
  let _ := @BMP_Props.C57_rows in
  let _ := @BMP_Props.C57_size_partial in
  let _ := @BMP_Props.C57_size_refuted in
  let _ := @BMP_Props.C57_write_all_partial in
  let _ := @BMP_Props.C57_depth_refuted in
  let _ := @BMP_Props.C57_bad_depth in
  let _ := @TextFile_Props.C72_text_file in
  let _ := @TextFile_Props.C72_one_text in
  let _ := @TextFile_Props.C72_surrogate_refuted in
  let _ := @TextFile_Props.C73_content_text in
  let _ := @TextFile_Props.C73_page_text in
  let _ := @TextFile_Props.C73_text_file in
  let _ := @Generic_Props.C74_uniq in
  let _ := @Generic_Props.C74_uniq_set in
  let _ := @Generic_Props.C74_pick in
  let _ := @Generic_Props.C74_pick_empty in
  let _ := @Generic_Props.C74_choplist in
  let _ := @Generic_Props.C74_choplist_zero in
  let _ := @Generic_Props.C74_groups_unique in
  let _ := @Generic_Props.C74_csort_partial in
  let _ := @Generic_Props.C74_csort_duplicates_refuted in
  let _ := @State_Props.C75_state in
  let _ := @State_Props.C75_graphics_partial in
  let _ := @Open_Props.C76_plain in
  let _ := @Open_Props.C76_rootless in
  let _ := @Open_Props.C77_history_partial in
  let _ := @Open_Props.C77_stream_data in
  let _ := @Open_Props.C77_stream_dictionary_refuted in
  let _ := @Open_Props.C77_user in
  let _ := @Open_Props.C77_owner in
  let _ := @Open_Props.C76_permissions in
  let _ := @XmlFile_Props.C78_xml_partial in
  let _ := @XmlFile_Props.C78_exception_refuted in
  let _ := @XmlFile_Props.C78_descriptor_refuted in
  let _ := @JsonFile_Props.C79_json_partial in
  let _ := @JsonFile_Props.C79_empty_refuted in
  let _ := @JsonFile_Props.C79_backslash_refuted in
  let _ := @JsonFile_Props.C79_escape_refuted in
  let _ := @JsonFile_Props.C79_descriptor_refuted in
  let _ := @Fallback_Props.C80_scan in
  let _ := @Fallback_Props.C80_recovered_partial in
  let _ := @Fallback_Props.C80_absent in
  let _ := @Fallback_Props.C80_kept in
  let _ := @Fallback_Props.C80_unlisted in
  let _ := @Fallback_Props.C80_second_part_refuted in
  let _ := @Fallback_Props.C80_line_start_refuted in
  let _ := @Fallback_Props.C80_truncated_refuted in
  let _ := @Fallback_Props.C80_damaged_refuted in
  let _ := @Fallback_Props.C80_valid_file_refuted in
  let _ := @Names_Props.C83_text in
  let _ := @Names_Props.C83_every_text in
  let _ := @Names_Props.C81_found_partial in
  let _ := @Names_Props.C81_absent in
  let _ := @Names_Props.C81_false_value_refuted in
  let _ := @Names_Props.C81_dest in
  tt.
Print Assumptions theorems_6.
Definition theorems_7 : unit :=
  let _ := @Names_Props.C81_old_dest in
  let _ := @Names_Props.C81_dest_absent in
  let _ := @Names_Props.C81_mixed_refuted in
  let _ := @Names_Props.C81_root_limits_refuted in
  let _ := @Names_Props.C81_indirect_limits_refuted in
  let _ := @Names_Props.C82_outline in
  let _ := @Names_Props.C82_no_outline in
  let _ := @Names_Props.C82_ring_refuted in
  let _ := @Names_Props.C82_title_refuted in
  let _ := @Total_Props.C84_content in
  let _ := @Total_Props.C84_page in
  let _ := @Total_Props.C84_page_text in
  let _ := @Total_Props.C84_ICC_N_refuted in
  let _ := @Total_Props.C84_CalCMYK_refuted in
  let _ := @Total_Props.C84_missing_space_refuted in
  let _ := @Instr_Props.C85_streams_partial in
  let _ := @Instr_Props.C85_inline_images_partial in
  let _ := @Instr_Props.C85_unambiguous in
  let _ := @Instr_Props.C85_cutting in
  let _ := @Instr_Props.C85_null_refuted in
  let _ := @Instr_Props.C85_open_array_refuted in
  let _ := @Multi_Props.C85_page_partial in
  let _ := @Multi_Props.C85_page_unambiguous in
  let _ := @PathBox_Props.C39_item_curve_partial in
  let _ := @PathBox_Props.C39_curve_box_not_transformed_refuted in
  let _ := @PathBox_Props.C39_curve_leaves_box_refuted in
  let _ := @FontTotal_Props.C86_font in
  let _ := @FontTotal_Props.C86_resource in
  let _ := @TrueType_Props.C97_program_refuted in
  let _ := @TrueType_Props.C97_program_harmless in
  let _ := @Weight_Props.C98_style in
  let _ := @Weight_Props.C98_weight in
  let _ := @Weight_Props.C98_bold_name in
  let _ := @Weight_Props.C98_plain_refuted in
  let _ := @Weight_Props.C98_indirect_refuted in
  let _ := @Weight_Props.C98_standard_refuted in
  let _ := @Sections_Props.C88_sections in
  let _ := @Sections_Props.C88_lookup_exact in
  let _ := @Sections_Props.C88_lookup_partial in
  let _ := @Sections_Props.C88_absent in
  let _ := @Extract_Props.C87_text_file_partial in
  let _ := @Extract_Props.C87_none_chosen in
  let _ := @Extract_Cases.C87_blank_page_refuted in
  let _ := @Dispatch_Props.C89_dispatch in
  let _ := @Dispatch_Props.C89_mismatch in
  let _ := @Dispatch_Props.C89_types in
  let _ := @Dispatch_Props.C89_default in
  let _ := @Dispatch_Props.C89_no_extension in
  let _ := @Dispatch_Props.C89_cli_partial in
  let _ := @Dispatch_Props.C89_cli_output_refuted in
  let _ := @Dispatch_Props.C89_cli_several in
  let _ := @Dispatch_Props.C89_others_kept in
  let _ := @Dispatch_Props.C89_text_file_partial in
  let _ := @Dispatch_Props.C89_missing_input in
  let _ := @Dispatch_Props.C89_input_kept_refuted in
  let _ := @YamlFile_Props.C90_yaml_partial in
  let _ := @YamlFile_Props.C90_injection_refuted in
  let _ := @YamlFile_Props.C90_colon_refuted in
  let _ := @YamlFile_Props.C90_text_refuted in
  let _ := @YamlFile_Props.C90_descriptor_refuted in
  tt.
Print Assumptions theorems_7.
Definition theorems_8 : unit :=
  let _ := @YamlFile_Props.C90_nested_first_refuted in
  let _ := @Html_Props.C91_placement in
  let _ := @Html_Props.C91_inside in
  let _ := @Html_Props.C91_html_partial in
  let _ := @Html_Props.C91_exception_refuted in
  let _ := @Html_Props.C91_curves_refuted in
  let _ := @Html_Props.C91_text_refuted in
  let _ := @Html_Props.C91_narrow_refuted in
  let _ := @Html_Props.C91_vertical_refuted in
  let _ := @Layout_Props.C92_overlap in
  let _ := @Layout_Props.C92_distance in
  let _ := @Layout_Props.C92_symmetric in
  let _ := @Layout_Props.C92_common_partial in
  let _ := @Layout_Props.C92_inside_refuted in
  let _ := @Layout_Props.C92_empty in
  let _ := @Layout_Props.C92_vector in
  let _ := @ExtractEnc_Props.C93_user_partial in
  let _ := @ExtractEnc_Props.C93_owner_partial in
  let _ := @ExtractEnc_Props.C93_denied in
  let _ := @ExtractEnc_Props.C93_wrong_password_refuted in
  let _ := @ExtractEnc_Props.C77_sealed_partial in
  let _ := @ExtractEnc_Denied.C93_owner_denied_refuted in
  let _ := @Boxes_Props.C95_text_boxes in
  let _ := @Boxes_Props.C95_page in
  let _ := @Place_Props.C94_run in
  let _ := @Measure_Props.C96_measures in
  let _ := @PlaceFile_Props.C94_file_partial in
  let _ := @Image_Props.C99_data in
  let _ := @Image_Props.C99_absolute in
  let _ := @Image_Props.C99_jpeg_partial in
  let _ := @Image_Props.C99_bitmap_partial in
  let _ := @Image_Props.C99_float_refuted in
  let _ := @Image_Props.C99_size_refuted in
  let _ := @Image_Props.C99_jpeg_used_refuted in
  let _ := @Image_Props.C99_jpeg_encrypted_refuted in
  let _ := @Latin_Props.C100_tables_partial in
  let _ := @Latin_Props.C100_hyphen_refuted in
  let _ := @Latin_Props.C100_expert_refuted in
  let _ := @Latin_Props.C100_font_partial in
  let _ := @Colour_Props.C101_page_colours in
  let _ := @Whole_Props.C95_file in
  let _ := @Whole_Props.C101_file in
  let _ := @FileXml_Props.C102_xml_partial in
  let _ := @Shape_Props.C103_run in
  let _ := @ShapeFile_Props.C103_file_partial in
  let _ := @ShapeFile_Cases.C103_defaults_refuted in
  let _ := @CFF_Props.C104_dict_partial in
  let _ := @CFF_Props.C104_integers in
  let _ := @CFF_Props.C104_escape_refuted in
  let _ := @CFF_Props.C105_index_partial in
  let _ := @CFF_Props.C105_empty_partial in
  let _ := @CFF_Props.C105_empty_refuted in
  let _ := @CFF_Props.C106_standard_strings in
  let _ := @CFF_Props.C106_font_partial in
  let _ := @CFF_Props.C106_encoding_refuted in
  let _ := @CFF_Props.C106_ranges_refuted in
  let _ := @CFF_Props.C106_predefined_charset_refuted in
  let _ := @CFF_Props.C106_charset1_refuted in
  let _ := @Nest_Props.C107_file_partial in
  let _ := @Nest_Cases.C107_matrix_refuted in
  tt.
Print Assumptions theorems_8.
Definition theorems_9 : unit :=
  let _ := @Nest_Cases.C107_inherit_refuted in
  let _ := @FileJson_Props.C110_json_partial in
  let _ := @FileNest_Props.C102_forms_partial in
  let _ := @FileYaml_Props.C111_yaml_partial in
  let _ := @FileHtml_Props.C112_html_partial in
  let _ := @CMapDB_Props.C109_search in
  let _ := @CMapDB_Props.C109_history in
  let _ := @CMapDB_Props.C109_kept in
  let _ := @CMapDB_Props.C109_outside_refuted in
  let _ := @CMapDB_Props.C109_climb_refuted in
  let _ := @CMapDB_Props.C109_font in
  let _ := @PlaceEnc_Props.C108_characters_partial in
  let _ := @PlaceEnc_Props.C108_shapes_partial in
  let _ := @PlaceEnc_Props.C108_forms_partial in
  let _ := @PlaceEnc_Props.C108_xml_partial in
  let _ := @PlaceEnc_Props.C108_denied in
  let _ := @PlaceEncFile_Props.C108_json_partial in
  let _ := @PlaceEncFile_Props.C108_xml_forms_partial in
  let _ := @PlaceEncFile_Props.C108_yaml_partial in
  let _ := @PlaceEncFile_Props.C108_html_partial in
  tt.
Print Assumptions theorems_9.
