{
 "claims": [
  {
   "property": "C01",
   "status": "proved",
   "theorems": [
    "C01_unsigned_packing"
   ],
   "note": ""
  },
  {
   "property": "C02",
   "status": "proved",
   "theorems": [
    "C02_signed_packing"
   ],
   "note": ""
  },
  {
   "property": "C03",
   "status": "proved",
   "theorems": [
    "C03_pack_bits_exact",
    "C03_pack_bits_read_back"
   ],
   "note": ""
  },
  {
   "property": "C04",
   "status": "proved",
   "theorems": [
    "C04_in_bit_range",
    "C04_in_bit_range_decimal"
   ],
   "note": ""
  },
  {
   "property": "C05",
   "status": "proved",
   "theorems": [
    "C05_parsed_integers_fit"
   ],
   "note": ""
  },
  {
   "property": "C06",
   "status": "proved",
   "theorems": [
    "C06_literals_round_trip",
    "C06_empty_suffix",
    "C06_operator_character_refuted",
    "C06_lenient_refuted"
   ],
   "note": ""
  },
  {
   "property": "C07",
   "status": "proved",
   "theorems": [
    "C07_formula_left_to_right",
    "C07_label_formula_left_to_right",
    "C07_unknown_name",
    "C07_division_by_zero",
    "C07_negative_head_refuted"
   ],
   "note": ""
  },
  {
   "property": "C08",
   "status": "proved",
   "theorems": [
    "C08_termination",
    "C08_only_addresses_matter"
   ],
   "note": ""
  },
  {
   "property": "C09",
   "status": "proved",
   "theorems": [
    "C09_layout",
    "C09_separators",
    "C09_final_newline"
   ],
   "note": ""
  },
  {
   "property": "C10",
   "status": "proved",
   "theorems": [
    "C10_quoted_token",
    "C10_escape",
    "C10_db_string",
    "C10_empty_literal_refuted",
    "C10_unterminated_refuted"
   ],
   "note": ""
  },
  {
   "property": "C11",
   "status": "proved",
   "theorems": [
    "C11_grammar",
    "C11_grammar_complete",
    "C11_compositional"
   ],
   "note": ""
  },
  {
   "property": "C12",
   "status": "proved",
   "theorems": [
    "C12_malformed_label_atomic",
    "C12_only_failure"
   ],
   "note": ""
  },
  {
   "property": "C13",
   "status": "proved",
   "theorems": [
    "C13_substitution",
    "C13_chunks",
    "C13_untouched",
    "C13_string_literals_refuted"
   ],
   "note": ""
  },
  {
   "property": "C14",
   "status": "proved",
   "theorems": [
    "C14_expansion",
    "C14_self_use_refuted",
    "C14_failed_call_refuted",
    "C14_directives_refuted"
   ],
   "note": ""
  },
  {
   "property": "C15",
   "status": "proved",
   "theorems": [
    "C15_definition",
    "C15_rejected",
    "C15_write_once"
   ],
   "note": ""
  },
  {
   "property": "C16",
   "status": "proved",
   "theorems": [
    "C16_append_only",
    "C16_pc",
    "C16_pc_exact"
   ],
   "note": ""
  },
  {
   "property": "C17",
   "status": "proved",
   "theorems": [
    "C17_bytes"
   ],
   "note": ""
  },
  {
   "property": "C18",
   "status": "proved",
   "theorems": [
    "C18_operands",
    "C18_literals",
    "C18_rejected"
   ],
   "note": ""
  },
  {
   "property": "C19",
   "status": "proved",
   "theorems": [
    "C19_fill",
    "C19_align",
    "C19_goto",
    "C19_goto_overlap",
    "C19_ram",
    "C19_names_rejected",
    "C19_goto_refuted",
    "C19_align_zero_refuted"
   ],
   "note": ""
  },
  {
   "property": "C20",
   "status": "proved",
   "theorems": [
    "C20_opened",
    "C20_region",
    "C20_overlap",
    "C20_end",
    "C20_last_byte_refuted",
    "C20_overflow_refuted"
   ],
   "note": ""
  },
  {
   "property": "C21",
   "status": "proved",
   "theorems": [
    "C21_copies",
    "C21_pc",
    "C21_nested",
    "C21_unopened",
    "C21_references_refuted"
   ],
   "note": ""
  },
  {
   "property": "C22",
   "status": "proved",
   "theorems": [
    "C22_image",
    "C22_links",
    "C22_outside",
    "C22_field",
    "C22_text",
    "C22_text_width_refuted"
   ],
   "note": ""
  },
  {
   "property": "C23",
   "status": "proved",
   "theorems": [
    "C23_fits",
    "C23_faults",
    "C23_complete"
   ],
   "note": ""
  },
  {
   "property": "C24",
   "status": "proved",
   "theorems": [
    "C24_idempotent"
   ],
   "note": ""
  },
  {
   "property": "C25",
   "status": "proved",
   "theorems": [
    "C25_reported",
    "C25_error",
    "C25_defined",
    "C25_arithmetic"
   ],
   "note": ""
  },
  {
   "property": "C26",
   "status": "proved",
   "theorems": [
    "C26_order",
    "C26_recorded",
    "C26_numeric_head_refuted"
   ],
   "note": ""
  },
  {
   "property": "C27",
   "status": "proved",
   "theorems": [
    "C27_pieces",
    "C27_bounded_refuted"
   ],
   "note": ""
  },
  {
   "property": "C28",
   "status": "proved",
   "theorems": [
    "C28_handler",
    "C28_outcome",
    "C28_static",
    "C28_error_kinds",
    "C28_macro_arguments_refuted",
    "C28_directive_refuted"
   ],
   "note": ""
  },
  {
   "property": "C29",
   "status": "proved",
   "theorems": [
    "C29_registered",
    "C29_registered_directive",
    "C29_documented",
    "C29_instructions",
    "C29_directives",
    "C29_defines_refuted"
   ],
   "note": ""
  },
  {
   "property": "C30",
   "status": "proved",
   "theorems": [
    "C30_brackets",
    "C30_recording",
    "C30_recorded_exists",
    "C30_unclosed_refuted"
   ],
   "note": ""
  },
  {
   "property": "C31",
   "status": "proved",
   "theorems": [
    "C31_tiling",
    "C31_declaration"
   ],
   "note": ""
  },
  {
   "property": "C32",
   "status": "proved",
   "theorems": [
    "C32_unique",
    "C32_persistent",
    "C32_redeclared"
   ],
   "note": ""
  },
  {
   "property": "C33",
   "status": "proved",
   "theorems": [
    "C33_header",
    "C33_layout",
    "C33_sections",
    "C33_code",
    "C33_program",
    "C33_relink_refuted"
   ],
   "note": ""
  },
  {
   "property": "C34",
   "status": "proved",
   "theorems": [
    "C34_section_names",
    "C34_table_names",
    "C34_symbols",
    "C34_null_symbol_refuted",
    "C34_value_refuted",
    "C34_undefined_refuted",
    "C34_no_section_refuted",
    "C34_noted"
   ],
   "note": ""
  },
  {
   "property": "C35",
   "status": "proved",
   "theorems": [
    "C35_assemble",
    "C35_link",
    "C35_removed"
   ],
   "note": ""
  },
  {
   "property": "C36",
   "status": "proved",
   "theorems": [
    "C36_encoding",
    "C36_deterministic",
    "C36_unknown",
    "C36_trailing_refuted",
    "C36_displacement_refuted"
   ],
   "note": ""
  },
  {
   "property": "C37",
   "status": "proved",
   "theorems": [
    "C37_lands_at",
    "C37_lands",
    "C37_too_far_at",
    "C37_too_far"
   ],
   "note": ""
  },
  {
   "property": "C38",
   "status": "proved",
   "theorems": [
    "C38_sound_at",
    "C38_sound",
    "C38_forward_refuted"
   ],
   "note": ""
  },
  {
   "property": "C39",
   "status": "proved",
   "theorems": [
    "C39_frame",
    "C39_labels",
    "C39_output",
    "C39_pc",
    "C39_bytes",
    "C39_recording",
    "C39_sections",
    "C39_pieces",
    "C39_log",
    "C39_expansion",
    "C39_mos6502",
    "C39_i8086",
    "C39_lr35902",
    "C39_mc68000",
    "C39_mips32",
    "C39_powerpc",
    "C39_thumb",
    "C39_x86",
    "C39_z80"
   ],
   "note": "Framework consequences for every fitting processor; all nine shipped CPU modules shown to fit."
  },
  {
   "property": "C40",
   "status": "proved",
   "theorems": [
    "C40_encoding",
    "C40_unknown",
    "C40_refused_refuted",
    "C40_unambiguous",
    "C40_deviating_refuted"
   ],
   "note": ""
  },
  {
   "property": "C41",
   "status": "proved",
   "theorems": [
    "C41_half",
    "C41_recombine",
    "C41_lui_refuted"
   ],
   "note": ""
  },
  {
   "property": "C42",
   "status": "proved",
   "theorems": [
    "C42_encoding",
    "C42_refused_refuted",
    "C42_push",
    "C42_push_lr_refuted",
    "C42_deviating_refuted",
    "C42_offset_refuted"
   ],
   "note": ""
  },
  {
   "property": "C43",
   "status": "proved",
   "theorems": [
    "C43_number",
    "C43_call",
    "C43_too_far",
    "C43_zero_refuted"
   ],
   "note": ""
  },
  {
   "property": "C44",
   "status": "proved",
   "theorems": [
    "C44_encoding",
    "C44_deterministic",
    "C44_laid",
    "C44_linked_at",
    "C44_linked",
    "C44_jump_at",
    "C44_jump",
    "C44_too_far_at",
    "C44_too_far",
    "C44_stack",
    "C44_store_refuted",
    "C44_load_refuted",
    "C44_shift_refuted",
    "C44_extra_refuted",
    "C44_case_refuted"
   ],
   "note": ""
  },
  {
   "property": "C45",
   "status": "proved",
   "theorems": [
    "C45_header",
    "C45_rom",
    "C45_again_refuted",
    "C45_place_refuted",
    "C45_missing_refuted"
   ],
   "note": ""
  },
  {
   "property": "C46",
   "status": "proved",
   "theorems": [
    "C46_genesis",
    "C46_genesis_succeeds",
    "C46_checksum",
    "C46_succeeds"
   ],
   "note": "For every processor that fits, and for the 68000 in particular."
  },
  {
   "property": "C47",
   "status": "proved",
   "theorems": [
    "C47_file",
    "C47_stack_refuted",
    "C47_empty_refuted"
   ],
   "note": ""
  },
  {
   "property": "C48",
   "status": "proved",
   "theorems": [
    "C48_gameboy",
    "C48_nes",
    "C48_sms"
   ],
   "note": ""
  },
  {
   "property": "C49",
   "status": "proved",
   "theorems": [
    "C49_tidy",
    "C49_field",
    "C49_rest"
   ],
   "note": ""
  },
  {
   "property": "C50",
   "status": "proved",
   "theorems": [
    "C50_branch",
    "C50_too_far",
    "C50_jump",
    "C50_unreachable_refuted"
   ],
   "note": ""
  },
  {
   "property": "C51",
   "status": "proved",
   "theorems": [
    "C51_branch",
    "C51_too_far",
    "C51_load",
    "C51_backward_refuted"
   ],
   "note": ""
  },
  {
   "property": "C52",
   "status": "proved",
   "theorems": [
    "C52_checksum",
    "C52_succeeds"
   ],
   "note": ""
  },
  {
   "property": "C53",
   "status": "proved",
   "theorems": [
    "C53_written",
    "C53_scripts"
   ],
   "note": ""
  },
  {
   "property": "C54",
   "status": "proved",
   "theorems": [
    "C54_symbols"
   ],
   "note": ""
  },
  {
   "property": "C55",
   "status": "proved",
   "theorems": [
    "C55_header",
    "C55_banks_refuted"
   ],
   "note": ""
  },
  {
   "property": "C56",
   "status": "proved",
   "theorems": [
    "C56_encoding",
    "C56_deterministic",
    "C56_linked_at",
    "C56_linked",
    "C56_jump_at",
    "C56_jump",
    "C56_too_far_at",
    "C56_too_far",
    "C56_index_refuted",
    "C56_immediate_refuted",
    "C56_bit_refuted",
    "C56_exchange_refuted",
    "C56_restart_refuted"
   ],
   "note": ""
  },
  {
   "property": "C57",
   "status": "proved",
   "theorems": [
    "C57_gameboy",
    "C57_nes",
    "C57_sms",
    "C57_registers"
   ],
   "note": ""
  },
  {
   "property": "C58",
   "status": "proved",
   "theorems": [
    "C58_encoding",
    "C58_accepted",
    "C58_deterministic",
    "C58_trailing_refuted",
    "C58_decrement_refuted",
    "C58_loop_size_refuted",
    "C58_letter_refuted",
    "C58_index_refuted",
    "C58_illegal_refuted"
   ],
   "note": ""
  },
  {
   "property": "C59",
   "status": "proved",
   "theorems": [
    "C59_linked"
   ],
   "note": ""
  },
  {
   "property": "C60",
   "status": "proved",
   "theorems": [
    "C60_lands",
    "C60_too_far",
    "C60_branch",
    "C60_loop",
    "C60_next_refuted"
   ],
   "note": ""
  },
  {
   "property": "C61",
   "status": "proved",
   "theorems": [
    "C61_encoding",
    "C61_unambiguous",
    "C61_accepted",
    "C61_bp_refuted",
    "C61_displacement_refuted",
    "C61_far_pointer_refuted",
    "C61_store_refuted",
    "C61_adjust_refuted",
    "C61_shift_refuted",
    "C61_address_refuted",
    "C61_spaces_refuted",
    "C61_far_refuted"
   ],
   "note": ""
  },
  {
   "property": "C62",
   "status": "proved",
   "theorems": [
    "C62_linked"
   ],
   "note": ""
  },
  {
   "property": "C63",
   "status": "proved",
   "theorems": [
    "C63_lands",
    "C63_too_far"
   ],
   "note": ""
  },
  {
   "property": "C64",
   "status": "proved",
   "theorems": [
    "C64_encoding",
    "C64_unambiguous",
    "C64_rejected",
    "C64_missing_refuted",
    "C64_zero_refuted",
    "C64_deviating_refuted",
    "C64_upper_refuted"
   ],
   "note": ""
  },
  {
   "property": "C65",
   "status": "proved",
   "theorems": [
    "C65_linked",
    "C65_two_names_refuted"
   ],
   "note": ""
  },
  {
   "property": "C66",
   "status": "proved",
   "theorems": [
    "C66_lands",
    "C66_too_far",
    "C66_reach_refuted",
    "C66_units_refuted",
    "C66_unaligned_refuted",
    "C66_start_refuted"
   ],
   "note": ""
  },
  {
   "property": "C67",
   "status": "proved",
   "theorems": [
    "C67_encoding",
    "C67_findings_refuted",
    "C67_torn_refuted",
    "C67_blank_refuted"
   ],
   "note": "One direction: what the manual lists is encoded so. Much else is accepted too, see C67_findings_refuted."
  },
  {
   "property": "C68",
   "status": "proved",
   "theorems": [
    "C68_linked"
   ],
   "note": ""
  },
  {
   "property": "C69",
   "status": "proved",
   "theorems": [
    "C69_lands",
    "C69_too_far",
    "C69_backward_refuted"
   ],
   "note": "Backward jumps in 32- and 64-bit mode are wrong in the code (C69_backward_refuted) and excluded."
  },
  {
   "property": "C70",
   "status": "proved",
   "theorems": [
    "C70_modes",
    "C70_bits",
    "C70_bare_refuted"
   ],
   "note": ""
  },
  {
   "property": "C71",
   "status": "proved",
   "theorems": [
    "C71_written",
    "C71_header",
    "C71_code",
    "C71_sections",
    "C71_noted"
   ],
   "note": ""
  },
  {
   "property": "C72",
   "status": "proved",
   "theorems": [
    "C72_pasted",
    "C72_missing",
    "C72_bounded_refuted"
   ],
   "note": ""
  },
  {
   "property": "C73",
   "status": "proved",
   "theorems": [
    "C73_depth",
    "C73_circular"
   ],
   "note": ""
  },
  {
   "property": "C74",
   "status": "proved",
   "theorems": [
    "C74_incbin",
    "C74_table",
    "C74_table_rejected",
    "C74_json",
    "C74_json_rejected",
    "C74_json_key",
    "C74_missing",
    "C74_negative_refuted",
    "C74_json_object",
    "C74_json_string"
   ],
   "note": ""
  },
  {
   "property": "C75",
   "status": "proved",
   "theorems": [
    "C75_db",
    "C75_db_rejected",
    "C75_wide",
    "C75_digits",
    "C75_name",
    "C75_wide_refuted",
    "C75_quoted_refuted",
    "C75_padding_refuted"
   ],
   "note": ""
  },
  {
   "property": "C76",
   "status": "proved",
   "theorems": [
    "C76_define",
    "C76_rejected",
    "C76_redefine_refuted"
   ],
   "note": ""
  },
  {
   "property": "C77",
   "status": "proved",
   "theorems": [
    "C77_text"
   ],
   "note": ""
  },
  {
   "property": "C78",
   "status": "proved",
   "theorems": [
    "C78_nes_lands",
    "C78_nes_too_far",
    "C78_nes_operands",
    "C78_sms_linked",
    "C78_sms_jump",
    "C78_sms_too_far",
    "C78_gb_clear",
    "C78_gb_linked",
    "C78_gb_jump",
    "C78_gb_too_far",
    "C78_checksum_refuted"
   ],
   "note": ""
  },
  {
   "property": "C79",
   "status": "proved",
   "theorems": [
    "C79_faithful",
    "C79_sourced",
    "C79_instruction",
    "C79_directive",
    "C79_label",
    "C79_include",
    "C79_macro",
    "C79_colon",
    "C79_placeless_refuted",
    "C79_unambiguous",
    "C79_one_line",
    "C79_processors",
    "C79_link"
   ],
   "note": "C79_placeless_refuted: some errors in directives do not say where they occurred, a misplaced colon not in which file."
  },
  {
   "property": "C80",
   "status": "proved",
   "theorems": [
    "C80_log",
    "C80_complete",
    "C80_silent",
    "C80_readable"
   ],
   "note": ""
  },
  {
   "property": "C81",
   "status": "proved",
   "theorems": [
    "C81_more",
    "C81_agree",
    "C81_shipped",
    "C81_cli",
    "C81_programs"
   ],
   "note": ""
  },
  {
   "property": "C82",
   "status": "proved",
   "theorems": [
    "C82_statements",
    "C82_assemble",
    "C82_build",
    "C82_inserted",
    "C82_shipped",
    "C82_linked",
    "C82_linked_inserted",
    "C82_zero_page_refuted"
   ],
   "note": ""
  },
  {
   "property": "C83",
   "status": "proved",
   "theorems": [
    "C83_statements",
    "C83_assemble",
    "C83_build",
    "C83_shipped",
    "C83_define",
    "C83_macro"
   ],
   "note": ""
  }
 ]
}