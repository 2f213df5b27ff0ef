{
 "claims": [
  {
   "property": "C01",
   "status": "proved",
   "theorems": [
    "C01_hash_respects_stricmp"
   ],
   "note": ""
  },
  {
   "property": "C02",
   "status": "proved",
   "theorems": [
    "C02_stricmp_equality",
    "C02_stricmp_antisym",
    "C02_stricmp_trans"
   ],
   "note": ""
  },
  {
   "property": "C03",
   "status": "proved",
   "theorems": [
    "C03_dict_refines_map"
   ],
   "note": ""
  },
  {
   "property": "C04",
   "status": "proved",
   "theorems": [
    "C04_most_recent_partial",
    "C04_growth_reverses",
    "C04_most_recent_refuted",
    "C04_exact"
   ],
   "note": "C04_exact gives the record found after any operations; the promise of the header is refuted across growth."
  },
  {
   "property": "C05",
   "status": "proved",
   "theorems": [
    "C05_dict_invariant"
   ],
   "note": ""
  },
  {
   "property": "C06",
   "status": "proved",
   "theorems": [
    "C06_stack_refines_list",
    "C06_item_at_dead_refuted",
    "C06_item_at"
   ],
   "note": "LIFO refinement and item_at for every index; dead cells are handed out (refutation kept)."
  },
  {
   "property": "C07",
   "status": "proved",
   "theorems": [
    "C07_no_escape_identity",
    "C07_documented_escapes",
    "C07_hex_pairs",
    "C07_hex_run",
    "C07_never_longer",
    "C07_decodes",
    "C07_quoted"
   ],
   "note": ""
  },
  {
   "property": "C08",
   "status": "proved",
   "theorems": [
    "C08_no_overread_partial",
    "C08_no_overread_refuted",
    "C08_exact"
   ],
   "note": "Exact set of strings that are read past the end."
  },
  {
   "property": "C09",
   "status": "proved",
   "theorems": [
    "C09_table_sound",
    "C09_table_complete",
    "C09_undocumented_needs_flag",
    "C09_65C02_sound",
    "C09_65C02_complete",
    "C09_flag_only_adds"
   ],
   "note": ""
  },
  {
   "property": "C10",
   "status": "proved",
   "theorems": [
    "C10_opcode_injective",
    "C10_opcode_injective_65C02_partial",
    "C10_opcode_injective_65C02_refuted",
    "C10_65C02_exact"
   ],
   "note": "6502 and documented 65C02 entries injective; the shared bytes of the 65C02 are exactly 36."
  },
  {
   "property": "C11",
   "status": "proved",
   "theorems": [
    "C11_zpi_column_empty",
    "C11_three_bytes"
   ],
   "note": "The expected two bytes are refuted: three bytes are written for every operand."
  },
  {
   "property": "C12",
   "status": "proved",
   "theorems": [
    "C12_with_operand",
    "C12_implied",
    "C12_accumulator",
    "C12_opcode"
   ],
   "note": "Composition of build_opcode_node, expand_op_code_node and the writer, checked against the independent decoder."
  },
  {
   "property": "C13",
   "status": "proved",
   "theorems": [
    "C13_displacement",
    "C13_plus128_refuted"
   ],
   "note": "Exact: every distance, including the wrong one at +128 (refuted by a program)."
  },
  {
   "property": "C14",
   "status": "proved",
   "theorems": [
    "C14_far_branch",
    "C14_bvs_refuted",
    "C14_star_refuted"
   ],
   "note": "Executed with an independent processor specification (CpuStep.v); bvc/bvs/bra and * in the target are the refuted parts."
  },
  {
   "property": "C15",
   "status": "proved",
   "theorems": [
    "C15_expanded_twice",
    "C15_macro_refuted"
   ],
   "note": "Exact second expansion; the expected property is refuted."
  },
  {
   "property": "C16",
   "status": "proved",
   "theorems": [
    "C16_expressions"
   ],
   "note": ""
  },
  {
   "property": "C17",
   "status": "proved",
   "theorems": [
    "C17_declared_grouping",
    "C17_every_chain",
    "C17_unique"
   ],
   "note": ""
  },
  {
   "property": "C18",
   "status": "proved",
   "theorems": [
    "C18_set_value",
    "C18_values_16_bits"
   ],
   "note": ""
  },
  {
   "property": "C19",
   "status": "proved",
   "theorems": [
    "C19_counter",
    "C19_unchanged"
   ],
   "note": ""
  },
  {
   "property": "C20",
   "status": "proved",
   "theorems": [
    "C20_lookup",
    "C20_add"
   ],
   "note": ""
  },
  {
   "property": "C21",
   "status": "proved",
   "theorems": [
    "C21_minus",
    "C21_plus",
    "C21_none",
    "C21_table_sorted",
    "C21_defined",
    "C21_used",
    "C21_crosses_files_refuted",
    "C21_past_table_refuted",
    "C21_program_refuted"
   ],
   "note": "Exact result for every sorted table and depth; the crossing of files and the index past the table are shown concretely, the latter also as a program."
  },
  {
   "property": "C22",
   "status": "proved",
   "theorems": [
    "C22_push_pop"
   ],
   "note": ""
  },
  {
   "property": "C23",
   "status": "proved",
   "theorems": [
    "C23_expand_appends",
    "C23_assemble_appends",
    "C23_no_gap",
    "C23_offset_is_address_refuted",
    "C23_c64_gap_refuted"
   ],
   "note": "Positive part for every run of expand and assemble; the failure of the converse is shown by two programs."
  },
  {
   "property": "C24",
   "status": "proved",
   "theorems": [
    "C24_instruction",
    "C24_implied",
    "C24_far_branch",
    "C24_data",
    "C24_ds_refuted",
    "C24_ds_exit_refuted",
    "C24_str_refuted",
    "C24_range_refuted"
   ],
   "note": "Holds for instructions (also far branches) and .BYTE/.WORD lists in range; false for .DS, .STR values below -65280 and values out of range (witness programs)."
  },
  {
   "property": "C25",
   "status": "proved",
   "theorems": [
    "C25_expand_quiet",
    "C25_line_quiet",
    "C25_pass_quiet"
   ],
   "note": ""
  },
  {
   "property": "C26",
   "status": "proved",
   "theorems": [
    "C26_expand_stopped",
    "C26_files_after_end",
    "C26_end_line",
    "C26_errors_after_end"
   ],
   "note": ""
  },
  {
   "property": "C27",
   "status": "proved",
   "theorems": [
    "C27_pass_bound",
    "C27_only_a_pass_can_hang",
    "C27_loop_bound"
   ],
   "note": ""
  },
  {
   "property": "C28",
   "status": "proved",
   "theorems": [
    "C28_output_after_clean_pass",
    "C28_failure_leaves_nothing",
    "C28_exit_leaves_file_refuted"
   ],
   "note": "Both directions, plus the exit() case as a concrete program."
  },
  {
   "property": "C29",
   "status": "proved",
   "theorems": [
    "C29_status_zero",
    "C29_errors_counted",
    "C29_status_refuted"
   ],
   "note": "Positive part for all programs; the unnoticed final-pass error is shown by a program."
  },
  {
   "property": "C30",
   "status": "proved",
   "theorems": [
    "C30_final_as_analysed",
    "C30_no_label_refuted",
    "C30_anonymous_refuted"
   ],
   "note": "Whole assembler run (analysis loop and final pass) on the fragment. The two refutations show the label hypothesis and the restriction to named labels are needed."
  },
  {
   "property": "C31",
   "status": "proved",
   "theorems": [
    "C31_zero_page"
   ],
   "note": "Exact selection with the error condition."
  },
  {
   "property": "C32",
   "status": "proved",
   "theorems": [
    "C32_immediate",
    "C32_big_refuted"
   ],
   "note": "Exact; values outside 16 bits are refuted as rejected."
  },
  {
   "property": "C33",
   "status": "proved",
   "theorems": [
    "C33_visits_partial",
    "C33_refuted",
    "C33_empty",
    "C33_down_to_0"
   ],
   "note": "All bounds. For a loop down to 0 the carry may depend on all the body knows, but not on the registers. The body is any node that assembles to a fixed string of bytes, and on the processor any code that keeps the index register."
  },
  {
   "property": "C34",
   "status": "proved",
   "theorems": [
    "C34_ifdef_partial",
    "C34_ifdef_refuted",
    "C34_nested_skip_sticks",
    "C34_exact",
    "C34_effect_selected",
    "C34_branches",
    "C34_refines"
   ],
   "note": "Exact for all nestings; equals the usual semantics where no inner conditional ends in a skipped part; refuted otherwise. C34_refines ties the scanner to the assembler, its test being the symbol table; C34_branches says what an outermost conditional does to the lines read."
  },
  {
   "property": "C35",
   "status": "proved",
   "theorems": [
    "C35_def_hex",
    "C35_def_bin",
    "C35_def_dec_partial",
    "C35_def_dec_long",
    "C35_def_dec_refuted"
   ],
   "note": "All numerals of the five notations; decimals of three or more digits give 0."
  },
  {
   "property": "C36",
   "status": "proved",
   "theorems": [
    "C36_open_file_order",
    "C36_open_file_only_candidates",
    "C36_open_file_terminates"
   ],
   "note": ""
  },
  {
   "property": "C37",
   "status": "proved",
   "theorems": [
    "C37_eol_lf",
    "C37_eol_idempotent",
    "C37_eol_preserves_text",
    "C37_eol_mixed_refuted",
    "C37_mixed"
   ],
   "note": "All conventions, idempotence, text preservation; mixed line ends for nonempty lines."
  },
  {
   "property": "C38",
   "status": "proved",
   "theorems": [
    "C38_memory_total_partial",
    "C38_memory_total_refuted",
    "C38_exact",
    "C38_free_twice"
   ],
   "note": "Exact accounting with moving reallocs; addresses are not reused by the client."
  },
  {
   "property": "C39",
   "status": "proved",
   "theorems": [
    "C39_error_counting_partial",
    "C39_error2_refuted",
    "C39_messages",
    "C39_exact",
    "C39_prints"
   ],
   "note": "Exact counts for all call sequences."
  },
  {
   "property": "C40",
   "status": "proved",
   "theorems": [
    "C40_local_names",
    "C40_resolves"
   ],
   "note": ""
  },
  {
   "property": "C41",
   "status": "proved",
   "theorems": [
    "C41_undefined",
    "C41_lone_name_refuted"
   ],
   "note": "Whole assembler run on the fragment, all ways of ending. The refutation covers the excluded case, a lone name as a data item."
  },
  {
   "property": "C42",
   "status": "proved",
   "theorems": [
    "C42_while",
    "C42_repeat",
    "C42_do",
    "C42_for_header",
    "C42_for",
    "C42_for_count",
    "C42_for_stuck",
    "C42_for_step_0",
    "C42_while_bounded",
    "C42_do_bounded",
    "C42_for_bounded"
   ],
   "note": "Both directions for .WHILE/.REPEAT/.DO nodes and the .FOR loop; counted form for bodies that leave the variable alone; stuck form for step 0 and for variables that cannot hold the value past the end."
  },
  {
   "property": "C43",
   "status": "proved",
   "theorems": [
    "C43_in_order",
    "C43_out_of_range",
    "C43_undefined_refuted"
   ],
   "note": "Lists of any length and mix of values and strings; refuted for an undefined name standing alone, which is written as 0 without an error."
  },
  {
   "property": "C44",
   "status": "proved",
   "theorems": [
    "C44_returns",
    "C44_include_resumes"
   ],
   "note": "Any nesting, by induction over the generic state relation; a syntax error drops the rest of the input."
  },
  {
   "property": "C45",
   "status": "proved",
   "theorems": [
    "C45_hexadecimal",
    "C45_binary",
    "C45_binary_0b",
    "C45_decimal",
    "C45_character",
    "C45_escape",
    "C45_hex_character",
    "C45_fits",
    "C45_overflow_refuted"
   ],
   "note": "Exact value for every literal form, including the wrap of literals that do not fit an int (C45_overflow_refuted is the witness against the plain positional reading)."
  },
  {
   "property": "C46",
   "status": "proved",
   "theorems": [
    "C46_section_restores",
    "C46_nesting",
    "C46_unmatched",
    "C46_dotted_refuted"
   ],
   "note": "Proved for names without dots, with the dotted case as a concrete failure."
  },
  {
   "property": "C47",
   "status": "proved",
   "theorems": [
    "C47_sorted",
    "C47_complete",
    "C47_each_once"
   ],
   "note": ""
  },
  {
   "property": "C48",
   "status": "proved",
   "theorems": [
    "C48_relocates",
    "C48_both_images",
    "C48_length",
    "C48_marker_refuted",
    "C48_stop_refuted"
   ],
   "note": "Stated with the stub of relocate.asm as the reader of the file; false when the marker byte $36 occurs as a plain byte."
  },
  {
   "property": "C49",
   "status": "proved",
   "theorems": [
    "C49_layout",
    "C49_no_org_refuted"
   ],
   "note": "Against the layout specification of Layout.v, whole assembler run. One .ORG with a number; the refutation shows .ORG is needed."
  },
  {
   "property": "C50",
   "status": "proved",
   "theorems": [
    "C50_hash_pointer_refuted"
   ],
   "note": "Undefined for every argument."
  },
  {
   "property": "C51",
   "status": "proved",
   "theorems": [
    "C51_handle_stable_partial",
    "C51_handle_stable_refuted",
    "C51_growth_moves"
   ],
   "note": "Stable without growth; at growth every record found is a fresh copy."
  },
  {
   "property": "C52",
   "status": "proved",
   "theorems": [
    "C52_read_lines_complete",
    "C52_read_lines_numbered",
    "C52_read_lines_text_partial",
    "C52_read_lines_refuted",
    "C52_exact"
   ],
   "note": "Exact cutting and numbering for every file whose last line is terminated; concatenation for all files."
  },
  {
   "property": "C53",
   "status": "proved",
   "theorems": [
    "C53_command_line"
   ],
   "note": ""
  },
  {
   "property": "C54",
   "status": "proved",
   "theorems": [
    "C54_final",
    "C54_analysis",
    "C54_range",
    "C54_zero_refuted",
    "C54_c64_refuted"
   ],
   "note": "Refuted for count 0 and for a .FILL that is the first output of a C64 file."
  },
  {
   "property": "C55",
   "status": "proved",
   "theorems": [
    "C55_listing_bytes",
    "C55_listing_reads",
    "C55_text_bytes",
    "C55_word_string_refuted",
    "C55_print_off_refuted"
   ],
   "note": "for the fragment of C49; rows that a reader of the documented form accepts; C55_listing_reads shows that every row is accepted unless one holds \" $00.db\", the row of the padding of a .WORD string; C55_text_bytes starts from the texts. The two exceptions are shown by programs."
  },
  {
   "property": "C56",
   "status": "proved",
   "theorems": [
    "C56_listing_lines",
    "C56_text_lines",
    "C56_listing_once",
    "C56_listing_fits",
    "C56_long_line_refuted"
   ],
   "note": "all lines once and in order: fragment of C49, from texts of lines shorter than 2047 characters with closed comments; no line twice: any records"
  },
  {
   "property": "C57",
   "status": "proved",
   "theorems": [
    "C57_macro_call",
    "C57_locals_apart",
    "C57_section_refuted",
    "C57_exchange_refuted",
    "C57_missing_refuted",
    "C57_negative_refuted"
   ],
   "note": "The body is arbitrary; that it returns with the parameter stack in order is a hypothesis (body_ok), met in the examples. Arguments use plain names already in the table and no && or ||. The refuted theorems give the programs for which the naive claim fails."
  },
  {
   "property": "C58",
   "status": "proved",
   "theorems": [
    "C58_names_stay",
    "C58_guard_lost",
    "C58_taken",
    "C58_guard_refuted",
    "C58_order_refuted"
   ],
   "note": "Names never leave the table (invariant over all steps of the assembler); the guard and order theorems follow for all states reached. The refuted theorems are runs of whole programs: the guarded byte is not in the file."
  },
  {
   "property": "C59",
   "status": "proved",
   "theorems": [
    "C59_listing_addresses",
    "C59_text_addresses"
   ],
   "note": "fragment of C49, every list file without a row that holds \" $00.db\" (the padding of a .WORD string); addresses modulo 65536"
  },
  {
   "property": "C60",
   "status": "proved",
   "theorems": [
    "C60_listing_beside",
    "C60_text_beside"
   ],
   "note": "fragment of C49, distinct input files, every list file without a row that holds \" $00.db\""
  },
  {
   "property": "C61",
   "status": "proved",
   "theorems": [
    "C61_org",
    "C61_org_twice",
    "C61_star",
    "C61_ds",
    "C61_ds_negative",
    "C61_gap_stops",
    "C61_ds_zero_refuted",
    "C61_ds_between_refuted",
    "C61_star_offset_refuted"
   ],
   "note": "Proved for all states and operand expressions. .DS 0 moves the program counter by one byte; code behind .DS stops the program; the bytes behind a second * = follow the earlier ones in the file whatever the addresses: three programs."
  },
  {
   "property": "C62",
   "status": "proved",
   "theorems": [
    "C62_load",
    "C62_missing_refuted"
   ],
   "note": "Non-empty files. A file that cannot be opened is reported and then read: undefined behaviour, for all states."
  },
  {
   "property": "C63",
   "status": "proved",
   "theorems": [
    "C63_print"
   ],
   "note": "All non-empty lists; the list of && and || is left out as in C43."
  },
  {
   "property": "C64",
   "status": "proved",
   "theorems": [
    "C64_switch",
    "C64_kept",
    "C64_next_pass_refuted",
    "C64_branch_refuted"
   ],
   "note": "Within a pass. The setting at the end of a pass is also that at the start of the next one, and switches are obeyed in branches not taken and macros not called: programs."
  },
  {
   "property": "C65",
   "status": "proved",
   "theorems": [
    "C65_var",
    "C65_var_name_refuted"
   ],
   "note": "For expressions that are not a name alone. .VAR a = b sets both names to 0, for all states."
  },
  {
   "property": "C66",
   "status": "proved",
   "theorems": [
    "C66_segments",
    "C66_segments_at",
    "C66_listing",
    "C66_gap_refuted",
    "C66_space_refuted"
   ],
   "note": "C66_segments is about the values of the names at the end of the analysis; C66_segments_at has a condition on the text only (no move from a positive address to one that is not). C66_listing: image and rows of the list file."
  },
  {
   "property": "C67",
   "status": "proved",
   "theorems": [
    "C67_tokens",
    "C67_unambiguous",
    "C67_first_line_refuted",
    "C67_mnemonics"
   ],
   "note": "The rules for escaped characters, 0b numbers, .PRINT ON/OFF, .6502 ON, .65C02 ON, .ILLEGAL and .WARN are modelled but not among the words of the theorem."
  },
  {
   "property": "C68",
   "status": "proved",
   "theorems": [
    "C68_lines",
    "C68_unambiguous"
   ],
   "note": "Texts that do not parse are not described. A name with a name behind it has both readings (label or call), as the grammar decides with the symbol table."
  },
  {
   "property": "C69",
   "status": "proved",
   "theorems": [
    "C69_text_layout"
   ],
   "note": "C67, C68 and C49 put together: the fragment of C49."
  },
  {
   "property": "C70",
   "status": "proved",
   "theorems": [
    "C70_if",
    "C70_exit"
   ],
   "note": "exact at the .IF node, for any operand nodes; program examples beside it"
  },
  {
   "property": "C71",
   "status": "proved",
   "theorems": [
    "C71_program",
    "C71_text"
   ],
   "note": "from a line list or from the text of the file to the output file; labels may stand on lines of data or of one instruction that use no names and are used by lines below; forward references among these and macros are not in the fragment"
  }
 ]
}