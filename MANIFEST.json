{
 "claims": [
  {
   "property": "C01",
   "status": "partial",
   "theorems": [
    "C01_fresh_state",
    "C01_fresh_run_checked_partial",
    "C01_fresh_run_shipped_refuted"
   ],
   "note": "The state itself is proved. With the NULL check compiled in, running it gives RME_ERR_BADMEM (_partial); in the shipped build it dereferences a NULL block (_refuted)."
  },
  {
   "property": "C02",
   "status": "proved",
   "theorems": [
    "C02_magic_stops",
    "C02_magic_only",
    "C02_call_success"
   ],
   "note": ""
  },
  {
   "property": "C03",
   "status": "proved",
   "theorems": [
    "C03_call_returns_0",
    "C03_call_returns_error",
    "C03_call_still_running"
   ],
   "note": ""
  },
  {
   "property": "C04",
   "status": "proved",
   "theorems": [
    "C04_terminates",
    "C04_four_prefixes",
    "C04_second_rejected"
   ],
   "note": ""
  },
  {
   "property": "C05",
   "status": "proved",
   "theorems": [
    "C05_undefined_opcode"
   ],
   "note": ""
  },
  {
   "property": "C06",
   "status": "proved",
   "theorems": [
    "C06_hlt",
    "C06_padding",
    "C06_zeros",
    "C06_zeros_twice",
    "C06_other_resets"
   ],
   "note": ""
  },
  {
   "property": "C07",
   "status": "proved",
   "theorems": [
    "C07_counts_one",
    "C07_runs"
   ],
   "note": ""
  },
  {
   "property": "C08",
   "status": "proved",
   "theorems": [
    "C08_run_one",
    "C08_call",
    "C08_call_int"
   ],
   "note": ""
  },
  {
   "property": "C09",
   "status": "proved",
   "theorems": [
    "C09_run_one",
    "C09_runs",
    "C09_fresh"
   ],
   "note": ""
  },
  {
   "property": "C10",
   "status": "partial",
   "theorems": [
    "C10_writes_confined_partial",
    "C10_writes_confined_flat_partial",
    "C10_writes_confined_refuted"
   ],
   "note": "False as stated: a word store on the last byte of a block spills into the bytes after it (_refuted). Proved: writes stay within block base .. base+4096+3 for every map, and exactly inside the blocks for the usual contiguous map."
  },
  {
   "property": "C11",
   "status": "partial",
   "theorems": [
    "C11_no_null_write_checked_partial",
    "C11_no_null_deref_checked_partial",
    "C11_fetch_checked_partial",
    "C11_read_checked_partial",
    "C11_write_checked_partial",
    "C11_null_refuted"
   ],
   "note": "False for the shipped build: rme.c:27 defines RME_DO_NULL_CHECK after rme_internal.h was included (_refuted). Proved for builds where the header sees the macro."
  },
  {
   "property": "C12",
   "status": "proved",
   "theorems": [
    "C12_store_load",
    "C12_store_bytes",
    "C12_little_endian",
    "C12_mov_store_load"
   ],
   "note": ""
  },
  {
   "property": "C13",
   "status": "proved",
   "theorems": [
    "C13_mov_imm"
   ],
   "note": ""
  },
  {
   "property": "C14",
   "status": "partial",
   "theorems": [
    "C14_lea_offset",
    "C14_load_partial",
    "C14_store_partial",
    "C14_direct_refuted",
    "C14_wrap_refuted",
    "C14_bp_segment_refuted",
    "C14_real_address",
    "C14_real_agrees"
   ],
   "note": "False for offsets >= 64K (no wrap), disp16 >= 8000h in [disp16], and BP+SI/BP+DI with mod 0 (_refuted). Proved for all other cases; C14_real_address states the address actually used for every ModR/M form (the bugs included) and that the instruction acts on exactly that address, C14_real_agrees that it is the manual's in the supported cases."
  },
  {
   "property": "C15",
   "status": "partial",
   "theorems": [
    "C15_debug_level_partial",
    "C15_debug_level_refuted"
   ],
   "note": "Proved when every block is mapped; the trace dump re-reads the instruction bytes with a 16-bit wrap, so with unmapped blocks tracing can add a fault (_refuted)."
  },
  {
   "property": "C16",
   "status": "proved",
   "theorems": [
    "C16_trace_buffer"
   ],
   "note": ""
  },
  {
   "property": "C17",
   "status": "proved",
   "theorems": [
    "C17_add",
    "C17_adc"
   ],
   "note": ""
  },
  {
   "property": "C18",
   "status": "proved",
   "theorems": [
    "C18_sub",
    "C18_cmp"
   ],
   "note": ""
  },
  {
   "property": "C19",
   "status": "partial",
   "theorems": [
    "C19_sbb_partial",
    "C19_af_refuted",
    "C19_of_refuted",
    "C19_cf_refuted"
   ],
   "note": "Result, ZF, SF, PF always right; CF, AF, OF each right exactly (iff) outside one described corner; counterexamples in the corners (_refuted)."
  },
  {
   "property": "C20",
   "status": "proved",
   "theorems": [
    "C20_or",
    "C20_and",
    "C20_xor",
    "C20_test",
    "C20_not"
   ],
   "note": ""
  },
  {
   "property": "C21",
   "status": "proved",
   "theorems": [
    "C21_inc",
    "C21_dec"
   ],
   "note": ""
  },
  {
   "property": "C22",
   "status": "partial",
   "theorems": [
    "C22_neg_partial",
    "C22_af_refuted"
   ],
   "note": "AF uses only three bits of the operand (_refuted); everything else proved."
  },
  {
   "property": "C23",
   "status": "partial",
   "theorems": [
    "C23_zero_count",
    "C23_rol_partial",
    "C23_ror_partial",
    "C23_full_turn_partial",
    "C23_rcl",
    "C23_rcr",
    "C23_full_turn_refuted"
   ],
   "note": "RCL/RCR proved. ROL/ROR by a non-zero multiple of the width keep CF (_refuted); everything else proved."
  },
  {
   "property": "C24",
   "status": "partial",
   "theorems": [
    "C24_zero_count",
    "C24_shl_partial",
    "C24_shr",
    "C24_sar",
    "C24_shl_width_refuted"
   ],
   "note": "SHL by exactly the width is undefined behaviour in C (_refuted); all other cases proved."
  },
  {
   "property": "C25",
   "status": "partial",
   "theorems": [
    "C25_count_undefined",
    "C25_shld_partial",
    "C25_shrd_partial",
    "C25_register_refuted",
    "C25_count_refuted"
   ],
   "note": "The count is not masked and registers 4-7 are taken as byte registers (_refuted); proved for counts within the width and operands that are decoded right. C25_count_undefined: the exact counts for which the instruction is undefined."
  },
  {
   "property": "C26",
   "status": "proved",
   "theorems": [
    "C26_mul",
    "C26_imul",
    "C26_product_readable"
   ],
   "note": ""
  },
  {
   "property": "C27",
   "status": "partial",
   "theorems": [
    "C27_imul_partial",
    "C27_overflow_refuted",
    "C27_wide_refuted",
    "C27_flags_refuted"
   ],
   "note": "Proved when the product stays below 2^31; CF/OF, signed overflow and prefix 66 are wrong (_refuted)."
  },
  {
   "property": "C28",
   "status": "partial",
   "theorems": [
    "C28_idiv_undefined",
    "C28_div",
    "C28_idiv_fits_partial",
    "C28_idiv_fault_partial",
    "C28_idiv32_refuted",
    "C28_idiv_minint_refuted"
   ],
   "note": "DIV proved. IDIV16 of 80000000h by -1 is undefined behaviour and IDIV32 always faults (_refuted); IDIV8/16 otherwise proved. C28_idiv_undefined: exactly when IDIV is undefined."
  },
  {
   "property": "C29",
   "status": "proved",
   "theorems": [
    "C29_daa",
    "C29_das",
    "C29_aaa",
    "C29_aas",
    "C29_aam",
    "C29_aad",
    "C29_aad_aam",
    "C29_aam_zero"
   ],
   "note": ""
  },
  {
   "property": "C30",
   "status": "proved",
   "theorems": [
    "C30_compare_and_jump",
    "C30_condition"
   ],
   "note": ""
  },
  {
   "property": "C31",
   "status": "partial",
   "theorems": [
    "C31_jcc",
    "C31_jmp_short",
    "C31_jmp_near",
    "C31_jmp_far",
    "C31_call_near",
    "C31_call_far",
    "C31_jmp_indirect",
    "C31_jmp_far_indirect",
    "C31_call_indirect_partial",
    "C31_call_far_indirect",
    "C31_call_sp_refuted"
   ],
   "note": "All jumps and calls proved; CALL SP goes to the decremented SP (_refuted), the other indirect calls proved."
  },
  {
   "property": "C32",
   "status": "partial",
   "theorems": [
    "C32_loop",
    "C32_jcxz_partial",
    "C32_jcxz_refuted",
    "C32_loop_to_itself"
   ],
   "note": "JCXZ tests ECX instead of CX under an operand-size (not address-size) prefix (_refuted); proved when the two prefixes agree (_partial); LOOP family proved."
  },
  {
   "property": "C33",
   "status": "proved",
   "theorems": [
    "C33_push",
    "C33_pop",
    "C33_roundtrip"
   ],
   "note": ""
  },
  {
   "property": "C34",
   "status": "proved",
   "theorems": [
    "C34_pusha_popa",
    "C34_pushf_popf"
   ],
   "note": ""
  },
  {
   "property": "C35",
   "status": "partial",
   "theorems": [
    "C35_near",
    "C35_near_indirect_partial",
    "C35_far",
    "C35_far_indirect"
   ],
   "note": "Near indirect call through SP excluded (C31); all others proved."
  },
  {
   "property": "C36",
   "status": "proved",
   "theorems": [
    "C36_int",
    "C36_zero_vector",
    "C36_into_clear",
    "C36_iret"
   ],
   "note": ""
  },
  {
   "property": "C37",
   "status": "proved",
   "theorems": [
    "C37_int",
    "C37_entry",
    "C37_other_vector"
   ],
   "note": ""
  },
  {
   "property": "C38",
   "status": "proved",
   "theorems": [
    "C38_invalid_number",
    "C38_handler_returns",
    "C38_hle"
   ],
   "note": ""
  },
  {
   "property": "C39",
   "status": "proved",
   "theorems": [
    "C39_ins",
    "C39_outs",
    "C39_once",
    "C39_rep",
    "C39_fill",
    "C39_copy",
    "C39_zero_count"
   ],
   "note": ""
  },
  {
   "property": "C40",
   "status": "proved",
   "theorems": [
    "C40_scan"
   ],
   "note": ""
  },
  {
   "property": "C41",
   "status": "proved",
   "theorems": [
    "C41_mov_store",
    "C41_mov_load",
    "C41_mov_imm",
    "C41_mov_reg_imm",
    "C41_mov_moffs_load",
    "C41_mov_moffs_store",
    "C41_xchg",
    "C41_mov_from_sreg",
    "C41_mov_to_sreg",
    "C41_xchg_ax",
    "C41_movzx",
    "C41_xlat",
    "C41_lea",
    "C41_load_far"
   ],
   "note": ""
  },
  {
   "property": "C42",
   "status": "proved",
   "theorems": [
    "C42_cbw",
    "C42_cwd",
    "C42_flag_ops",
    "C42_lahf",
    "C42_sahf",
    "C42_bsf"
   ],
   "note": ""
  },
  {
   "property": "C43",
   "status": "proved",
   "theorems": [
    "C43_in",
    "C43_out",
    "C43_rep_outs",
    "C43_no_other_io",
    "C43_log_grows"
   ],
   "note": ""
  },
  {
   "property": "C44",
   "status": "partial",
   "theorems": [
    "C44_enter_partial",
    "C44_enter_level1",
    "C44_leave",
    "C44_level1_refuted"
   ],
   "note": "Level 1 omits the frame pointer (_refuted), the frame it builds is C44_enter_level1; other levels proved without prefix 66."
  },
  {
   "property": "C45",
   "status": "proved",
   "theorems": [
    "C45_advances",
    "C45_forward"
   ],
   "note": ""
  },
  {
   "property": "C46",
   "status": "partial",
   "theorems": [
    "C46_no_ub_partial",
    "C46_safe",
    "C46_no_ub_refuted",
    "C46_outside",
    "C46_exact",
    "C46_call"
   ],
   "note": "False (five kinds of witnesses). C46_exact: for every instruction, RME_RunOne reaches an undefined operation exactly in the cases the specification SpecUb.ub_of lists, and that one (flat memory map, polite host, CPU type 0-2, 12 bytes of code available, operand not on the last three bytes of the map). C46_call: a call is undefined iff one of its instructions is. C46_no_ub_partial/C46_safe do without the last two hypotheses."
  },
  {
   "property": "C47",
   "status": "partial",
   "theorems": [
    "C47_cwde_refuted",
    "C47_push_imm32_refuted",
    "C47_push_rm32_refuted",
    "C47_bit_test_rejected"
   ],
   "note": "False for CWDE, PUSH imm32, PUSH r/m32 (_refuted); 0F BA is always rejected (proved)."
  },
  {
   "property": "C48",
   "status": "partial",
   "theorems": [
    "C48_load_partial",
    "C48_store_partial",
    "C48_lea_partial",
    "C48_sib_disp_refuted",
    "C48_negative_refuted",
    "C48_disp32_refuted",
    "C48_index_disp_refuted",
    "C48_segment_refuted",
    "C48_real_lea"
   ],
   "note": "Forms with both SIB and displacement, negative disp8, disp32 >= 8000h, index+disp32 and the default segment are wrong (_refuted); the others proved. C48_real_lea: the exact offset formed, for every form."
  },
  {
   "property": "C49",
   "status": "proved",
   "theorems": [
    "C49_run_one",
    "C49_call",
    "C49_call_int"
   ],
   "note": ""
  },
  {
   "property": "C50",
   "status": "proved",
   "theorems": [
    "C50_block_end",
    "C50_real_block_end"
   ],
   "note": ""
  },
  {
   "property": "C51",
   "status": "proved",
   "theorems": [
    "C51_invalid",
    "C51_grp3_invalid",
    "C51_unsupported",
    "C51_imul_wide"
   ],
   "note": ""
  },
  {
   "property": "C52",
   "status": "partial",
   "theorems": [
    "C52_division_fast_partial",
    "C52_division_slow_partial",
    "C52_division_by_zero",
    "C52_division_refuted"
   ],
   "note": "Exact characterisation; the full statement fails when the subtraction loop is used on an exact multiple (_refuted)."
  },
  {
   "property": "C53",
   "status": "partial",
   "theorems": [
    "C53_malloc_partial",
    "C53_calloc_partial",
    "C53_overflow_refuted"
   ],
   "note": "Overflowing or exhausting requests are never refused and overlap (_refuted)."
  },
  {
   "property": "C54",
   "status": "partial",
   "theorems": [
    "C54_memcpy",
    "C54_memset_partial",
    "C54_memset_refuted"
   ],
   "note": "memset with n>=4 fills with the 32-bit value, wrong unless c is 0 or a replicated byte (_refuted)."
  },
  {
   "property": "C55",
   "status": "partial",
   "theorems": [
    "C55_itoa_partial",
    "C55_text_unique",
    "C55_itoa_refuted",
    "C55_width_refuted"
   ],
   "note": "Base 10 above 2^32 uses the faulty division (_refuted: 42949672960 prints 4294967295A); widths above 64 overflow (_refuted)."
  },
  {
   "property": "C56",
   "status": "partial",
   "theorems": [
    "C56_printf_partial",
    "C56_percent_refuted"
   ],
   "note": "%% and %d print nothing but consume an argument; a trailing % reads past the format (_refuted)."
  },
  {
   "property": "C57",
   "status": "partial",
   "theorems": [
    "C57_reach_checked_partial",
    "C57_independent_checked_partial",
    "C57_identity",
    "C57_reach_refuted"
   ],
   "note": "Proved for a build in which the NULL check is compiled in; in the shipped build FFFF:0010 reaches the real page 0 (_refuted). C57_identity holds for both."
  },
  {
   "property": "C58",
   "status": "partial",
   "theorems": [
    "C58_boot",
    "C58_unbootable",
    "C58_service",
    "C58_no_service",
    "C58_service_frame",
    "C58_memory_size",
    "C58_disk_table_refuted",
    "C58_chained_flags_refuted",
    "C58_last_word"
   ],
   "note": "Two refuted details: the disk table at F100:0000 is misplaced; a chained (far-called) service loses its flags."
  },
  {
   "property": "C59",
   "status": "partial",
   "theorems": [
    "C59_teletype_partial",
    "C59_text_safe",
    "C59_set_cursor",
    "C59_read_cell",
    "C59_clear_partial",
    "C59_repeat_partial",
    "C59_scroll_refuted",
    "C59_cursor_unchecked_refuted",
    "C59_repeat_refuted",
    "C59_get_mode_partial",
    "C59_get_mode_refuted",
    "C59_blink",
    "C59_set_mode",
    "C59_ignored",
    "C59_unknown"
   ],
   "note": "Scrolling is not implemented (LF on the last row wraps to row 0, _refuted); AH=02h is unchecked so later output overruns memory (_refuted); AH=09h stops at column 25 (_refuted); AH=06h ignores window and attribute (hence _partial). C59_text_safe holds for all texts from an on-screen cursor."
  },
  {
   "property": "C60",
   "status": "partial",
   "theorems": [
    "C60_read",
    "C60_int13_read",
    "C60_refused",
    "C60_short_image",
    "C60_overflow_refuted",
    "C60_sector0_refuted",
    "C60_count_refuted"
   ],
   "note": "Full read/refuse behaviour proved; refuted: buffer past the end of gaMemory overflows the host array, sector 0 is accepted, counts 64/128/192 are refused."
  },
  {
   "property": "C61",
   "status": "partial",
   "theorems": [
    "C61_params",
    "C61_params_other_drive",
    "C61_consistent",
    "C61_extended_read",
    "C61_extended_safe_partial",
    "C61_extended_failure_refuted",
    "C61_type_refuted"
   ],
   "note": "Refuted: a failed AH=42h still reports success; AH=15h puts the count in the wrong half. extended_safe is _partial: sector numbers of 2^22 or more overflow a C int."
  },
  {
   "property": "C62",
   "status": "proved",
   "theorems": [
    "C62_fifo",
    "C62_press",
    "C62_read",
    "C62_peek",
    "C62_peek_empty",
    "C62_wait"
   ],
   "note": "Full. Scan code equals ASCII in this program, recorded in the statement of C62_read."
  },
  {
   "property": "C63",
   "status": "partial",
   "theorems": [
    "C63_load",
    "C63_boot_partial",
    "C63_refused",
    "C63_stack_refuted",
    "C63_relocation_refuted",
    "C63_large_refuted"
   ],
   "note": "Loading and relocation: full (C63_load). Start-up: SP is overwritten with FFFE whatever the header says, DS and ES are 0 (C63_boot_partial, C63_stack_refuted). A relocation outside the module or a module above 10F000h bytes writes outside host arrays (_refuted)."
  },
  {
   "property": "C64",
   "status": "partial",
   "theorems": [
    "C64_sound",
    "C64_remembered",
    "C64_complete_partial",
    "C64_silent",
    "C64_defined",
    "C64_neighbour_refuted",
    "C64_overrun_refuted"
   ],
   "note": "Soundness, no repetition and silence proved; the second of two neighbouring changed words is never listed (C64_neighbour_refuted, hence C64_complete_partial); a change in the last word overruns the arrays (C64_overrun_refuted)."
  },
  {
   "property": "C65",
   "status": "partial",
   "theorems": [
    "C65_binary",
    "C65_text",
    "C65_hex",
    "C65_truncated_refuted",
    "C65_unspaced_refuted",
    "C65_address_refuted"
   ],
   "note": "Exact characterisations for templates in the documented format; a truncated or empty dump passes, unspaced pairs and the address column are misread (_refuted)."
  },
  {
   "property": "C66",
   "status": "partial",
   "theorems": [
    "C66_boot",
    "C66_exit",
    "C66_exit_zero",
    "C66_hosts",
    "C66_dump",
    "C66_large_refuted",
    "C66_cpu_refuted",
    "C66_cpu_option",
    "C66_last_word"
   ],
   "note": "Boot state, exit code (iff) and dump proved; an image above 64 KB is silently not loaded and exits 0, an unknown CPU type exits 0 (_refuted). Two consecutive 00 00 also count as a breakpoint, stated in C66_exit_zero."
  },
  {
   "property": "C67",
   "status": "proved",
   "theorems": [
    "C67_reasons",
    "C67_codes",
    "C67_codes_any",
    "C67_call_codes",
    "C67_call_int_codes",
    "C67_halt",
    "C67_break",
    "C67_zero_flag"
   ],
   "note": "Full: C67_reasons gives the reason for every code, C67_halt/C67_break the converse."
  },
  {
   "property": "C68",
   "status": "partial",
   "theorems": [
    "C68_refused_no_effect",
    "C68_fault_address",
    "C68_enter_refuted",
    "C68_unmapped_push_refuted",
    "C68_unmapped_movs_refuted"
   ],
   "note": "Proved on a flat map except for ENTER with 66 and level >= 2 (refuted: BP has been pushed) and the second 00 00 in a row (has been executed). With missing blocks a push leaves SP decremented and REP MOVS leaves CX changed (_refuted)."
  },
  {
   "property": "C69",
   "status": "proved",
   "theorems": [
    "C69_memory",
    "C69_flags",
    "C69_segments",
    "C69_registers",
    "C69_config",
    "C69_pure"
   ],
   "note": "Full on a flat map; lists are tight opcode by opcode (PFoot)."
  },
  {
   "property": "C70",
   "status": "proved",
   "theorems": [
    "C70_instruction",
    "C70_call",
    "C70_call_int",
    "C70_flag",
    "C70_cpu_type"
   ],
   "note": "Full; callbacks are functions of the visible machine. The counter must not overflow (INT_MAX instructions)."
  },
  {
   "property": "C71",
   "status": "partial",
   "theorems": [
    "C71_once",
    "C71_rep_partial",
    "C71_scan_partial",
    "C71_actual",
    "C71_count_refuted"
   ],
   "note": "Proved for ECX < 65536: the emulator counts in CX also with prefix 67 (C71_count_refuted). C71_actual states what happens without the restrictions (offsets taken modulo 64K in each access)."
  },
  {
   "property": "C72",
   "status": "proved",
   "theorems": [
    "C72_program",
    "C72_call",
    "C72_call_int"
   ],
   "note": "C72_program, C72_call, C72_call_int. The reference machine (SpecIsa.v) is assembled from the same specifications as C17-C42, C44, C71; forms on which rme2 departs from the manual are not part of it."
  },
  {
   "property": "C73",
   "status": "proved",
   "theorems": [
    "C73_add",
    "C73_sub",
    "C73_dwords_refuted"
   ],
   "note": "Word version proved for addition and subtraction. The doubleword version fails (C73_dwords_refuted) because SBB loses the carry when a borrow meets FFFFFFFFh (C19)."
  },
  {
   "property": "C74",
   "status": "partial",
   "theorems": [
    "C74_accepts",
    "C74_accepted_partial",
    "C74_help",
    "C74_refused",
    "C74_aborts",
    "C74_codes",
    "C74_mini_accepts",
    "C74_mini_accepted_partial",
    "C74_mini_refused",
    "C74_missing_value_refuted",
    "C74_joined_value_refuted",
    "C74_bad_level_refuted"
   ],
   "note": "Exact classification of all command lines (accepted / exit 0 / exit 1 / assertion) for both testers. False parts, with witnesses: -b, -O, -d as the last argument are accepted without value and cancel an earlier one, -bFILE ignores FILE, a level that is no number is 0. --cpu and --debug-level as the last argument fail an assertion (C74_aborts)."
  },
  {
   "property": "C75",
   "status": "partial",
   "theorems": [
    "C75_program",
    "C75_image_partial",
    "C75_floppy",
    "C75_level",
    "C75_missing_image_refuted",
    "C75_large_image_refuted",
    "C75_nothing_refuted",
    "C75_unbootable_refuted",
    "C75_unknown_cpu_refuted",
    "C75_unknown_cpu_never_runs",
    "C75_mini",
    "C75_mini_missing_refuted"
   ],
   "note": "All three kinds of media, with and without window, from the command line to the first state. False parts, with witnesses: a missing -b file is undefined behaviour, an image above 64 KB is not loaded and exits 0, no media / unbootable floppy / unknown CPU exit 0."
  },
  {
   "property": "C76",
   "status": "partial",
   "theorems": [
    "C76_picture",
    "C76_defined",
    "C76_no_window",
    "C76_legible",
    "C76_banner",
    "C76_teletype",
    "C76_one_request",
    "C76_redraws_again",
    "C76_refused_request_refuted",
    "C76_colours_partial",
    "C76_cyan_refuted"
   ],
   "note": "Picture, tables never overrun, legibility, banner and teletype output, at most one request and eventual redraw in every schedule with an event queue that accepts requests. False parts: a refused SDL_PushEvent stops redrawing for ever, colour 3 is yellow."
  },
  {
   "property": "C77",
   "status": "partial",
   "theorems": [
    "C77_changes_partial",
    "C77_replay",
    "C77_level",
    "C77_silent",
    "C77_first_refuted"
   ],
   "note": "From the second report on exact; replay holds for all. False part: the first report compares with zero instead of the start values. CS and IP are not reported by the code (stated in the theorem)."
  },
  {
   "property": "C78",
   "status": "partial",
   "theorems": [
    "C78_text",
    "C78_determines",
    "C78_all_registers_refuted"
   ],
   "note": "Exact layout, and the dump determines exactly the registers it names. False part: FS and GS are not shown (C78_all_registers_refuted)."
  },
  {
   "property": "C79",
   "status": "partial",
   "theorems": [
    "C79_text",
    "C79_completes",
    "C79_puts",
    "C79_printf",
    "C79_dead_line_refuted",
    "C79_init",
    "C79_init_interrupts_refuted",
    "C79_never_initialised",
    "C79_initialised_refuted"
   ],
   "note": "All texts, all serial ports. False parts, with witnesses: main never calls Debug_Init (C79_initialised_refuted), a port that never becomes ready hangs the kernel, Debug_Init leaves the interrupts enabled if the port was in divisor access."
  },
  {
   "property": "C80",
   "status": "proved",
   "theorems": [
    "C80_setup",
    "C80_main",
    "C80_verdict_identifies",
    "C80_messages",
    "C80_guest_page0"
   ],
   "note": "The port accesses during RME_CallInt (the guest's and the emulator's own trace printing) are an arbitrary parameter; that the call returns is a hypothesis (C80_main)."
  },
  {
   "property": "C81",
   "status": "partial",
   "theorems": [
    "C81_trace",
    "C81_silent",
    "C81_bytes",
    "C81_own_bytes",
    "C81_divide_refuted",
    "C81_overwritten_refuted"
   ],
   "note": "Successful steps on flat memory with callbacks that print nothing (C81_trace); the byte column for instructions that fall through (C81_bytes). False parts, with witnesses: after a divide fault the line shows RM_Int: Calling Int 0x0 instead of text and bytes (C81_divide_refuted); the bytes are read again after execution, so an instruction that overwrites itself is shown with the new bytes (C81_overwritten_refuted). Messages of failing steps: C85."
  },
  {
   "property": "C82",
   "status": "partial",
   "theorems": [
    "C82_operand",
    "C82_complete",
    "C82_cut_refuted",
    "C82_names_refuted"
   ],
   "note": "Every ModR/M form, with the real operand address of C14_real_address. False parts, with witnesses: with several prefixes the text is cut before the operand (C82_cut_refuted); IN AX,DX and the source of 66-prefixed MOVZX are misnamed (C82_names_refuted)."
  },
  {
   "property": "C83",
   "status": "partial",
   "theorems": [
    "C83_name",
    "C83_one_name",
    "C83_alu",
    "C83_shift",
    "C83_unary",
    "C83_muldiv",
    "C83_string",
    "C83_names_refuted"
   ],
   "note": "Every executed instruction except the known misnamings, which the theorem excludes by name and C83_names_refuted shows: MOVZX is shown as MOV, and with prefix 66 the instructions named after their width keep the 16-bit name. C83_alu ... C83_string tie the name table to the instruction specifications."
  },
  {
   "property": "C84",
   "status": "partial",
   "theorems": [
    "C84_operands",
    "C84_alu",
    "C84_shift",
    "C84_unary",
    "C84_muldiv",
    "C84_distinct",
    "C84_shown_refuted"
   ],
   "note": "Every instruction in the map of SpecOpers.v except those listed there as None: SHLD/SHRD, IN/OUT, LES/LDS/LSS/LFS/LGS, RET n, AAM/AAD, PUSH imm8, ENTER, XLAT, string instructions, and 68/69/6B/0F B7 with prefix 66; C84_shown_refuted shows why. C84_alu, C84_shift, C84_unary, C84_muldiv tie the listed operands to the instruction specifications; C84_distinct: the text determines the operand."
  },
  {
   "property": "C85",
   "status": "partial",
   "theorems": [
    "C85_stops",
    "C85_only",
    "C85_call_int",
    "C85_silent_refuted"
   ],
   "note": "C85_stops, C85_only, C85_call_int prove it except that some refusals are silent (C85_silent_refuted: LEA/LxS with a register, a doubled prefix, invalid group members of F6/F7 and 0F BA, PUSHA with 66, ...). Assumes the instruction bytes that decide the message are mapped code (whole) and callbacks that do not touch the 00 00 detector."
  },
  {
   "property": "C86",
   "status": "proved",
   "theorems": [
    "C86_refused",
    "C86_only",
    "C86_exact",
    "C86_one_code",
    "C86_verdict"
   ],
   "note": "On contiguous memory, for an instruction whose deciding bytes are mapped (whole) and callbacks that do not touch the 00 00 detector. C86_exact: refused with code c if and only if listed in SpecRefuse.refused with c (unless the instruction before was 00 00: C86_only). C86_verdict combines it with C46_exact into a complete decision: undefined in C, refused, or executed. Maps with holes (refusals because a block is not mapped) are covered by C10/C11/C67, not here."
  },
  {
   "property": "C87",
   "status": "proved",
   "theorems": [
    "C87_complete",
    "C87_exceptions",
    "C87_step",
    "C87_emulator",
    "C87_disjoint",
    "C87_exact"
   ],
   "note": "C87_complete: the reference machine (SpecIsa.isa), the list of refusals (SpecRefuse.refused) and the list of exceptions (SpecOutside.outside) together cover every fetched instruction that starts with an opcode byte. C87_emulator carries this to RME_RunOne, C87_disjoint shows that a step of the reference machine is never refused, C87_exceptions that no entry of the list of exceptions is a step of it, so that by C87_exact an instruction is a step of the reference machine exactly if it is neither refused nor an exception. The exceptions are the conditions under which C05-C48 have no manual theorem; each is written as a condition on the encoding and the state. Instructions with fewer than twelve bytes before the end of the segment or of IP are left out."
  },
  {
   "property": "C88",
   "status": "proved",
   "theorems": [
    "C88_run",
    "C88_end",
    "C88_call",
    "C88_call_int"
   ],
   "note": "C88_run: by induction over the number of instructions, using C87's covering lemma at each one (the instruction is found constructively: PRunAll.find_instruction). C88_end: where RME_RunOne returns an error, the reference machine has no step. C88_call, C88_call_int: a returning RME_Call or RME_CallInt has followed the reference machine all the way, or has executed an exception, a 00 00, or code at the end of a segment; refusals are ruled out because they end the call. The memory must be mapped without holes, the host functions must satisfy host_ok (as in C86, C87)."
  }
 ]
}