{
 "C01": {
  "note": "The state itself is proved. With the NULL check compiled in, running it gives RME_ERR_BADMEM (_partial); in the shipped build it dereferences a NULL block (_refuted)."
 },
 "C10": {
  "note": "False as stated: a word store on the last byte of a block spills into the bytes after it (_refuted). Proved: writes stay within block base .. base+4096+3 for every map, and exactly inside the blocks for the usual contiguous map."
 },
 "C11": {
  "note": "False for the shipped build: rme.c:27 defines RME_DO_NULL_CHECK after rme_internal.h was included (_refuted). Proved for builds where the header sees the macro."
 },
 "C14": {
  "note": "False for offsets >= 64K (no wrap), disp16 >= 8000h in [disp16], and BP+SI/BP+DI with mod 0 (_refuted). Proved for all other cases; C14_real_address states the address actually used for every ModR/M form (the bugs included) and that the instruction acts on exactly that address, C14_real_agrees that it is the manual's in the supported cases."
 },
 "C15": {
  "note": "Proved when every block is mapped; the trace dump re-reads the instruction bytes with a 16-bit wrap, so with unmapped blocks tracing can add a fault (_refuted)."
 },
 "C19": {
  "note": "Result, ZF, SF, PF always right; CF, AF, OF each right exactly (iff) outside one described corner; counterexamples in the corners (_refuted)."
 },
 "C22": {
  "note": "AF uses only three bits of the operand (_refuted); everything else proved."
 },
 "C23": {
  "note": "RCL/RCR proved. ROL/ROR by a non-zero multiple of the width keep CF (_refuted); everything else proved."
 },
 "C24": {
  "note": "SHL by exactly the width is undefined behaviour in C (_refuted); all other cases proved."
 },
 "C25": {
  "note": "The count is not masked and registers 4-7 are taken as byte registers (_refuted); proved for counts within the width and operands that are decoded right. C25_count_undefined: the exact counts for which the instruction is undefined."
 },
 "C27": {
  "note": "Proved when the product stays below 2^31; CF/OF, signed overflow and prefix 66 are wrong (_refuted)."
 },
 "C28": {
  "note": "DIV proved. IDIV16 of 80000000h by -1 is undefined behaviour and IDIV32 always faults (_refuted); IDIV8/16 otherwise proved. C28_idiv_undefined: exactly when IDIV is undefined."
 },
 "C31": {
  "note": "All jumps and calls proved; CALL SP goes to the decremented SP (_refuted), the other indirect calls proved."
 },
 "C32": {
  "note": "JCXZ tests ECX instead of CX under an operand-size (not address-size) prefix (_refuted); proved when the two prefixes agree (_partial); LOOP family proved."
 },
 "C35": {
  "note": "Near indirect call through SP excluded (C31); all others proved."
 },
 "C44": {
  "note": "Level 1 omits the frame pointer (_refuted), the frame it builds is C44_enter_level1; other levels proved without prefix 66."
 },
 "C46": {
  "note": "False (five kinds of witnesses). C46_exact: for every instruction, RME_RunOne reaches an undefined operation exactly in the cases the specification SpecUb.ub_of lists, and that one (flat memory map, polite host, CPU type 0-2, 12 bytes of code available, operand not on the last three bytes of the map). C46_call: a call is undefined iff one of its instructions is. C46_no_ub_partial/C46_safe do without the last two hypotheses."
 },
 "C47": {
  "note": "False for CWDE, PUSH imm32, PUSH r/m32 (_refuted); 0F BA is always rejected (proved)."
 },
 "C48": {
  "note": "Forms with both SIB and displacement, negative disp8, disp32 >= 8000h, index+disp32 and the default segment are wrong (_refuted); the others proved. C48_real_lea: the exact offset formed, for every form."
 },
 "C52": {
  "note": "Exact characterisation; the full statement fails when the subtraction loop is used on an exact multiple (_refuted)."
 },
 "C53": {
  "note": "Overflowing or exhausting requests are never refused and overlap (_refuted)."
 },
 "C54": {
  "note": "memset with n>=4 fills with the 32-bit value, wrong unless c is 0 or a replicated byte (_refuted)."
 },
 "C55": {
  "note": "Base 10 above 2^32 uses the faulty division (_refuted: 42949672960 prints 4294967295A); widths above 64 overflow (_refuted)."
 },
 "C56": {
  "note": "%% and %d print nothing but consume an argument; a trailing % reads past the format (_refuted)."
 },
 "C57": {
  "note": "Proved for a build in which the NULL check is compiled in; in the shipped build FFFF:0010 reaches the real page 0 (_refuted). C57_identity holds for both."
 },
 "C58": {
  "note": "Two refuted details: the disk table at F100:0000 is misplaced; a chained (far-called) service loses its flags."
 },
 "C59": {
  "note": "Scrolling is not implemented (LF on the last row wraps to row 0, _refuted); AH=02h is unchecked so later output overruns memory (_refuted); AH=09h stops at column 25 (_refuted); AH=06h ignores window and attribute (hence _partial). C59_text_safe holds for all texts from an on-screen cursor."
 },
 "C60": {
  "note": "Full read/refuse behaviour proved; refuted: buffer past the end of gaMemory overflows the host array, sector 0 is accepted, counts 64/128/192 are refused."
 },
 "C61": {
  "note": "Refuted: a failed AH=42h still reports success; AH=15h puts the count in the wrong half. extended_safe is _partial: sector numbers of 2^22 or more overflow a C int."
 },
 "C62": {
  "note": "Full. Scan code equals ASCII in this program, recorded in the statement of C62_read."
 },
 "C63": {
  "note": "Loading and relocation: full (C63_load). Start-up: SP is overwritten with FFFE whatever the header says, DS and ES are 0 (C63_boot_partial, C63_stack_refuted). A relocation outside the module or a module above 10F000h bytes writes outside host arrays (_refuted)."
 },
 "C64": {
  "note": "Soundness, no repetition and silence proved; the second of two neighbouring changed words is never listed (C64_neighbour_refuted, hence C64_complete_partial); a change in the last word overruns the arrays (C64_overrun_refuted)."
 },
 "C65": {
  "note": "Exact characterisations for templates in the documented format; a truncated or empty dump passes, unspaced pairs and the address column are misread (_refuted)."
 },
 "C66": {
  "note": "Boot state, exit code (iff) and dump proved; an image above 64 KB is silently not loaded and exits 0, an unknown CPU type exits 0 (_refuted). Two consecutive 00 00 also count as a breakpoint, stated in C66_exit_zero."
 },
 "C67": {
  "note": "Full: C67_reasons gives the reason for every code, C67_halt/C67_break the converse."
 },
 "C68": {
  "note": "Proved on a flat map except for ENTER with 66 and level >= 2 (refuted: BP has been pushed) and the second 00 00 in a row (has been executed). With missing blocks a push leaves SP decremented and REP MOVS leaves CX changed (_refuted)."
 },
 "C69": {
  "note": "Full on a flat map; lists are tight opcode by opcode (PFoot)."
 },
 "C70": {
  "note": "Full; callbacks are functions of the visible machine. The counter must not overflow (INT_MAX instructions)."
 },
 "C71": {
  "status": "partial",
  "note": "Proved for ECX < 65536: the emulator counts in CX also with prefix 67 (C71_count_refuted). C71_actual states what happens without the restrictions (offsets taken modulo 64K in each access)."
 },
 "C72": {
  "status": "proved",
  "note": "C72_program, C72_call, C72_call_int. The reference machine (SpecIsa.v) is assembled from the same specifications as C17-C42, C44, C71; forms on which rme2 departs from the manual are not part of it."
 },
 "C73": {
  "status": "proved",
  "note": "Word version proved for addition and subtraction. The doubleword version fails (C73_dwords_refuted) because SBB loses the carry when a borrow meets FFFFFFFFh (C19)."
 },
 "C74": {
  "note": "Exact classification of all command lines (accepted / exit 0 / exit 1 / assertion) for both testers. False parts, with witnesses: -b, -O, -d as the last argument are accepted without value and cancel an earlier one, -bFILE ignores FILE, a level that is no number is 0. --cpu and --debug-level as the last argument fail an assertion (C74_aborts)."
 },
 "C75": {
  "note": "All three kinds of media, with and without window, from the command line to the first state. False parts, with witnesses: a missing -b file is undefined behaviour, an image above 64 KB is not loaded and exits 0, no media / unbootable floppy / unknown CPU exit 0."
 },
 "C76": {
  "note": "Picture, tables never overrun, legibility, banner and teletype output, at most one request and eventual redraw in every schedule with an event queue that accepts requests. False parts: a refused SDL_PushEvent stops redrawing for ever, colour 3 is yellow."
 },
 "C77": {
  "note": "From the second report on exact; replay holds for all. False part: the first report compares with zero instead of the start values. CS and IP are not reported by the code (stated in the theorem)."
 },
 "C78": {
  "note": "Exact layout, and the dump determines exactly the registers it names. False part: FS and GS are not shown (C78_all_registers_refuted)."
 },
 "C79": {
  "note": "All texts, all serial ports. False parts, with witnesses: main never calls Debug_Init (C79_initialised_refuted), a port that never becomes ready hangs the kernel, Debug_Init leaves the interrupts enabled if the port was in divisor access."
 },
 "C80": {
  "note": "The port accesses during RME_CallInt (the guest's and the emulator's own trace printing) are an arbitrary parameter; that the call returns is a hypothesis (C80_main)."
 },
 "C81": {
  "note": "Successful steps on flat memory with callbacks that print nothing (C81_trace); the byte column for instructions that fall through (C81_bytes). False parts, with witnesses: after a divide fault the line shows RM_Int: Calling Int 0x0 instead of text and bytes (C81_divide_refuted); the bytes are read again after execution, so an instruction that overwrites itself is shown with the new bytes (C81_overwritten_refuted). Messages of failing steps: C85."
 },
 "C82": {
  "note": "Every ModR/M form, with the real operand address of C14_real_address. False parts, with witnesses: with several prefixes the text is cut before the operand (C82_cut_refuted); IN AX,DX and the source of 66-prefixed MOVZX are misnamed (C82_names_refuted)."
 },
 "C83": {
  "note": "Every executed instruction except the known misnamings, which the theorem excludes by name and C83_names_refuted shows: MOVZX is shown as MOV, and with prefix 66 the instructions named after their width keep the 16-bit name. C83_alu ... C83_string tie the name table to the instruction specifications."
 },
 "C84": {
  "note": "Every instruction in the map of SpecOpers.v except those listed there as None: SHLD/SHRD, IN/OUT, LES/LDS/LSS/LFS/LGS, RET n, AAM/AAD, PUSH imm8, ENTER, XLAT, string instructions, and 68/69/6B/0F B7 with prefix 66; C84_shown_refuted shows why. C84_alu, C84_shift, C84_unary, C84_muldiv tie the listed operands to the instruction specifications; C84_distinct: the text determines the operand."
 },
 "C85": {
  "note": "C85_stops, C85_only, C85_call_int prove it except that some refusals are silent (C85_silent_refuted: LEA/LxS with a register, a doubled prefix, invalid group members of F6/F7 and 0F BA, PUSHA with 66, ...). Assumes the instruction bytes that decide the message are mapped code (whole) and callbacks that do not touch the 00 00 detector."
 },
 "C86": {
  "note": "On contiguous memory, for an instruction whose deciding bytes are mapped (whole) and callbacks that do not touch the 00 00 detector. C86_exact: refused with code c if and only if listed in SpecRefuse.refused with c (unless the instruction before was 00 00: C86_only). C86_verdict combines it with C46_exact into a complete decision: undefined in C, refused, or executed. Maps with holes (refusals because a block is not mapped) are covered by C10/C11/C67, not here."
 },
 "C87": {
  "note": "C87_complete: the reference machine (SpecIsa.isa), the list of refusals (SpecRefuse.refused) and the list of exceptions (SpecOutside.outside) together cover every fetched instruction that starts with an opcode byte. C87_emulator carries this to RME_RunOne, C87_disjoint shows that a step of the reference machine is never refused, C87_exceptions that no entry of the list of exceptions is a step of it, so that by C87_exact an instruction is a step of the reference machine exactly if it is neither refused nor an exception. The exceptions are the conditions under which C05-C48 have no manual theorem; each is written as a condition on the encoding and the state. Instructions with fewer than twelve bytes before the end of the segment or of IP are left out."
 },
 "C88": {
  "note": "C88_run: by induction over the number of instructions, using C87's covering lemma at each one (the instruction is found constructively: PRunAll.find_instruction). C88_end: where RME_RunOne returns an error, the reference machine has no step. C88_call, C88_call_int: a returning RME_Call or RME_CallInt has followed the reference machine all the way, or has executed an exception, a 00 00, or code at the end of a segment; refusals are ruled out because they end the call. The memory must be mapped without holes, the host functions must satisfy host_ok (as in C86, C87)."
 }
}