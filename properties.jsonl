{"id": "C01", "title": "Fresh emulator state", "statement": "RME_CreateState yields a state whose registers, segments, memory map and HLE table are all zero/NULL except FLAGS=0x0002, CS:IP=F000:FFF0 and the compiled-in debug level; running it without installing memory does nothing useful but is distinguishable from a normal exit.", "quantifier": "the (single) initial state, over every build configuration", "why_tests_cant": "A test sees one build; the claim is about every field and every configuration of the NULL check.", "anchors": ["src/rme.c:RME_CreateState"]}
{"id": "C02", "title": "Magic return address", "statement": "Whenever CS:IP is FFFF:FFFF, RME_RunOne returns RME_ERR_FCNRET and RME_Call returns 0 (success), and neither changes anything in the state; at any other CS:IP RME_RunOne never returns RME_ERR_FCNRET.", "quantifier": "every state, with any registers, memory and callbacks", "why_tests_cant": "No finite set of states shows that no other instruction or fault can produce the 'function returned' code.", "anchors": ["src/rme.c:RME_RunOne", "src/rme.c:RME_Call"]}
{"id": "C03", "title": "RME_Call is iterated RME_RunOne", "statement": "RME_Call executes RME_RunOne repeatedly and stops exactly at the first call that does not return 0; it returns 0 if that call returned RME_ERR_FCNRET and that call's error code otherwise, leaving the state as that last call left it.", "quantifier": "every start state and every execution length", "why_tests_cant": "Executions are unbounded; tests only cover terminating, short ones.", "anchors": ["src/rme.c:RME_Call"]}
{"id": "C04", "title": "Bounded decoding", "statement": "One RME_RunOne always terminates: an instruction carries at most four prefix bytes (segment, operand size, address size, repeat), a second prefix of the same kind is rejected with RME_ERR_UNDEFOPCODE, and a REP string instruction performs at most CX iterations.", "quantifier": "every byte sequence at CS:IP and every state", "why_tests_cant": "There are infinitely many byte streams/prefix combinations; a hang can hide in any.", "anchors": ["src/rme.c:RME_Int_DoOpcode", "src/prefixes.c", "src/ops_string.c:STRING_HEAD"]}
{"id": "C05", "title": "Undefined opcodes are rejected cleanly", "statement": "If the (unprefixed) opcode byte at CS:IP is not implemented - in the one-byte map or in the 0F map - RME_RunOne returns RME_ERR_UNDEFOPCODE and changes no register, flag, segment, IP or memory byte, and performs no I/O.", "quantifier": "every unimplemented opcode and every state", "why_tests_cant": "'Nothing changed' ranges over the whole state for every state.", "anchors": ["src/opcode_table.h", "src/rme.c:RME_Int_DoOpcode", "src/rme.c:RME_Op_Ext_0F"]}
{"id": "C06", "title": "Stop conditions", "statement": "HLT makes RME_RunOne return RME_ERR_HALT with registers, memory and IP unchanged; the padding byte F1 stops with RME_ERR_BREAKPOINT likewise; and executing the instruction 00 00 twice in a row stops with RME_ERR_BREAKPOINT, while executing it once (after some other instruction) does not.", "quantifier": "every state in which these bytes are at CS:IP", "why_tests_cant": "Depends on history (the previous instruction) and on the whole state.", "anchors": ["src/rme.c:RME_Int_DoOpcode", "src/ops_misc.c:RME_Op_HLT_z"]}
{"id": "C07", "title": "Instruction accounting", "statement": "Every RME_RunOne that is neither at the magic address nor at an HLE entry adds exactly one to the executed-instruction counter, whatever the outcome, and the other calls leave it unchanged (provided host callbacks do not touch it); so n successful runs add at most n.", "quantifier": "every state and instruction, every length of run", "why_tests_cant": "Unbounded histories over all opcodes.", "anchors": ["src/rme.c:RME_Int_DoOpcode", "src/rme.h:InstrNum"]}
{"id": "C08", "title": "Guest code cannot change the host configuration", "statement": "No instruction changes the memory map (which host block backs which guest block), the emulated CPU type, the debug level or the HLE callback table; only host callbacks can.", "quantifier": "every instruction stream, every state, any number of instructions", "why_tests_cant": "Must hold for all opcodes and all machine states.", "anchors": ["src/rme.h:sRME_State", "src/rme.c:RME_RunOne"]}
{"id": "C09", "title": "Registers stay in range", "statement": "If all registers, segments, FLAGS and memory bytes are within their declared widths then they are after any number of RME_RunOne calls (host callbacks assumed to keep them so).", "quantifier": "every instruction stream and state", "why_tests_cant": "Invariant over unbounded histories.", "anchors": ["src/rme.h:sRME_State", "src/rme_internal.h"]}
{"id": "C10", "title": "Memory writes are confined to mapped blocks", "statement": "Any host byte that differs after RME_RunOne lies in a block installed in the memory map (at block base .. base+RME_BLOCK_SIZE-1). ", "quantifier": "every instruction, state and memory map", "why_tests_cant": "Requires reasoning about every address computation at every block boundary.", "anchors": ["src/rme_internal.h:RME_Int_GetPtr", "src/rme_internal.h:RME_Int_Write16", "src/rme.c:RME_Int_DecodeModMX"]}
{"id": "C11", "title": "Unmapped memory faults", "statement": "An instruction fetch, data access or stack access to a block whose map entry is NULL makes RME_RunOne return RME_ERR_BADMEM (never touching host memory through the NULL entry).", "quantifier": "every state, memory map and access", "why_tests_cant": "All block/offset combinations; also depends on the build configuration (preprocessor order).", "anchors": ["src/rme_internal.h:RME_Int_GetPtr", "src/rme.c:RME_DO_NULL_CHECK"]}
{"id": "C12", "title": "Segmented memory is one flat address space", "statement": "With the usual contiguous map, two segment:offset pairs with the same linear address segment*16+offset name the same byte; a byte/word/dword store followed by a load of the same address returns the stored value, leaves every other linear address unchanged, and words are little-endian.", "quantifier": "every segment, offset, value and memory content", "why_tests_cant": "All 2^32 segment:offset pairs and all contents.", "anchors": ["src/rme_internal.h:RME_Int_GetPtr", "src/rme_internal.h:RME_Int_Read16", "src/rme_internal.h:RME_Int_Write16"]}
{"id": "C13", "title": "Sub-register aliasing", "statement": "Writing an 8-bit, 16-bit or 32-bit register changes exactly the bits of the containing 32-bit register that it names and no other register: AL/AH are bytes 0/1 of AX, which is the low half of EAX, etc.", "quantifier": "every register number, width, value and register file content", "why_tests_cant": "All register contents and pairs of registers.", "anchors": ["src/rme.h:tGPR", "src/rme_internal.h:RegB", "src/rme_internal.h:RegW"]}
{"id": "C14", "title": "16-bit effective addresses", "statement": "For each of the 24 memory forms of a ModR/M byte the operand is at default-or-overridden segment : (base + index + displacement) mod 65536, with SS the default segment for BP-based forms and DS otherwise.", "quantifier": "every ModR/M byte, displacement, register contents and segment override", "why_tests_cant": "24 forms x all register and displacement values, including wrap-around.", "anchors": ["src/rme.c:DoFunc", "src/rme.c:RME_Int_GetMMM"]}
{"id": "C15", "title": "Tracing does not change execution", "statement": "RME_RunOne gives the same return code and final state (other than the level itself) whatever the debug level is.", "quantifier": "every state and every pair of debug levels", "why_tests_cant": "Needs a relational argument over every instruction.", "anchors": ["src/rme.c:RME_Int_DoOpcode", "src/rme.h:DebugLevel"]}
{"id": "C16", "title": "Trace text buffer is memory safe", "statement": "Whatever text is appended, and however often, the 64-byte disassembly buffer is never written out of bounds and always contains a terminating NUL, and the recorded length never exceeds 64.", "quantifier": "every sequence of appended strings of any length", "why_tests_cant": "Unbounded sequences and lengths.", "anchors": ["src/rme_internal.h:RME_Int_DebugPrint"]}
{"id": "C17", "title": "ADD and ADC", "statement": "For ADD/ADC at every width and operand form, the destination becomes the wrapped sum (plus carry-in for ADC); CF is unsigned carry-out, OF signed overflow, AF carry out of bit 3, ZF/SF/PF describe the result, and no other flag or register changes.", "quantifier": "all operand values, all widths, all carry-ins, all operand forms (memory operands: every form the emulator addresses as documented, see C14/C48, and word/dword operands that do not start on the last byte of a 4 KiB block)", "why_tests_cant": "2^64 operand pairs at 32 bits.", "anchors": ["src/ops_alu.h:ALU_OPCODE_ADD_CODE", "src/ops_alu.h:ALU_OPCODE_ADC_CODE", "src/ops_alu.c:CREATE_ALU_OPCODE_FCN"]}
{"id": "C18", "title": "SUB and CMP", "statement": "For SUB/CMP at every width and form, the result is the wrapped difference; CF is unsigned borrow, OF signed overflow, AF borrow into bit 3, ZF/SF/PF describe the result; CMP writes no operand.", "quantifier": "all operand values, widths and forms (memory operands: every form the emulator addresses as documented, see C14/C48, and word/dword operands that do not start on the last byte of a 4 KiB block)", "why_tests_cant": "2^64 operand pairs at 32 bits.", "anchors": ["src/ops_alu.h:ALU_OPCODE_SUB_CODE", "src/ops_alu.h:ALU_OPCODE_CMP_CODE"]}
{"id": "C19", "title": "SBB", "statement": "SBB leaves destination - source - CF (wrapped) in the destination with CF the unsigned borrow, OF the signed overflow, AF the borrow into bit 3, ZF/SF/PF of the result.", "quantifier": "all operand values, widths and carry-ins (memory operands: every form the emulator addresses as documented, see C14/C48, and word/dword operands that do not start on the last byte of a 4 KiB block)", "why_tests_cant": "2^65 cases at 32 bits; the failing ones are rare.", "anchors": ["src/ops_alu.h:ALU_OPCODE_SBB_CODE", "src/ops_alu.h:__SUB_FLAGS"]}
{"id": "C20", "title": "AND, OR, XOR, TEST, NOT", "statement": "Bitwise instructions compute the bitwise result, clear CF and OF, set ZF/SF/PF from the result and change no other flag; TEST writes no operand; NOT changes no flag.", "quantifier": "all operand values and widths (memory operands: every form the emulator addresses as documented, see C14/C48, and word/dword operands that do not start on the last byte of a 4 KiB block)", "why_tests_cant": "All operand pairs.", "anchors": ["src/ops_alu.h:ALU_OPCODE_AND_CODE", "src/ops_alu.h:ALU_OPCODE_TEST_CODE", "src/ops_alu.h:ALU_OPCODE_NOT_CODE"]}
{"id": "C21", "title": "INC and DEC", "statement": "INC/DEC add/subtract one modulo the width, leave CF unchanged, set OF exactly on signed overflow, AF on nibble carry/borrow, and ZF/SF/PF from the result.", "quantifier": "all values, widths and forms (memory operands: every form the emulator addresses as documented, see C14/C48, and word/dword operands that do not start on the last byte of a 4 KiB block)", "why_tests_cant": "All values.", "anchors": ["src/ops_alu.h:ALU_OPCODE_INC_CODE", "src/ops_alu.h:ALU_OPCODE_DEC_CODE"]}
{"id": "C22", "title": "NEG", "statement": "NEG replaces the operand by its two's complement; CF is set iff the operand was non-zero, OF iff it was the most negative value, AF iff its low nibble was non-zero, ZF/SF/PF from the result.", "quantifier": "all values and widths (memory operands: every form the emulator addresses as documented, see C14/C48, and word/dword operands that do not start on the last byte of a 4 KiB block)", "why_tests_cant": "All values.", "anchors": ["src/ops_alu.h:ALU_OPCODE_NEG_CODE"]}
{"id": "C23", "title": "Rotates", "statement": "ROL/ROR/RCL/RCR with the count taken modulo 32 and then modulo width (or width+1) permute the bits (and CF) as the corresponding number of one-bit rotations, CF is the last bit rotated out, OF for a count of 1 is as documented, and a zero count changes nothing.", "quantifier": "all values, counts, widths and carry-ins (memory operands: every form the emulator addresses as documented, see C14/C48, and word/dword operands that do not start on the last byte of a 4 KiB block)", "why_tests_cant": "All values and counts.", "anchors": ["src/ops_alu.h:ALU_OPCODE_ROL_CODE", "src/ops_alu.h:ALU_OPCODE_RCR_CODE"]}
{"id": "C24", "title": "Shifts", "statement": "SHL/SHR/SAR by count mod 32 compute value*2^n mod 2^w, value div 2^n, and floor(signed value / 2^n); CF is the last bit shifted out, ZF/SF/PF from the result, OF for count 1 as documented, and a zero count changes nothing.", "quantifier": "all values, counts and widths (memory operands: every form the emulator addresses as documented, see C14/C48, and word/dword operands that do not start on the last byte of a 4 KiB block)", "why_tests_cant": "All values and counts, including counts at and above the operand width.", "anchors": ["src/ops_alu.h:ALU_OPCODE_SHL_CODE", "src/ops_alu.h:ALU_OPCODE_SHR_CODE", "src/ops_alu.h:ALU_OPCODE_SAR_CODE"]}
{"id": "C25", "title": "Double-precision shifts", "statement": "SHLD/SHRD shift the destination register or memory operand by the count (mod 32), filling from the named source register.", "quantifier": "all operand pairs, counts, widths and registers", "why_tests_cant": "All values, counts and register encodings.", "anchors": ["src/ops_alu.h:ALU_OPCODE_SHLD_CODE", "src/ops_alu.c:RME_Op_SHLD_I8"]}
{"id": "C26", "title": "Single-operand multiply", "statement": "MUL/IMUL leave the full double-width (un)signed product in AX / DX:AX / EDX:EAX and set CF=OF exactly when the upper half is significant.", "quantifier": "all operand values and widths (memory operands: every form the emulator addresses as documented, see C14/C48, and word/dword operands that do not start on the last byte of a 4 KiB block)", "why_tests_cant": "2^64 operand pairs at 32 bits.", "anchors": ["src/ops_alu.h:ALU_OPCODE_MUL_CODE", "src/ops_alu.h:ALU_OPCODE_IMUL_CODE"]}
{"id": "C27", "title": "Two/three-operand IMUL", "statement": "IMUL r,r/m and IMUL r,r/m,imm leave the truncated signed product in the register and set CF=OF exactly when the product did not fit.", "quantifier": "all operand values (memory operands: every form the emulator addresses as documented, see C14/C48, and word/dword operands that do not start on the last byte of a 4 KiB block)", "why_tests_cant": "All operand pairs.", "anchors": ["src/ops_alu.c:RME_Op_IMUL_MIX", "src/ops_alu.c:RME_Op_IMUL_RMX"]}
{"id": "C28", "title": "Division", "statement": "DIV/IDIV leave truncated quotient and remainder satisfying numerator = quotient*divisor + remainder (remainder with the numerator's sign) when the quotient fits; for a zero divisor or a quotient that does not fit no register is changed by the instruction and interrupt 0 is raised, with FLAGS, CS and the address of the dividing instruction on the stack.", "quantifier": "all numerators and divisors at all widths (memory operands: every form the emulator addresses as documented, see C14/C48, and word/dword operands that do not start on the last byte of a 4 KiB block)", "why_tests_cant": "2^96 cases at 32 bits.", "anchors": ["src/ops_alu.h:ALU_OPCODE_DIV_CODE", "src/ops_alu.h:ALU_OPCODE_IDIV_CODE", "src/rme.c:RME_RunOne"]}
{"id": "C29", "title": "Decimal arithmetic", "statement": "ADD (or ADC) of two packed-BCD bytes followed by DAA gives the packed-BCD sum with the decimal carry in CF; SUB (or SBB) followed by DAS gives the BCD difference with the borrow in CF; AAA/AAS do so for unpacked digits; AAM splits AL into quotient and remainder and AAD recombines them; AAM 0 raises interrupt 0.", "quantifier": "all valid BCD operands and carry-ins; all AL/AH/imm values", "why_tests_cant": "All pairs.", "anchors": ["src/ops_misc.c:RME_Op_DAA_z", "src/ops_misc.c:RME_Op_DAS_z", "src/ops_misc.c:RME_Op_AAM_z"]}
{"id": "C30", "title": "Conditional jumps decide comparisons", "statement": "After CMP a,b at any width: JE/JNE, JB/JAE/JBE/JA and JL/JGE/JLE/JG are taken exactly when a=b, a<>b, and the corresponding unsigned and signed order holds; JO/JNO/JS/JNS/JP/JNP follow the flag.", "quantifier": "all operand values, widths, and both jump lengths", "why_tests_cant": "All pairs of values.", "anchors": ["src/ops_jump.c", "src/ops_alu.h:ALU_OPCODE_CMP_CODE"]}
{"id": "C31", "title": "Jump targets", "statement": "A taken short or near relative jump or call continues at (address of the next instruction + sign-extended displacement) mod 65536, one not taken at the next instruction, and a far jump/call at the given CS:IP; nothing else changes (except the pushed return address for calls).", "quantifier": "all displacements, IPs and states", "why_tests_cant": "All IP/displacement combinations including wrap-around.", "anchors": ["src/ops_jump.c", "src/ops_call.c"]}
{"id": "C32", "title": "LOOP family", "statement": "LOOP decrements CX modulo 65536 and jumps iff the new CX is non-zero (and ZF agrees, for LOOPZ/LOOPNZ), without changing flags; so a LOOP to itself started with CX=n ends after n (65536 if n=0) executions with CX=0.", "quantifier": "all CX, flags and displacements; all iteration counts", "why_tests_cant": "Unbounded iteration; wrap at CX=0.", "anchors": ["src/ops_jump.c:RME_Op_LOOP_S", "src/ops_jump.c:RME_Op_JCXZ_S"]}
{"id": "C33", "title": "PUSH/POP", "statement": "PUSH decrements SP by 2 (mod 65536) and stores the word at SS:SP, POP loads it and increments SP; POP after PUSH restores SP and the pushed value into any register or segment, and nothing else changes.", "quantifier": "all registers, values, SS:SP values", "why_tests_cant": "All stack positions including SP wrap-around and block boundaries.", "anchors": ["src/ops_stack.c", "src/rme_internal.h:PUSH"]}
{"id": "C34", "title": "PUSHA/POPA and PUSHF/POPF", "statement": "POPA after PUSHA restores all eight general registers (including SP); POPF after PUSHF restores FLAGS up to the bits forced by the CPU type.", "quantifier": "all register contents and stack positions", "why_tests_cant": "All register files.", "anchors": ["src/ops_stack.c:RME_Op_PUSH_A", "src/ops_stack.c:RME_Op_POP_F"]}
{"id": "C35", "title": "CALL/RET", "statement": "A RET (near or far, matching the CALL) executed with the stack as CALL left it resumes at the instruction after the CALL with SP as before it; RET n additionally removes n bytes.", "quantifier": "all call targets, return addresses, stack positions", "why_tests_cant": "All addresses including wrap-around.", "anchors": ["src/ops_call.c:RME_Op_CALL_N", "src/ops_call.c:RME_Op_RET_iN"]}
{"id": "C36", "title": "INT/IRET", "statement": "INT n (INT3, INTO when OF) through a non-zero, non-HLE vector pushes FLAGS, CS and the return IP, clears IF and TF, and continues at the vector; IRET undoes this exactly (CS, IP, FLAGS, SP); a 0000:0000 vector gives RME_ERR_BADMEM with nothing pushed; INTO with OF clear does nothing.", "quantifier": "all vectors, interrupt numbers, flags, stack positions", "why_tests_cant": "All vectors and stacks.", "anchors": ["src/ops_call.c:_CallInterrupt", "src/ops_call.c:RME_Op_IRET_z"]}
{"id": "C37", "title": "High-level-emulation dispatch", "statement": "INT n whose vector is B800:n calls exactly the host callback installed for n (if any) once and continues after the INT with nothing pushed; executing at B800:n (n<256) calls the callback for n and then returns as IRET would; with any other vector no callback runs.", "quantifier": "all interrupt numbers, callback tables and callback behaviours", "why_tests_cant": "Callbacks are arbitrary host code.", "anchors": ["src/ops_call.c:_CallInterrupt", "src/rme.c:RME_RunOne"]}
{"id": "C38", "title": "RME_CallInt", "statement": "RME_CallInt rejects a number outside 0..255 with RME_ERR_INVAL; otherwise it runs the handler at the vector with a return frame to FFFF:FFFF on the stack, so that a handler ending in IRET makes it return 0 with SP and FLAGS as before the call.", "quantifier": "all interrupt numbers, vectors and handlers that return", "why_tests_cant": "Handlers are arbitrary programs.", "anchors": ["src/rme.c:RME_CallInt", "src/rme.c:RME_int_CallInt"]}
{"id": "C39", "title": "String moves, fills and loads", "statement": "REP MOVSB/W/D copies exactly CX elements from DS(or override):SI to ES:DI in the direction of DF, element by element; REP STOS fills exactly CX elements; afterwards CX=0, SI/DI have moved by CX elements modulo 65536 and all other memory and registers are unchanged; without REP exactly one element is processed and CX is unchanged; with CX=0 nothing happens.", "quantifier": "all counts, positions, directions and memory contents (including overlap)", "why_tests_cant": "Unbounded counts; overlapping regions.", "anchors": ["src/ops_string.c"]}
{"id": "C40", "title": "String compares and scans", "statement": "REPNE SCASB stops right after the first element equal to AL (ZF=1) or after CX elements (ZF=0 from the last comparison); REPE CMPSB stops right after the first differing pair; CX/SI/DI count the elements examined and the flags are those of the last comparison.", "quantifier": "all counts, positions and memory contents", "why_tests_cant": "Unbounded scans.", "anchors": ["src/ops_string.c:RME_Op_SCA_SB", "src/ops_string.c:RME_Op_CMP_SB"]}
{"id": "C41", "title": "Data movement", "statement": "MOV in all forms copies the source to the destination and changes nothing else (no flags); XCHG swaps its operands; MOVZX zero-extends; XLAT loads the byte at segment:(BX+AL); LEA stores the effective offset; LES/LDS/LFS/LGS/LSS load offset then segment from memory.", "quantifier": "all operands, forms and contents (memory operands: every form the emulator addresses as documented, see C14/C48, and word/dword operands that do not start on the last byte of a 4 KiB block)", "why_tests_cant": "All operands.", "anchors": ["src/ops_mov.c", "src/ops_misc.c"]}
{"id": "C42", "title": "Conversions, bit scan and flag instructions", "statement": "CBW/CWD sign-extend; BSF returns the index of the lowest set bit or sets ZF; LAHF/SAHF transfer the low flags; CLC/STC/CMC/CLI/STI/CLD/STD change exactly their flag.", "quantifier": "all register and flag contents", "why_tests_cant": "All values.", "anchors": ["src/ops_misc.c", "src/ops_flags.c"]}
{"id": "C43", "title": "Port I/O", "statement": "Each IN/OUT performs exactly one host port access of the right width, port and value; REP OUTS performs exactly CX of them in memory order; no other instruction performs port I/O and the log of accesses only grows.", "quantifier": "all ports, values, instructions and histories", "why_tests_cant": "'No other instruction' ranges over everything.", "anchors": ["src/ops_io.c", "src/ops_io.h", "src/ops_string.c:RME_Op_OUT_SB"]}
{"id": "C44", "title": "ENTER/LEAVE", "statement": "LEAVE after ENTER size,level restores SP and BP; ENTER builds the frame of the Intel manual: pushes BP, copies level-1 display entries and the new frame pointer for level>=1, sets BP and reserves size bytes.", "quantifier": "all sizes, levels and stacks", "why_tests_cant": "All sizes/levels.", "anchors": ["src/ops_call.c:RME_Op_ENTER_z"]}
{"id": "C45", "title": "Straight-line execution advances IP by the instruction length", "statement": "A successful instruction that is not a jump, call, return or interrupt advances IP (mod 65536) by exactly the number of bytes of its encoding (prefixes, opcode, ModR/M, SIB, displacement, immediate), which is between 1 and 15, and leaves CS unchanged (MOV CS excepted); the only alternative is a divide fault, which continues at vector 0.", "quantifier": "every instruction, prefix combination and state (exact length: all but PUSH imm with prefix 66, see C47)", "why_tests_cant": "All encodings.", "anchors": ["src/rme.c:RME_Int_DoOpcode"]}
{"id": "C46", "title": "Guest programs cannot make the host misbehave", "statement": "For every guest program and fully mapped memory, RME_RunOne either succeeds or returns an error code: it never performs an operation undefined in C (out-of-bounds array index, NULL dereference, out-of-range shift, overflowing signed division or multiplication).", "quantifier": "every guest byte sequence and state", "why_tests_cant": "UB does not have to show in a test run.", "anchors": ["src/rme_internal.h:RME_Int_GetPtr", "src/ops_alu.h", "src/rme_internal.h:Seg"]}
{"id": "C47", "title": "Operand-size prefix selects 32-bit operation", "statement": "With prefix 66 the listed instructions operate on 32 bits: CBW becomes CWDE, PUSH imm/r/m pushes 4 bytes and consumes a 4-byte immediate, BT/BTS/BTR/BTC (0F BA) test and modify the selected bit.", "quantifier": "all values", "why_tests_cant": "All values.", "anchors": ["src/ops_misc.c:RME_Op_CBW_z", "src/ops_stack.c:RME_Op_PUSH_I", "src/ops_misc.c:RME_Op_BTx_RI8", "src/rme.c:RME_Op_Ext_0F"]}
{"id": "C48", "title": "32-bit effective addresses", "statement": "With the address-size prefix 67 a ModR/M memory operand is at default-or-overridden segment : base + index*scale + displacement as in the 32-bit addressing table (SIB byte, disp8/disp32; SS the default for ESP- and EBP-based forms), and LEA delivers that offset.", "quantifier": "every ModR/M and SIB byte, displacement, register contents and segment override", "why_tests_cant": "2^8 x 2^8 forms times all 32-bit register contents and displacements", "anchors": ["src/rme.c:DoFunc32", "src/rme.c:RME_Int_GetMMM", "src/ops_misc.c:RME_Op_LEA"]}
{"id": "C49", "title": "Guest execution is isolated from other host memory", "statement": "RME_RunOne, RME_Call and RME_CallInt neither read nor write host memory outside the 4 KiB blocks installed in the memory map (an access starting in a block may spill up to three bytes past its end): two runs from states that differ only in other host memory end alike, and leave that memory as it was; nothing else is dereferenced.", "quantifier": "every guest program, memory map, state, host memory and number of instructions; host callbacks that themselves stay inside the map", "why_tests_cant": "A test can only show that particular programs do not touch particular sentinel bytes; reads leave no trace.", "anchors": ["src/rme_internal.h:RME_Int_GetPtr", "src/rme_internal.h:RME_Int_Read16", "src/rme.c:RME_RunOne", "src/rme.c:RME_Call"]}
{"id": "C50", "title": "Word operands across a block boundary are refused without effect", "statement": "An instruction whose 16- or 32-bit ModR/M memory operand starts on the last byte of a 4 KiB block makes RME_RunOne return RME_ERR_BADMEM, with every register, flag, IP, memory byte and the port log unchanged.", "quantifier": "every instruction with a word ModR/M operand (opcodes 01..3B odd forms, 69, 6B, 81, 83, 85, 87, 89, 8B, 8C, 8E, 8F, C1, C7, D1, D3, F7, FF, 0F AF, 0F B7, 0F BC), every addressing form, prefix and state", "why_tests_cant": "'Nothing changed' ranges over the whole state, for every opcode and addressing form.", "anchors": ["src/rme.c:RME_Int_DecodeModMX", "src/rme.c:RME_Int_ParseModRMX"]}
{"id": "C51", "title": "Invalid encodings of implemented opcodes are refused without effect", "statement": "LEA/LES/LDS/LSS/LFS/LGS with a register operand, FE /2../7, FF /7, FF /3 and /5 with a register operand, F6 /1, F7 /1, and the unimplemented 66-prefixed or 0F BA forms make RME_RunOne return RME_ERR_UNDEFOPCODE (RME_ERR_BUG for two- and three-operand IMUL with prefix 66), with every register, flag, IP, memory byte and the port log unchanged.", "quantifier": "every such encoding and every state", "why_tests_cant": "'Nothing changed' ranges over the whole state, for every encoding.", "anchors": ["src/ops_misc.c:RME_Op_LEA", "src/ops_misc.c:_LDS_LES_internal", "src/rme.c:RME_Op_Unary_M", "src/rme.c:RME_Op_Unary_MX", "src/ops_alu.c:RME_Op_ArithMisc_MI", "src/ops_alu.c:RME_Op_IMUL_MIX"]}
{"id": "C52", "title": "Test kernel 64-bit division helpers", "statement": "__udivdi3(n,d) and __umoddi3(n,d) return the quotient and remainder of n by d for d<>0 (right for the special power-of-two divisors and when both operands fit 32 bits; otherwise right exactly when d does not divide a non-zero n).", "quantifier": "every pair of 64-bit operands and every number of loop iterations", "why_tests_cant": "2^128 operand pairs; the failing ones are the multiples of the divisor.", "anchors": ["testkern/lib.c:__udivdi3", "testkern/lib.c:__umoddi3"]}
{"id": "C53", "title": "Test kernel heap blocks do not overlap", "statement": "For any history of malloc calls that fits below 4 GiB, the blocks returned are 8-byte aligned, lie in the heap and are pairwise disjoint; calloc's block reads as zero and nothing else changes.", "quantifier": "every sequence of request sizes and initial heap pointer", "why_tests_cant": "Histories are unbounded; overlap depends on the whole history.", "anchors": ["testkern/heap.c:malloc", "testkern/heap.c:calloc"]}
{"id": "C54", "title": "memcpy and memset of the test kernel", "statement": "memcpy(d,s,n) makes [d,d+n) equal to the old [s,s+n) and changes nothing else (d<=s or disjoint); memset(d,c,n) fills [d,d+n) with byte c and changes nothing else.", "quantifier": "every memory, address, length and fill value", "why_tests_cant": "Every length, alignment and overlap, and 'nothing else changes'.", "anchors": ["testkern/lib.c:memcpy", "testkern/lib.c:memset"]}
{"id": "C55", "title": "itoa prints positional notation", "statement": "itoa(buf,val,base,min,pad) writes the unique base-8/10/16 numeral of val, without leading zeros, padded on the left with pad to at least min characters.", "quantifier": "every 64-bit value, base 8/10/16, minimum length up to 64, padding character", "why_tests_cant": "The set of values is too large to enumerate.", "anchors": ["testkern/debug.c:itoa"]}
{"id": "C56", "title": "printf output", "statement": "printf with a format of ordinary characters and %o %i %x (optional 0 flag and width), %p, %s prints exactly the concatenation of the literal characters and the texts of the arguments in order.", "quantifier": "every such format string and 32-bit arguments", "why_tests_cant": "Formats are unbounded.", "anchors": ["testkern/debug.c:printf"]}
{"id": "C57", "title": "Host memory reachable from the test kernel's guest", "statement": "A BIOS call made by the test kernel can read and change only host memory 1000h-FFFFFh (guest addresses are host addresses there) and the private copy of page 0; the real page 0 and the kernel are untouched.", "quantifier": "every BIOS image, interrupt number, number of steps and initial memory", "why_tests_cant": "Ranges over every guest program and over all of host memory.", "anchors": ["testkern/main.c:main", "src/rme_internal.h:RME_Int_GetPtr"]}
{"id": "C58", "title": "Native tester: start-up and BIOS dispatch", "statement": "With a floppy image whose first sector carries the 55AA signature, the tester starts the guest at 07C0:0000 with the sector at 7C00h, SP=FFFE, every interrupt vector n pointing at B800:n, a blank screen and F1 elsewhere; without one it refuses. INT n on an unchanged vector runs the BIOS service and continues after the INT with the flags the service set; interrupts without a service are ignored; no service changes SS DS FS GS SP BP SI, flags other than CF and ZF, or memory other than guest memory and the tester's own variables.", "quantifier": "every image, host placement of the memory, CPU type, guest state and interrupt number", "why_tests_cant": "Ranges over all guest states and disk images; the frame condition is about all host memory.", "anchors": ["nativetest/src/main.c:main", "nativetest/src/main.c:HLECall10", "nativetest/src/main.c:HLECall13", "nativetest/src/main.c:HLECall16", "src/ops_call.c:RME_Op_INT_I"]}
{"id": "C59", "title": "Native tester: text output", "statement": "INT 10h AH=0Eh behaves as the BIOS teletype (glyph and attribute at the cursor, advance, wrap, CR, LF, BS, scroll at the bottom); AH=02h sets the cursor, 08h reads the cell at the cursor, 06h AL=0 clears, 09h writes CX characters; output never writes outside the screen.", "quantifier": "every text of any length, cursor position and screen content", "why_tests_cant": "Texts are unbounded, and the no-overflow claim concerns every history of cursor moves.", "anchors": ["nativetest/src/main.c:HLECall10", "nativetest/src/main.c:PutChar"]}
{"id": "C60", "title": "Native tester: CHS sector reads", "statement": "INT 13h AH=02h copies exactly AL*512 bytes from the image at (cyl*2+head)*18+sector-1 to ES:BX, changes nothing else and clears CF; bad drives or addresses give CF with memory untouched; nothing outside guest memory is ever written.", "quantifier": "every image, CHS address, sector count, buffer and guest state", "why_tests_cant": "Ranges over all images, addresses and buffers.", "anchors": ["nativetest/src/main.c:HLECall13", "nativetest/src/main.c:ReadFromDisk"]}
{"id": "C61", "title": "Native tester: geometry and extended reads", "statement": "INT 13h AH=08h reports exactly the geometry AH=02h accepts; AH=42h reads the sectors named by the packet at DS:SI to its buffer, reports failures, and never writes outside guest memory; AH=15h reports the sector count.", "quantifier": "every image, packet and guest state", "why_tests_cant": "Ranges over all packets and images.", "anchors": ["nativetest/src/main.c:HLECall13", "nativetest/src/main.c:ReadFromDisk"]}
{"id": "C62", "title": "Native tester: keyboard queue", "statement": "Over any interleaving of key presses and INT 16h reads and peeks, the guest sees the keys in order, each once, dropping only keys pressed while 16 are queued; an empty queue makes a peek set ZF and a read wait.", "quantifier": "every history of key presses, reads and peeks", "why_tests_cant": "Histories are unbounded.", "anchors": ["nativetest/src/main.c:HLECall16", "nativetest/src/main.c:main"]}
{"id": "C63", "title": "Native tester: DOS executables", "statement": "Loading a DOS executable (-d) puts every byte of its load module at 0100:0000, adds the load segment to every word named by a relocation, changes nothing else, and starts it with the CS:IP and SS:SP of its header; anything else is refused without damage.", "quantifier": "every executable file (header, relocation table, module) and memory contents", "why_tests_cant": "Files are unbounded in size and content; tests load a few.", "anchors": ["nativetest/src/dosexe.c:LoadDosExe", "nativetest/src/main.c:main"]}
{"id": "C64", "title": "Testers: report of changed memory", "statement": "With debugging on, after each instruction the tester lists the changed memory words with their old and new contents, each change once, and lists nothing if nothing changed.", "quantifier": "every pair of memory contents before and after an instruction", "why_tests_cant": "2^(8*1114112) memory contents.", "anchors": ["nativetest/src/main.c:main", "mini_test.c:main"]}
{"id": "C65", "title": "Memory comparison tools", "statement": "cmpmembin, cmpmem and cmpmemhex report a difference exactly when the dump differs from a byte the template specifies (XX matches anything).", "quantifier": "every template and every dump", "why_tests_cant": "Templates and dumps are unbounded.", "anchors": ["nativetest/cmpmembin.c:main", "nativetest/cmpmem.c:main", "nativetest/cmpmemhex.c:main"]}
{"id": "C66", "title": "mini_test: BIOS images and exit codes", "statement": "mini_test runs an image of up to 64 KB at the top of the first megabyte from F000:FFF0 and exits with 0 exactly when the program stopped by HLT or a breakpoint; the dump is the first megabyte of guest memory.", "quantifier": "every image, CPU type, program behaviour and run length", "why_tests_cant": "Runs are unbounded; the exit code must be right for every program.", "anchors": ["mini_test.c:main"]}
{"id": "C67", "title": "Meaning of RME_RunOne's error codes", "statement": "RME_RunOne returns HALT only for HLT, BREAKPOINT only for F1 (or the second of two 00 00 instructions), FCNRET only at FFFF:FFFF, UNDEFOPCODE only for opcodes with unimplemented forms, BUG only for a 66-prefixed two/three-operand IMUL, and never DIVERR or INVAL.", "quantifier": "every instruction, operand and machine state", "why_tests_cant": "Ranges over every opcode, prefix combination and state.", "anchors": ["src/rme.c:RME_RunOne", "src/rme.c:RME_Int_DoOpcode", "src/opcode_table.h:caOperations"]}
{"id": "C68", "title": "A refused instruction has no effect", "statement": "If RME_RunOne returns an error code, registers, segments, FLAGS, CS:IP, memory and the ports are as they were before the instruction, so that the caller sees the address of the offending instruction.", "quantifier": "every instruction, prefix combination, operand and machine state", "why_tests_cant": "Ranges over every opcode, operand and error path; a partial effect before a late check is exactly what tests miss.", "anchors": ["src/rme.c:RME_RunOne", "src/rme.c:RME_Int_DoOpcode", "src/opcode_table.h:caOperations", "src/ops_call.c:ENTER_z"]}
{"id": "C69", "title": "Footprints: which opcodes can change what", "statement": "An instruction changes memory, FLAGS, a given segment register or a given general register only if its opcode is one of those documented to do so; only INT instructions can change the CPU type, the memory map or the service table.", "quantifier": "every instruction, prefix combination, operand and machine state, including instructions that fail", "why_tests_cant": "Absence of side effects over all operands and states cannot be sampled.", "anchors": ["src/rme.c:RME_Int_DoOpcode", "src/opcode_table.h:caOperations", "src/opcode_table.h:caOperations_0F"]}
{"id": "C70", "title": "No hidden state", "statement": "What RME_RunOne, RME_Call and RME_CallInt do depends only on registers, memory, port history and the host's configuration: prefixes and scratch values left by earlier (also failed) instructions and the instruction counter do not matter; the flag that remembers a 00 00 instruction can only turn a success into a breakpoint stop; the CPU type only matters to POPF.", "quantifier": "every pair of machine states that agree on the visible part, every instruction and every run length", "why_tests_cant": "It is a property of pairs of runs; leaks through leftover state appear only for particular histories.", "anchors": ["src/rme.c:RME_Int_DoOpcode", "src/rme.c:RME_RunOne", "src/rme.c:RME_Call", "src/rme.c:RME_CallInt", "src/prefixes.c"]}
{"id": "C71", "title": "String instructions with 32-bit addressing", "statement": "With the address-size prefix 67, MOVS, STOS, LODS, CMPS, SCAS, INS and OUTS index with ESI/EDI and a repeat prefix counts in ECX: element k is the one at ESI+k*d, EDI+k*d, the registers end advanced by the number of elements processed, REPE/REPNE stop after the first (un)equal element.", "quantifier": "every count, register and memory content, direction, element width and segment override for which the offsets stay below 64K", "why_tests_cant": "Loops of up to 65535 elements over arbitrary memory, possibly overlapping or wrapping.", "anchors": ["src/ops_string.c", "src/rme.c:RME_Int_DoOpcode"]}
{"id": "C72", "title": "Whole programs run as on the reference machine", "statement": "Collect the instruction descriptions of the x86 manuals into a reference machine: if a guest program, started in some state, is bound to reach a state satisfying P after n instructions of the reference machine (whatever values the manual leaves undefined), then n calls of RME_RunOne all return 0 and the emulated machine satisfies P; if that state is CS:IP = FFFF:FFFF, RME_Call (or RME_CallInt, starting at the handler) returns 0 in a state satisfying P.", "quantifier": "every program over the supported instruction forms, every initial state, every number of steps, every port input and host service", "why_tests_cant": "Programs are unbounded combinations of instructions over arbitrary states; agreement of single instructions on samples says nothing about their composition.", "anchors": ["src/rme.c:RME_RunOne", "src/rme.c:RME_Call", "src/rme.c:RME_CallInt", "src/rme.c:RME_Int_DoOpcode"]}
{"id": "C73", "title": "Multi-word arithmetic loops compute sums and differences", "statement": "The guest loop CLC / MOV AX,[SI] / ADC (SBB) [DI],AX / INC SI x2 / INC DI x2 / LOOP, run on the emulator with CX = n, ends after 1+7n instructions with the n-word number at DS:DI replaced by its sum (difference) with the number at DS:SI modulo 65536^n, CF the carry (borrow), CX = 0, SI and DI behind the numbers, and everything else unchanged.", "quantifier": "every n from 1 to 32767, every pair of numbers, every placement that does not overlap the code", "why_tests_cant": "The loop runs any number of times over arbitrary numbers; carries must propagate across INC and LOOP in every iteration.", "anchors": ["src/ops_alu.c", "src/ops_misc.c", "src/rme.c:RME_RunOne"]}
{"id": "C74", "title": "Command lines mean what they say", "statement": "The testers accept a command line exactly as documented: every argument that does not start with '-' (and every argument after '--') names a disk image (at most four; one image for mini_test), -b/-d/-O FILE, --cpu NAME, --debug-level N and --nogui set their value, the last one wins, everything not given has its default; -h and --help exit with code 0 and anything else exits with code 1.", "quantifier": "every list of argument strings", "why_tests_cant": "Any number of arguments of any content in any order; precedence and positional rules depend on the whole history of arguments.", "anchors": ["nativetest/src/main.c:ParseArgs", "nativetest/src/mini_test.c:ParseArgs"]}
{"id": "C75", "title": "What a command line boots", "statement": "The tester runs the DOS program given by -d if there is one, else the BIOS image given by -b (ending at the top of the first megabyte, entered at F000:FFF0, vectors zero), else the boot sector of the first disk at 07C0:0000, with the CPU and debug level asked for; anything that cannot be booted is reported with a nonzero exit code and nothing is run.", "quantifier": "every command line and every content of the host's files", "why_tests_cant": "All combinations of options, file contents, sizes and missing files.", "anchors": ["nativetest/src/main.c:main", "nativetest/src/mini_test.c:main"]}
{"id": "C76", "title": "The window shows the text screen", "statement": "After a redraw every pixel of the 640x400 window is that of the glyph of its cell's character in the colours of its attribute and nothing else is painted; different characters look different; text printed through INT 10h appears; in every schedule of the timer thread and the event loop at most one redraw request is queued and there is always another redraw.", "quantifier": "every screen content, every previous surface, every schedule of the two threads", "why_tests_cant": "2^32000 screens and unbounded interleavings of two threads.", "anchors": ["nativetest/src/main.c:DrawChar", "nativetest/src/main.c:Video_Redraw", "nativetest/src/main.c:main", "nativetest/src/font.h:VTermFont"]}
{"id": "C77", "title": "Register reports are exact", "statement": "At debug level 1 and above the testers print after each instruction exactly the registers it changed, with old and new value, so that replaying the reports gives the registers at every point; below level 1 nothing is printed.", "quantifier": "every program, state and run length", "why_tests_cant": "Unbounded runs; each report depends on what was remembered from all earlier ones.", "anchors": ["nativetest/src/main.c:main", "nativetest/src/mini_test.c:main"]}
{"id": "C78", "title": "A register dump shows the registers", "statement": "RME_DumpRegs prints, in a fixed layout, each of the eight 32-bit registers in eight hexadecimal digits, SS, DS, ES, CS, IP and FLAGS in four, and the names of the set flags; two states print the same dump exactly when they agree on all registers.", "quantifier": "every register state", "why_tests_cant": "2^384 register states; the claim that a dump determines the registers is about all pairs of them.", "anchors": ["src/rme.c:RME_DumpRegs"]}
{"id": "C79", "title": "The test kernel's console loses nothing", "statement": "Every text printed with putchar, puts or printf reaches the debug port and the serial line byte for byte and in order, each serial byte only after the port has reported ready, and no other port is touched; printing ends whenever the port becomes ready in bounded time; Debug_Init sets the line to 38400 8N1 and the kernel calls it before printing.", "quantifier": "every text, every history of port accesses, every behaviour of the serial port", "why_tests_cant": "Unbounded texts and every possible sequence of status answers of the hardware.", "anchors": ["testkern/debug.c:putchar", "testkern/debug.c:puts", "testkern/debug.c:printf", "testkern/debug.c:Debug_Init", "testkern/main.c:main"]}
{"id": "C80", "title": "The test kernel reports what happened", "statement": "The kernel hands the emulator a copy of page 0 and otherwise the memory as it was, with AX=0011; it prints its banner, the first two words of page 0 twice, and - when RME_CallInt returns - a message from which the outcome (success and AX, or the error code) can be told; only outcomes that can occur are bad memory, undefined opcode and the unknown errors 6, 7, 8.", "quantifier": "every content of memory, every guest program, every emulator outcome, every kernel size and serial port", "why_tests_cant": "All memory contents and all guest behaviours; absence of other codes is a claim about every execution.", "anchors": ["testkern/main.c:main", "testkern/heap.c:Heap_Init", "src/rme.c:RME_CallInt"]}
{"id": "C81", "title": "The trace has one complete line per instruction", "statement": "With DebugLevel 1 or more, every RME_RunOne call that executes an instruction prints exactly one line, which begins with the instruction's number and its address (linear and CS:IP as they were before it ran) and ends with the bytes of the instruction in hexadecimal; lines appear in execution order; entering a host callback prints nothing; from DebugLevel 2 on a register dump precedes the line; with DebugLevel 0 nothing is printed.", "quantifier": "every program, every machine state, every number of steps, every debug level", "why_tests_cant": "A claim about the whole printed stream for every program and run length, including faults and prefixes.", "anchors": ["src/rme.c:RME_RunOne", "src/rme.c:RME_Int_DoOpcode", "src/rme_internal.h:RME_Int_DebugPrint", "src/rme_internal.h:DEBUG_S", "src/rme.c:RME_DumpRegs"]}
{"id": "C82", "title": "The trace shows the operand that is accessed", "statement": "The trace line of an instruction with a memory operand shows segment:[expression], and evaluating that expression with the register values before the instruction gives the linear address the instruction really works on; text that did not fit is marked with '$', and an instruction without prefixes always fits; register operands are shown under their own names.", "quantifier": "every instruction with a ModR/M byte, every addressing form, prefix combination and register contents", "why_tests_cant": "All addressing forms times all register values; the printed text is parsed back.", "anchors": ["src/rme.c:RME_Int_GetModRM", "src/rme.c:RME_Int_DoFunc", "src/rme.c:RME_Int_DoFunc32", "src/rme_internal.h:RME_Int_DebugPrint", "src/rme.c:RME_Int_DoOpcode"]}
{"id": "C83", "title": "The trace names the instruction that is executed", "statement": "The trace line of an executed instruction names its prefixes in order and the instruction by its mnemonic in the Intel manual; no two different instructions share a name for the same encoding, and the name is that of the operation the CPU specification performs; it warns about a REP or REPNE prefix exactly when the instruction is not a string instruction, naming prefix and opcode.", "quantifier": "every opcode of the one-byte and two-byte maps, every ModR/M byte, every prefix sequence, every register and memory content", "why_tests_cant": "All encodings times all prefix sequences; the text depends on several tables that must stay in step with the dispatch tables.", "anchors": ["src/rme.c:RME_Int_DoOpcode", "src/opcode_table.h:caOperations", "src/opcode_table.h:caOperations0F", "src/rme_internal.h:RME_Int_DebugPrint"]}
{"id": "C84", "title": "The trace shows the operands", "statement": "Behind the instruction's name its trace line shows the instruction's operands, destination first: registers under their names, memory operands as a segment and a sum that denote the linear address accessed, immediates and jump distances in hexadecimal with the value used; two different registers, values or addresses never share a text.", "quantifier": "every opcode of both maps with operands, every ModR/M and SIB form and displacement, every prefix sequence, every register and memory content", "why_tests_cant": "All operand encodings times all register contents times all prefixes; the text must agree with the address and values the execution uses.", "anchors": ["src/rme.c:RME_Int_ParseModRM", "src/rme.c:RME_Int_DoOpcode", "src/ops_alu.c", "src/ops_mov.c", "src/ops_jump.c", "src/rme_internal.h:RME_Int_DebugPrint"]}
{"id": "C85", "title": "Refused instructions are reported, and reported truthfully", "statement": "When RME_RunOne refuses an instruction it prints a message that says why, naming the opcode, group member, interrupt vector or address concerned, behind the number and place of the instruction from DebugLevel 1 on; no message is printed that does not describe the instruction and state at hand, and RME_CallInt with an invalid interrupt number prints a warning with that number and executes nothing.", "quantifier": "every opcode of both maps, every ModR/M byte and prefix sequence, every register, memory and vector content, every DebugLevel, every int passed to RME_CallInt", "why_tests_cant": "All encodings times all states; which message appears depends on the error path inside each handler, its operand's address and the prefixes before it.", "anchors": ["src/rme.c:RME_Int_DoOpcode", "src/rme.c:RME_Int_DecodeModMX", "src/rme.c:RME_Op_Unary_M", "src/rme.c:RME_Op_Unary_MX", "src/rme.c:RME_Op_Ext_0F", "src/rme.c:RME_int_CallInt", "src/ops_call.c:_CallInterrupt", "src/ops_alu.c"]}
{"id": "C86", "title": "Refusal is decided by a fixed list", "statement": "On a memory without holes, RME_RunOne refuses an instruction if and only if it is on a fixed list: HLT, never-written memory, a prefix of a kind already seen, an opcode or encoding that does not exist or is not implemented, an interrupt whose vector is 0:0, or a word operand beginning on the last byte of a 4 KiB block; and the error code is the one the list gives for it. Every other instruction is executed, unless it reaches an operation that C leaves undefined.", "quantifier": "every opcode of both maps, every ModR/M and SIB byte, every prefix sequence, every register, memory and vector content", "why_tests_cant": "All encodings times all operand addresses times all prefix combinations; that nothing else is ever refused is a statement about the absence of error paths in every handler.", "anchors": ["src/rme.c:RME_Int_DoOpcode", "src/rme.c:RME_Int_DecodeModMX", "src/rme.c:RME_Op_Ext_0F", "src/ops_alu.c", "src/ops_misc.c", "src/ops_mov.c", "src/ops_stack.c", "src/ops_call.c"]}
{"id": "C87", "title": "Manual behaviour everywhere except on a written list", "statement": "On a memory without holes, every instruction (with at least twelve bytes of its code segment before it) falls under one of three cases: RME_RunOne leaves the processor in the state the x86 manuals prescribe for it, RME_RunOne refuses it with the error code that the list of refusals gives, or it is on a written list of exceptions: known departures from the manuals (32-bit offsets that leave the segment, wrapping 16-bit addresses, corner operands of SBB, rotates, SHLD/SHRD, IMUL and IDIV, operand-size prefix 66 on certain stack and control transfer instructions, ENTER with level 1, ...) and encodings the manuals do not define. The first two cases exclude each other, and no instruction on the list belongs to the first case.", "quantifier": "every opcode of both maps, every ModR/M and SIB byte, displacement and immediate, every prefix sequence, every register, flag and memory content, every port input and host service", "why_tests_cant": "That no encoding has been forgotten, neither in the instruction specifications nor in the lists, is a statement over all byte sequences in all machine states.", "anchors": ["src/rme.c:RME_RunOne", "src/rme.c:RME_Int_DoOpcode", "src/rme.c:RME_Int_DecodeModMX", "src/rme.c:RME_Op_Ext_0F", "src/ops_alu.c", "src/ops_misc.c", "src/ops_mov.c", "src/ops_stack.c", "src/ops_call.c", "src/ops_string.c", "src/ops_jump.c"]}
{"id": "C88", "title": "Whole runs follow the manuals up to the listed exceptions", "statement": "On a memory without holes, run any guest program for any number of instructions. The emulator executes all of them as the x86 manuals prescribe, or a first part of them, after which CS:IP stands at the return address FFFF:FFFF, at an instruction that RME_RunOne refuses with an error code, at an instruction of the written list of exceptions, at code without an instruction (repeated prefix, byte F1, end of the segment), or behind a 00 00. In particular an RME_Call or RME_CallInt that returns success has followed the manuals all the way to the return address, or has executed one of the listed exceptions on the way.", "quantifier": "every guest program, every number of instructions, every register, flag and memory content, every port input and host service", "why_tests_cant": "A test runs one program; this is about the executions of all programs, of any length.", "anchors": ["src/rme.c:RME_Call", "src/rme.c:RME_RunOne", "src/rme.c:RME_CallInt"]}
