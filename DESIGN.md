# A machine-checked model of thepowersgang/rme2 in Rocq (Coq 8.16.1)

rme2 is a real-mode x86 emulator library. A host program creates a state, installs 272 memory block
pointers and optional interrupt callbacks, and runs guest code with `RME_RunOne`, `RME_Call`, `RME_CallInt`.
All of `src/` that has run-time meaning is modelled; the properties are in `properties.jsonl`, the theorem
names per property in `MANIFEST.json` (generated by `mkmanifest.py` from the `Theorem Cnn_*` names).

## Layout (rocq/theories)

**Model** (each definition cites the lines of /repo it models)

| file | content |
|---|---|
| `Base.v`    | words, bit fields, machine state, outcome monad |
| `Cpu.v`     | memory access, instruction fetch, ModR/M and SIB decoding, stack primitives (`rme_internal.h`, `rme.c` 475-824) |
| `Alu.v`     | pure functions for every ALU macro (`ops_alu.h`) |
| `Ops.v`     | every opcode handler (`ops_*.c`, `prefixes.c`, `rme.c`) and the two opcode tables (`opcode_table.h`) |
| `Machine.v` | `RME_Int_DoOpcode`, `RME_RunOne`, `RME_Call`, `RME_int_CallInt`, `RME_CallInt`, `RME_CreateState` |
| `Trace.v`   | the disassembly text buffer (`RME_Int_DebugPrint`) |
| `TraceText.v` | everything a step prints: header, disassembly text of every handler, byte column, the error messages (`ERROR_S`) (`DEBUG_S` throughout, `RME_Int_DoOpcode`, `RME_RunOne`) |
| `TkLib.v`   | the test kernel: 64-bit division, memcpy/memset, heap, itoa/printf, memory map (`testkern/*.c`) |
| `TkMain.v`  | the test kernel: console (`putchar`, `puts`, `Debug_Init`), `main` (`testkern/debug.c`, `main.c`) |
| `Dump.v`    | `RME_DumpRegs` |
| `Native.v`  | the native tester: start-up from a floppy image, BIOS services INT 10h/12h/13h/16h, screen, key queue (`nativetest/src/main.c`) |
| `Native2.v` | DOS executables (`nativetest/src/dosexe.c`), the change report and exit codes of both testers, `mini_test.c`, `cmpmembin.c`, `cmpmem.c`, `cmpmemhex.c` |
| `Native3.v` | command lines of both testers, the choice of what to boot, the window (`DrawChar`, `Video_Redraw`, font, colours), the redraw timer as a two-thread transition system, register reports |

**Specification** (written from the x86 manuals / the English property; uses only the state record and the
elementary observations defined in `Spec.v`, never the model's decoder or handlers)

| file | content |
|---|---|
| `Spec.v` | linear addresses, bytes, registers, flags; `parse_rm` (16- and 32-bit effective addresses by the manual's tables); reference ALU and shift results; `fetched` (what is at CS:IP), `executes`, `stops` |
| `SpecOps.v`, `SpecOps2.v` | one decoder and one meaning function per instruction group: INC/DEC/NOT/NEG, shifts; MOV family, LEA, stack, jumps, calls, flags, conversions, port I/O |
| `SpecMul.v`, `SpecBcd.v`, `SpecStr.v`, `SpecDbl.v` | multiply/divide, decimal adjust, strings, SHLD/SHRD |
| `SpecSys.v` | interrupts, faults, host callbacks |
| `SpecRun.v`, `SpecTop.v` | whole runs: what no instruction may change, classes of opcodes, which UB which opcode may reach, isolation |
| `SpecLen.v` | instruction length |
| `SpecStop.v` | encodings that are refused |
| `SpecTrace.v` | the layout of a trace line; reading a shown operand back |
| `SpecNames.v` | mnemonics of the Intel manual, by opcode |
| `SpecOpers.v` | operands of the Intel manual's opcode map; what text shows an operand |
| `SpecDump.v` | hexadecimal text, the layout of a register dump |
| `SpecTkMain.v` | bytes sent to a port, the serial handshake, settings of an 8250, the test kernel's verdicts |
| `SpecTk.v` | numerals, printf formats, memory fills |
| `SpecNative.v` | a text terminal, floppy addressing, disk address packets, a bounded FIFO; what a service may change |
| `SpecNative3.v` | command lines as a grammar, decimal numbers, the picture of a text screen, register reports |
| `SpecNative2.v` | the DOS executable header, change reports, hex templates |
| `SpecCodes.v` | why the emulator stops |
| `SpecFoot.v` | which opcodes can change memory, flags, each segment and each register |
| `SpecIndep.v` | comparing two runs |
| `SpecStr2.v` | string instructions with prefix 67; successive port reads |
| `SpecIsa.v` | the reference machine: all instruction specifications as one transition system |
| `SpecProg.v` | guest programs and what they compute |
| `SpecEa.v` | the operand address the code really forms, for every ModR/M form (differs from the manual; C14, C48) |
| `SpecUb.v` | exactly when an instruction is undefined in C (C46) |

**Proofs**: `PBase PMem PRun PFrame PExec PStep` (arithmetic, flat memory, decoding, the frame of `RME_RunOne`,
automation); `PAlu PShift PFlags` (pure lemmas); `PI*` (one end-to-end theorem per instruction group);
`PKeep* PTop*` (invariants over all handlers), `PLen*` (instruction length), `PDebug` (trace does not matter),
`PIso` (relational walk for isolation), `PIsa` (the emulator refines the reference machine), `PProg` (guest programs), `PEa*` (operands at their real address), `PUb*` (exactly when an instruction is undefined), `PArgs* PBoot* PGui PReport` (the testers' command lines, start-up, window, reports), `PStop`, `PAlg`, `PSmall*` (lemmas behind particular properties), `Demo`
(concrete machines for non-vacuity).

**Theorems**: `Properties1.v` ... : the property theorems, each closed by a short appeal to a lemma, with
a concrete `Example` that meets its hypotheses and a `Print Assumptions`.

Suffixes: `_partial` = what holds where the full statement does not (or is not proved); `_refuted` = a proved
counterexample to the full English statement (a bug found in rme2).

## Modelling decisions

* **State.** `arch` (GPRs, segments, IP, FLAGS, CPU type, memory map, HLE table, host memory, port log), decoder
  scratch, debug level, instruction counter, "last instruction was 00 00" flag. The eight GPRs are one 256-bit
  integer because the code takes byte pointers into the register file and then accesses 16/32 bits through them
  (SHLD/SHRD). Sub-register reads and writes are bit fields of it.
* **Host memory** is `Z -> option Z`; `None` is an inaccessible byte. Dereferencing it is undefined behaviour.
* **Undefined behaviour is an outcome** (`UB reason`), never assumed away: memory-map index out of range, bad
  dereference, out-of-range shift count, signed multiplication overflow, overflowing signed division, use of an
  uninitialised ModR/M, `Seg(6|7)`, `masks[CPUType]` out of range, `InstrNum` overflow.
* **GNU C dialect** (the code relies on it): two's complement, little endian, unaligned and type-punned access
  works, `<<` of a signed value wraps, `>>` of a negative value is arithmetic, narrowing is modulo.
* **Build configuration** is a parameter: `null_check` (RME_DO_NULL_CHECK *as seen by rme_internal.h*) and
  `zero_null_ok`. In the shipped sources `null_check = false`: `rme.c:27` defines the macro after the header
  that tests it has already been included.
* **Host callbacks** are a parameter `callback : handle -> int -> st -> st` (assumed to return). **Port input** is
  an oracle of the port history. Every port access is appended to a log.
* **Loops.** The prefix loop and the REP loop carry fuel; exhaustion is a distinct outcome `Fuel`, proved
  unreachable for `RME_RunOne`. `RME_Call` (which need not terminate) takes explicit fuel.
* **Trace text** (`RME_Int_DebugPrint`) does not influence execution; it is modelled separately (C16).

"flat" in a theorem's hypotheses = a contiguous fully backed memory map (what every user of the library installs);
the whole-run properties (C02-C04, C07-C11, C15, C43, C46, C49) do not assume it unless the statement says so.

## Validation of the model

`Validate.v` runs the project's own test suite (`nativetest/RunArtlavTests`: 18 programs of
`Artlav_80186_tests`) inside the model: command line -> loading -> emulation until HLT -> dump -> `cmpmemhex` against the expected
memory in the program's comments. 17 pass, i.e. every result and FLAGS image the authors expect is what the model
computes. `datatrnf` fails because of the offset that is not wrapped at 64K (C14); the code at this commit computes the same
address. These are examples, not proofs, and serve to show that the model is the program.

## Not modelled

printf output of the emulator in undefined behaviour (the message of `Seg()`), and what callbacks print; `calloc` failure; the unused handler `RME_Op_PUSH_MX` (not in the table);
aliasing of guest memory with the state structure itself; reads of the uninitialised `srcOfs/destOfs` locals in the
string macros (only ever incremented, never used); everything in `nativetest/` and `testkern/` that is not
listed under "Layout". (`testkern/` defines no `vsnprintf`, which `rme_internal.h` needs: as it stands it does not link; the model
takes the emulator's printing there as an arbitrary sequence of port accesses.)

## Per property: what is proved and how

`S` = proved end to end about `RME_RunOne`; flat = contiguous memory map.

* C01 computation of `create_state`; C01 run: checked build only, shipped build refuted (NULL dereference).
* C02, C03 case analysis / induction on fuel. C04 fuel never exhausted; prefix automaton. C05, C06 S.
* C07, C08, C09, C10, C43 (log monotone): one compositional preservation framework over all handlers (`PKeep*`).
* C10 full statement false (a word store at the last byte of a block spills): refuted + partial with the exact slack.
* C11 false for the shipped build: refuted; proved for builds where the header sees the macro, for single accesses and
  (via `PIso`) for whole runs.
* C12, C13 algebra of bit fields / byte memory. C14 false (no 64K wrap, BP+SI/DI default segment, disp16 sign extension): refuted + partial;
  the exact address in every case (`SpecEa.v`), S for 8-, 16- and 32-bit operands; outside the map (C46) and at a block end (C50) too.
* C15 two-run commutation over all handlers (`PDebug`). C16 separate buffer model, induction over appended texts.
* C17-C22 pure lemma (result and flags against Spec) + generic operand lemma, S for all forms. C19, C22 have refuted flag cases.
* C23-C28 pure lemmas against repeated one-bit shifts / mathematical products and quotients, S. Several refuted corners.
* C29 BCD: finite sweeps over bytes lifted by `forallb_forall`, S.
* C30 CMP followed by Jcc, S (two steps). C31, C32 S, LOOP by induction on CX.
* C33-C38 S with flat stack; round trips as two-step theorems. C39, C40 induction over the REP loop. C41, C42 S.
* C44 induction on level; refuted for level 1. C45 a length framework over all handlers (`PLen*`), S for every opcode.
* C46 enumeration of every UB reason by opcode; refuted + partial; exact characterisation (iff) by case analysis over all opcodes with a
  "never undefined" predicate on handlers (`PUb*`). C47 refuted by witnesses, partial for the correct part.
* C48 32-bit addressing: spec table in `Spec.v` (`ea32`), all operand theorems cover it; refuted forms listed one by one.
* C49 relational (two-run) walk over all handlers (`PIso`).
* C50, C51 per-opcode evaluation up to the failing check, then `err_stops` (state unchanged), S.
* C52 loop invariant of the subtraction loop; exact characterisation (iff). C53 induction over the request list.
* C54 induction over the REP count, doublewords then bytes. C55 induction on digits + uniqueness of numerals.
* C56 induction over the format's items. C57 instance of C49 for the test kernel's map.
* C58 computation of the boot memory; instance of the HLE theorems (C37) with the tester's callbacks. C59 refinement of a
  terminal by screen memory, induction over texts. C60, C61 computation of each service on a symbolic state; C62 refinement
  of a FIFO, induction over histories.
* C63 loop invariants of the relocation and copy loops. C64 induction over the scan with the rewritten `prev` array. C65 induction
  over the template grammar. C66 induction over the run, C67. C67 an invariant over all handlers (`PCodes`): the codes each opcode
  can produce and that memory stays bytes, plus finite sweeps of the opcode tables.
* C68 an invariant over all handlers (`PPrecise`): every check precedes every effect. C69 effect sets per handler (`PFoot`), then finite
  sweeps of the tables. C70 a two-run walk over all handlers (`PIndep`), induction on the run length.
  C71 as C39/C40, with the 32-bit index registers (`PIStr2`).
* C72 forward simulation, induction on the number of instructions; the reference machine's undefined results are universally quantified.
  C73 loop invariant on the reference machine, transferred by C72.
* C74 the parser against a grammar (`writes`), both directions, induction on the arguments. C75 C74 + computation of the start memory.
  C76 induction over rows and columns; finite sweep of the font; invariant over all schedules; witness schedule for the refutation.
  C77 induction over the run.
* C78 fixed-width fields make concatenation injective. C79 induction over the text; the serial port is an arbitrary function of the history.
  C80 C53 + C54 + C56 + C79; the codes of RME_CallInt for every memory map by a walk over all handlers (`PDebug`, `PAnyCodes`; also C67).
* C81 induction on the number of steps; the byte column by C43's instruction length. C82 the shown text is parsed back by an independent reader and its value
  compared with C14_real_address, over all forms; length bounds over both opcode tables.
* C83 the handler's name is looked up in the manual's table: a sweep over the finite opcode maps (vm_compute inside a proof for all operands), then the text is assembled around it; PWarn.v walks all handlers to show that only string instructions clear the REP prefix, so the warning appears exactly for the others.
* C84 the handlers' texts by operand shape (one lemma per shape, a sweep over both maps picks them), each operand's text read back by the specification of C82; then the listed operands against the decoders of the instruction specifications.
* C86 SpecRefuse.v lists the refused instructions with their codes. PRefuse walks the handlers on a map without holes (an access is never refused, so an error can only come from the decoder of word operands, an empty vector, or an explicit check); PRefuse2 shows that every error of a handler is on the list (through the messages of C85 where one is printed) and, conversely, that everything on the list is refused. C86_verdict joins it with C46_exact.
* C87 SpecOutside.v lists the exceptions: instructions that are neither steps of the reference machine (SpecIsa.v) nor refusals (SpecRefuse.v). PWhole splits operand bytes off the code and decides the side conditions, PWhole2 proves one covering lemma per decoder, PWhole3 and PWhole4 one per opcode, PWhole5 checks by computation that the opcode groups contain all 256 first bytes and all defined second bytes. C87_emulator combines this with the soundness of the reference machine (isa_lands_g, C72) and with C86_refused. PTight to PTight4 show the converse, that no entry of SpecOutside.v is a step of the reference machine (C87_exceptions): PTight for the conditions on addresses, PTight2 opcode by opcode, PTight3 that two prefixes of the same code have the same operands, PTight4 the entries given by a decoder.
* C88 SpecWhole.v defines executions of the reference machine (follows) and the list of things that end them (leaves_reference). PRunAll decides whether a state has an instruction with twelve bytes before the segment end (find_instruction) and proves by induction that a run of n instructions follows the reference machine until it meets an entry of the list; C88_call and C88_call_int carry this to RME_Call and RME_CallInt; C88_end is the converse for errors (by determinism of run_one and C87_step).
* C85 SpecMsgs.v lists each message with the situation it reports; PMsgs–PMsgs7 show that the failing loop prints what the failing handler says, that every handler's message is one of the list for that instruction and state, and conversely that every situation of the list prints its message.

## Bugs of rme2 established by `_refuted` theorems

C01/C11 NULL check compiled out; C10 word at block end; C14 offset not wrapped, `[disp16]` sign-extended, BP+SI/BP+DI mod 0
segment; C15 trace re-reads with wrap; C19 SBB AF/OF/CF corners; C22 NEG AF; C23 ROL/ROR full turn CF; C24 SHL by width UB;
C25 SHLD/SHRD count and registers; C27 IMUL overflow UB, flags, 66; C28 IDIV32, INT_MIN/-1; C31 CALL SP; C44 ENTER 1;
C46 five kinds of UB; C47 CWDE, PUSH imm32, PUSH r/m32; C48 five forms; C52 exact multiples; C53 overflow; C54 memset pattern;
C55 base 10 above 2^32, width above 64; C56 %%; C57 FFFF:0010; C58 disk table, flags of a chained
service; C59 no scrolling, cursor unchecked (host array overrun), AH=09h column 25, AH=0Fh page in BL; C60 host array overrun, sector 0, counts
64/128/192; C61 failures reported as success, AH=15h; C63 SP of the header ignored, unchecked
relocations and sizes (host array overrun); C64 neighbouring change hidden, 4-byte copy at the last word; C65 truncated dump
passes, unspaced pairs; C66 oversized image and unknown CPU type exit 0; C68 ENTER with 66 and level >= 2 pushes BP and then fails; push and REP MOVS
on an unmapped block leave SP, CX changed; C71 REP with 67 counts in CX;
C74 missing values accepted, -bFILE; C75 missing image UB, failures exit 0; C76 refused event stops redraws, colour 3;
C77 first report; C78 FS, GS missing; C79 serial line never set up, dead port hangs, DLAB leaves interrupts on;
C81 the line of a divide fault shows neither text nor bytes but the announcement of interrupt 0, bytes re-read after execution; C82 text of 64 or more characters cut, `IN (ADxX)DX`, MOVZX source name; C83 MOVZX shown as MOV, 66-prefixed width-named instructions under their 16-bit names; C84 SHLD/SHRD with byte registers and source first, IN/OUT/LES/LDS source first, RET n/AAM/AAD without the number, PUSH imm8 as a 32-bit number;
C85 LEA/LxS with a register, a doubled prefix and invalid group members are refused silently.

## Trusted base

Coq 8.16.1's kernel (including `vm_compute`, used for concrete examples and finite sweeps); the reading of the C code
recorded in the comments; the modelling decisions above. `Print Assumptions` prints "Closed under the global context" for
every theorem: no axiom is used. (The libraries loaded with the standard library's ssreflect files contain the seven
parameters `Coq.ssr.ssrunder.Under_rel.*` of an opaque module; no theorem depends on them.)
