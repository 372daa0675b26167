(** The trace RME prints when DebugLevel is at least 1: src/rme.c:163-310 and every RME_Int_DebugPrint of the instruction handlers.
    The text of an instruction depends on its bytes, on CX before and after (string instructions) and on nothing else.  It is only printed
    when the instruction succeeds, so the texts of failing paths are not modelled.  The messages of ERROR_S (rme_internal.h:189-193,
    ERR_OUTPUT is 1 in rme_config.h:15), which are printed on errors at any DebugLevel, are below.  A handler is modelled by the concatenation of the texts it prints: what the 64-byte buffer then holds depends on
    nothing else (Trace.v, theorem trace_buffer). *)
From Coq Require Import String Ascii.
From Verif Require Import Base Cpu Alu Ops Machine Trace Dump.
Local Open Scope string_scope.
Local Open Scope Z_scope.

(** ** printf conversions: %s is the text itself, %0Nx is [fmt_x N] (Dump.v), %i of a non-negative int, %8i. *)
Definition ddigit (d : Z) : ascii := ascii_of_nat (Z.to_nat (48 + d)).
Fixpoint ddigits (n : nat) (v : Z) (acc : string) : string :=
  let acc' := String (ddigit (v mod 10)) acc in
  match n with O => acc' | S n' => if v / 10 =? 0 then acc' else ddigits n' (v / 10) acc' end.
Definition fmt_i (v : Z) : string := if v <? 0 then "-" ++ ddigits 19 (- v) "" else ddigits 19 v "".
Fixpoint blanks (n : nat) : string := match n with O => "" | S n' => String " " (blanks n') end.
Definition pad_i (width : nat) (v : Z) : string := let t := fmt_i v in blanks (width - String.length t) ++ t.

(** ** Names: rme_internal.h:372, 390, 401-402; opcode_table.h:32-35. *)
Definition name_of (l : list string) (n : Z) : string := nth (Z.to_nat n) l "".
Definition names_seg := ["ES"; "CS"; "SS"; "DS"; "FS"; "GS"].
Definition names_b := ["AL"; "CL"; "DL"; "BL"; "AH"; "CH"; "DH"; "BH"].
Definition names_d := ["EAX"; "ECX"; "EDX"; "EBX"; "ESP"; "EBP"; "ESI"; "EDI"].
Definition names_w := ["AX"; "CX"; "DX"; "BX"; "SP"; "BP"; "SI"; "DI"].
Definition ops_arith := ["ADD"; "OR"; "ADC"; "SBB"; "AND"; "SUB"; "XOR"; "CMP"].
Definition ops_misc := ["TEST"; "M1-"; "NOT"; "NEG"; "MUL"; "IMUL"; "DIV"; "IDIV"].
Definition ops_shift := ["ROL"; "ROR"; "RCL"; "RCR"; "SHL"; "SHR"; "SAL"; "SAR"].
Definition ops_unary := ["INC"; "DEC"; "CALL (NI)"; "CALL (FI)"; "JMP (NI)"; "JMP (FI)"; "PUSH"; "?"].
(** Name and Type of caOperations (opcode_table.h:47-118); None: no function. *)
Definition op_names : list (option (string * string)) :=
  let o a b := Some (a, b) in let u := None in
  [
   (* 00 *) o "ADD" "MR"; o "ADD" "MRX"; o "ADD" "RM"; o "ADD" "RMX"; o "ADD" "AI"; o "ADD" "AIX"; o "PUSH" "Seg"; o "POP" "Seg";
   (* 08 *) o "OR" "MR"; o "OR" "MRX"; o "OR" "RM"; o "OR" "RMX"; o "OR" "AI"; o "OR" "AIX"; o "PUSH" "Seg"; o "Ext" "0F";
   (* 10 *) o "ADC" "MR"; o "ADC" "MRX"; o "ADC" "RM"; o "ADC" "RMX"; o "ADC" "AI"; o "ADC" "AIX"; o "PUSH" "Seg"; o "POP" "Seg";
   (* 18 *) o "SBB" "MR"; o "SBB" "MRX"; o "SBB" "RM"; o "SBB" "RMX"; o "SBB" "AI"; o "SBB" "AIX"; o "PUSH" "Seg"; o "POP" "Seg";
   (* 20 *) o "AND" "MR"; o "AND" "MRX"; o "AND" "RM"; o "AND" "RMX"; o "AND" "AI"; o "AND" "AIX"; o "Ovr" "Seg"; o "DAA" "z";
   (* 28 *) o "SUB" "MR"; o "SUB" "MRX"; o "SUB" "RM"; o "SUB" "RMX"; o "SUB" "AI"; o "SUB" "AIX"; o "Ovr" "Seg"; o "DAS" "z";
   (* 30 *) o "XOR" "MR"; o "XOR" "MRX"; o "XOR" "RM"; o "XOR" "RMX"; o "XOR" "AI"; o "XOR" "AIX"; o "Ovr" "Seg"; o "AAA" "z";
   (* 38 *) o "CMP" "MR"; o "CMP" "MRX"; o "CMP" "RM"; o "CMP" "RMX"; o "CMP" "AI"; o "CMP" "AIX"; o "Ovr" "Seg"; o "AAS" "z";
   (* 40 *) o "INC" "Reg"; o "INC" "Reg"; o "INC" "Reg"; o "INC" "Reg"; o "INC" "Reg"; o "INC" "Reg"; o "INC" "Reg"; o "INC" "Reg";
   (* 48 *) o "DEC" "Reg"; o "DEC" "Reg"; o "DEC" "Reg"; o "DEC" "Reg"; o "DEC" "Reg"; o "DEC" "Reg"; o "DEC" "Reg"; o "DEC" "Reg";
   (* 50 *) o "PUSH" "Reg"; o "PUSH" "Reg"; o "PUSH" "Reg"; o "PUSH" "Reg"; o "PUSH" "Reg"; o "PUSH" "Reg"; o "PUSH" "Reg"; o "PUSH" "Reg";
   (* 58 *) o "POP" "Reg"; o "POP" "Reg"; o "POP" "Reg"; o "POP" "Reg"; o "POP" "Reg"; o "POP" "Reg"; o "POP" "Reg"; o "POP" "Reg";
   (* 60 *) o "PUSH" "A"; o "POP" "A"; u; u; o "Ovr" "Seg"; o "Ovr" "Seg"; o "Ovr" "OpSize"; o "Ovr" "AddrSize";
   (* 68 *) o "PUSH" "I"; o "IMUL" "MIX"; o "PUSH" "I8"; o "IMUL" "MI8X"; o "IN" "SB"; o "IN" "SW"; o "OUT" "SB"; o "OUT" "SW";
   (* 70 *) o "JO" "S"; o "JNO" "S"; o "JC" "S"; o "JNC" "S"; o "JZ" "S"; o "JNZ" "S"; o "JBE" "S"; o "JA" "S";
   (* 78 *) o "JS" "S"; o "JNS" "S"; o "JPE" "S"; o "JPO" "S"; o "JL" "S"; o "JGE" "S"; o "JLE" "S"; o "JG" "S";
   (* 80 *) o "Arith" "MI"; o "Arith" "MIX"; u; o "Arith" "MI8X"; o "TEST" "MR"; o "TEST" "MRX"; o "XCHG" "RM"; o "XCHG" "RMX";
   (* 88 *) o "MOV" "MR"; o "MOV" "MRX"; o "MOV" "RM"; o "MOV" "RMX"; o "MOV" "RS"; o "LEA" "z"; o "MOV" "SR"; o "POP" "MX";
   (* 90 *) o "XCHG" "Reg"; o "XCHG" "Reg"; o "XCHG" "Reg"; o "XCHG" "Reg"; o "XCHG" "Reg"; o "XCHG" "Reg"; o "XCHG" "Reg"; o "XCHG" "Reg";
   (* 98 *) o "CBW" "z"; o "CWD" "z"; o "CALL" "F"; u; o "PUSH" "F"; o "POP" "F"; o "Flag" "SAHF"; o "Flag" "LAHF";
   (* A0 *) o "MOV" "AMo"; o "MOV" "AMoX"; o "MOV" "MoA"; o "MOV" "MoAX"; o "MOV" "SB"; o "MOV" "SW"; o "CMP" "SB"; o "CMP" "SW";
   (* A8 *) o "TEST" "AI"; o "TEST" "AIX"; o "STO" "SB"; o "STO" "SW"; o "LOD" "SB"; o "LOD" "SW"; o "SCA" "SB"; o "SCA" "SW";
   (* B0 *) o "MOV" "RegB"; o "MOV" "RegB"; o "MOV" "RegB"; o "MOV" "RegB"; o "MOV" "RegB"; o "MOV" "RegB"; o "MOV" "RegB"; o "MOV" "RegB";
   (* B8 *) o "MOV" "Reg"; o "MOV" "Reg"; o "MOV" "Reg"; o "MOV" "Reg"; o "MOV" "Reg"; o "MOV" "Reg"; o "MOV" "Reg"; o "MOV" "Reg";
   (* C0 *) o "Shift" "MI"; o "Shift" "MI8X"; o "RET" "iN"; o "RET" "N"; o "LES" "z"; o "LDS" "z"; o "MOV" "MI"; o "MOV" "MIX";
   (* C8 *) o "ENTER" "z"; o "LEAVE" "z"; o "RET" "iF"; o "RET" "F"; o "INT" "3"; o "INT" "I"; o "INTO" "z"; o "IRET" "z";
   (* D0 *) o "Shift" "M1"; o "Shift" "M1X"; o "Shift" "MCl"; o "Shift" "MClX"; o "AAM" "z"; o "AAD" "z"; u; o "XLAT" "z";
   (* D8 *) u; u; u; u; u; u; u; u;
   (* E0 *) o "LOOPNZ" "S"; o "LOOPZ" "S"; o "LOOP" "S"; o "JCXZ" "S"; o "IN" "AI"; o "IN" "AIX"; o "OUT" "AI"; o "OUT" "AIX";
   (* E8 *) o "CALL" "N"; o "JMP" "N"; o "JMP" "F"; o "JMP" "S"; o "IN" "ADx"; o "IN" "ADxX"; o "OUT" "DxA"; o "OUT" "DxAX";
   (* F0 *) u; u; o "Prefix" "REPNZ"; o "Prefix" "REP"; o "HLT" "z"; o "Flag" "CMC"; o "ArithMisc" "MI"; o "ArithMisc" "MIX";
   (* F8 *) o "Flag" "CLC"; o "Flag" "STC"; o "Flag" "CLI"; o "Flag" "STI"; o "Flag" "CLD"; o "Flag" "STD"; o "Unary" "M"; o "Unary" "MX"].
(** ModRMNames: opcode_table.h, entries 80-83, C0-C1, D0-D3, F6-F7, FE-FF. *)
Definition sub_names (op : Z) : option (list string) :=
  if (op =? 128) || (op =? 129) || (op =? 131) then Some ops_arith
  else if (op =? 192) || (op =? 193) || ((208 <=? op) && (op <=? 211)) then Some ops_shift
  else if (op =? 246) || (op =? 247) then Some ops_misc
  else if (op =? 254) || (op =? 255) then Some ops_unary
  else None.
(** Name of caOperations0F: opcode_table.h:120 ff. *)
Definition op_names0F (b : Z) : option string :=
  if b =? 128 then Some "JO" else
  if b =? 129 then Some "JNO" else
  if b =? 130 then Some "JC" else
  if b =? 131 then Some "JNC" else
  if b =? 132 then Some "JZ" else
  if b =? 133 then Some "JNZ" else
  if b =? 134 then Some "JBE" else
  if b =? 135 then Some "JA" else
  if b =? 136 then Some "JS" else
  if b =? 137 then Some "JNS" else
  if b =? 138 then Some "JPE" else
  if b =? 139 then Some "JPO" else
  if b =? 140 then Some "JL" else
  if b =? 141 then Some "JGE" else
  if b =? 142 then Some "JLE" else
  if b =? 143 then Some "JG" else
  if b =? 160 then Some "PUSH" else
  if b =? 161 then Some "POP" else
  if b =? 164 then Some "SHLD" else
  if b =? 165 then Some "SHLD" else
  if b =? 168 then Some "PUSH" else
  if b =? 169 then Some "POP" else
  if b =? 172 then Some "SHRD" else
  if b =? 173 then Some "SHRD" else
  if b =? 175 then Some "IMUL" else
  if b =? 178 then Some "LSS" else
  if b =? 180 then Some "LFS" else
  if b =? 181 then Some "LGS" else
  if b =? 182 then Some "MOV" else
  if b =? 183 then Some "MOV" else
  if b =? 186 then Some "BTx" else
  if b =? 188 then Some "BSF" else
  None.

(** ** What the texts depend on: the prefixes seen (None: no override) and CX before and after the instruction. *)
Record tctx : Type := mkX { x_seg : option Z; x_os : bool; x_as : bool; x_rep : Z; x_cx : Z; x_cx' : Z }.
(** A text maker reads instruction bytes and prints. *)
Definition maker := list Z -> option (string * list Z).
Definition say (t : string) : maker := fun l => Some (t, l).
Definition then_ (f g : maker) : maker := fun l =>
  match f l with
  | Some (a, l1) => match g l1 with Some (b, l2) => Some (a ++ b, l2) | None => None end
  | None => None
  end.
Infix ">>" := then_ (at level 55, right associativity).
(** READ_INSTR8, READ_INSTR16, READ_INSTR32 (rme_internal.h:230-266) *)
Definition r8 (f : Z -> string) : maker := fun l => match l with b :: r => Some (f b, r) | [] => None end.
Definition r16 (f : Z -> string) : maker := fun l => match l with a :: b :: r => Some (f (a + 256 * b), r) | _ => None end.
Definition r32 (f : Z -> string) : maker := fun l =>
  match l with a :: b :: c :: d :: r => Some (f (a + 256 * b + 65536 * c + 16777216 * d), r) | _ => None end.
(** READ_INSTR8S into a 16- or 32-bit variable *)
Definition sx (w b : Z) : Z := if b <? 128 then b else 2 ^ w - 256 + b.
Definition hex (n : nat) (v : Z) : string := " 0x" ++ fmt_x n v.
Definition imm8 : maker := r8 (hex 2).
Definition immx (x : tctx) : maker := if x_os x then r32 (hex 8) else r16 (hex 4).
(** Seg, RegB, RegW: rme_internal.h:370-405 *)
Definition seg_t (n : Z) : string := " " ++ name_of names_seg n.
Definition regb_t (n : Z) : string := " " ++ name_of names_b n.
Definition regw_t (x : tctx) (n : Z) : string := " " ++ name_of (if x_os x then names_d else names_w) n.
Definition acc_t (x : tctx) : string := if x_os x then " EAX" else " AX".
(** GET_SEGMENT: rme_internal.h:270 *)
Definition dseg_t (x : tctx) : string := seg_t (match x_seg x with Some n => n | None => 3 end).

(** ** Memory operands: DoFunc, DoFunc32, RME_Int_GetMMM (rme.c:483-738) *)
Definition base16 (m : Z) : string := name_of ["BX+SI"; "BX+DI"; "BP+SI"; "BP+DI"; "SI"; "DI"; "BP"; "BX"] m.
(** the %x of an int16_t argument: promoted to int *)
Definition disp16_t (v : Z) : string := fmt_x 0 (if v <? 32768 then v else 4294901760 + v).
(** rme.c:490-504, 571-587 *)
Definition open_t (x : tctx) (md m : Z) : string :=
  seg_t (match x_seg x with Some n => n | None => if negb (md =? 0) && ((m =? 2) || (m =? 3) || (m =? 6)) then 2 else 3 end) ++ ":[".
(** SIB byte: rme.c:605-645; [md0]: mod = 0, where base 5 stands for a displacement that is read but not shown *)
Definition sib_t (md0 : bool) (dsp : string) : maker := fun l =>
  match l with
  | sib :: r =>
    let i := (sib / 8) mod 8 in let b := sib mod 8 in
    let t := (if i =? 4 then "EIZ" else name_of names_d i) ++ "*" ++ fmt_i (2 ^ (sib / 64)) in
    if md0 && (b =? 5) then r32 (fun _ => t ++ dsp ++ "]") r else Some (t ++ "+" ++ name_of names_d b ++ dsp ++ "]", r)
  | [] => None
  end.
Definition mem_t (x : tctx) (md m : Z) : maker :=
  if x_as x then
    if md =? 0 then
      if m =? 4 then say (open_t x md m) >> sib_t true ""
      else if m =? 5 then r32 (fun v => open_t x md m ++ "0x" ++ fmt_x 0 v ++ "]")
      else say (open_t x md m ++ name_of names_d m ++ "]")
    else fun l =>
      match (if md =? 1 then r8 (fun v => "+0x" ++ fmt_x 0 (sx 16 v)) else r32 (fun v => "+0x" ++ fmt_x 0 (v mod 65536))) l with
      | Some (dsp, r) =>
        if m =? 4 then (say (open_t x md m) >> sib_t false dsp) r
        else Some (open_t x md m ++ name_of names_d m ++ dsp ++ "]", r)
      | None => None
      end
  else
    if md =? 0 then
      if m =? 6 then r16 (fun v => open_t x md m ++ "0x" ++ (if v <? 32768 then fmt_x 4 v else disp16_t v) ++ "]")
      else say (open_t x md m ++ base16 m ++ "]")
    else
      (if md =? 1 then r8 (fun v => open_t x md m ++ base16 m ++ "+0x" ++ disp16_t (sx 16 v) ++ "]")
       else r16 (fun v => open_t x md m ++ base16 m ++ "+0x" ++ disp16_t v ++ "]")).
(** RME_Int_DecodeModM, RME_Int_DecodeModMX: rme.c:740-778 *)
Definition rm_t (x : tctx) (wide : bool) (b : Z) : maker :=
  if b / 64 =? 3 then say (if wide then regw_t x (b mod 8) else regb_t (b mod 8)) else mem_t x (b / 64) (b mod 8).
(** Which register text accompanies the operand: none, before it, or after it. *)
Inductive regpos : Type := NoReg | Before | After.
(** RME_Int_ParseModRM, RME_Int_ParseModRMX (rme.c:786-829): [wr] width of the register text, [wm] of the operand text *)
Definition modrm_t2 (x : tctx) (wr wm : bool) (pos : regpos) : maker := fun l =>
  match l with
  | b :: r =>
    let rt := if wr then regw_t x ((b / 8) mod 8) else regb_t ((b / 8) mod 8) in
    match pos with
    | NoReg => rm_t x wm b r
    | Before => (say rt >> rm_t x wm b) r
    | After => (rm_t x wm b >> say rt) r
    end
  | [] => None
  end.
Definition modrm_t (x : tctx) (wide : bool) (pos : regpos) : maker := modrm_t2 x wide wide pos.
(** MOV r/m,sreg and MOV sreg,r/m (ops_mov.c:211-259): the byte is peeked first *)
Definition mov_seg_t (x : tctx) (from : bool) : maker := fun l =>
  match l with
  | b :: r => let sg := seg_t ((b / 8) mod 8) in if from then (rm_t x true b >> say sg) r else (say sg >> rm_t x true b) r
  | [] => None
  end.
(** TEST (F6/F7 /0) has an immediate, the other forms do not: ops_alu.c:162-178 *)
Definition misc_t (x : tctx) (wide : bool) : maker := fun l =>
  match l with
  | b :: _ => (modrm_t x wide NoReg >> (if (b / 8) mod 8 =? 0 then (if wide then immx x else imm8) else say "")) l
  | [] => None
  end.
(** STRING_HEAD and STRING_FOOTER: ops_string.c:13-89 *)
Definition str_t (x : tctx) (di si : bool) (before after : string) : maker :=
  say (before
    ++ (if di then seg_t 0 ++ (if x_as x then ":[EDI]" else ":[DI]") else "")
    ++ (if si then dseg_t x ++ (if x_as x then ":[ESI]" else ":[SI]") else "")
    ++ after
    ++ (if x_rep x =? 0 then "" else
        " (max 0x" ++ fmt_x 0 (x_cx x) ++ " times)"
        ++ (if x_cx x =? 0 then "" else " (" ++ fmt_i (x_cx' x) ++ " skipped)"))).
(** moffs operands: ops_mov.c:116-209 *)
Definition moffs_t (x : tctx) : maker :=
  say (dseg_t x) >> (if x_as x then r32 (fun v => ":[0x" ++ fmt_x 0 v ++ "]") else r16 (fun v => ":[0x" ++ fmt_x 0 v ++ "]")).
Definition rel16 : maker := r16 (fun v => " .+0x" ++ fmt_x 4 v).
Definition far_t : maker := fun l =>
  match l with a :: b :: c :: d :: r => Some (" 0x" ++ fmt_x 4 (c + 256 * d) ++ ":" ++ fmt_x 4 (a + 256 * b), r) | _ => None end.

(** ** The handlers behind 0F *)
Definition handler0F (x : tctx) (op : Z) : maker :=
  if (128 <=? op) && (op <=? 143) then rel16                                           (* Jcc: ops_jump.c:18-27 *)
  else if (op =? 160) || (op =? 161) then say (seg_t 4)                                (* PUSH/POP FS: ops_stack.c:10-24 *)
  else if (op =? 168) || (op =? 169) then say (seg_t 5)
  else if (op =? 164) || (op =? 172) then modrm_t x false Before >> r8 (fun v => " " ++ fmt_i v)  (* SHLD, SHRD imm: ops_alu.c:583-632 *)
  else if (op =? 165) || (op =? 173) then modrm_t x false Before >> say " CL"          (* ops_alu.c:600-649 *)
  else if op =? 175 then modrm_t x true Before                                         (* IMUL: ops_alu.c:407-430 *)
  else if (op =? 178) || (op =? 180) || (op =? 181) then modrm_t x true After          (* LSS LFS LGS: ops_misc.c:188-222 *)
  else if op =? 182 then modrm_t2 x true false Before                                  (* MOVZX r/m8: ops_mov.c:298-318 *)
  else if op =? 183 then modrm_t x true Before                                         (* MOVZX r/m16: ops_mov.c:319-340 *)
  else if op =? 188 then modrm_t x true Before                                         (* BSF: ops_misc.c:19-42 *)
  else say "".
(** ** The handlers of the one-byte opcodes; prefixes are handled in [text] *)
Definition handler (x : tctx) (op : Z) : maker :=
  if op =? 15 then fun l =>                                                            (* rme.c:312-325 *)
    match l with
    | b :: r => match op_names0F b with Some n => (say (" " ++ n) >> handler0F x b) r | None => None end
    | [] => None
    end
  else if op <? 64 then                                                                (* ops_alu.c:21-118 *)
    let k := op mod 8 in
    if k =? 0 then modrm_t x false After else if k =? 1 then modrm_t x true After
    else if k =? 2 then modrm_t x false Before else if k =? 3 then modrm_t x true Before
    else if k =? 4 then say " AL" >> imm8 else if k =? 5 then say (acc_t x) >> immx x
    else if op <? 32 then say (seg_t (op / 8))                                         (* PUSH/POP sreg *)
    else say ""                                                                        (* DAA DAS AAA AAS *)
  else if op <? 96 then say (regw_t x (op mod 8))                                      (* INC DEC PUSH POP reg: ops_alu.c:272-306, ops_stack.c:26-44 *)
  else if op =? 104 then r16 (hex 4)                                                   (* PUSH imm16: ops_stack.c:130-140 *)
  else if op =? 105 then modrm_t x true Before >> r16 (hex 4)                          (* IMUL: ops_alu.c:380-405 *)
  else if op =? 106 then r8 (fun v => hex 2 (sx 32 v))                                 (* PUSH imm8: ops_stack.c:142-153 *)
  else if op =? 107 then modrm_t x true Before >> r8 (fun v => hex 4 (sx 16 v))        (* IMUL imm8: ops_alu.c:352-378 *)
  else if (op =? 108) || (op =? 109) then str_t x true false "" " DX"                  (* INS: ops_string.c:314-355 *)
  else if (op =? 110) || (op =? 111) then str_t x false true " DX" ""                  (* OUTS: ops_string.c:357-398 *)
  else if (112 <=? op) && (op <=? 127) then r8 (fun v => " .+0x" ++ fmt_x 4 (sx 16 v)) (* Jcc: ops_jump.c:9-16 *)
  else if op =? 128 then modrm_t x false NoReg >> imm8                                 (* ops_alu.c:180-201 *)
  else if op =? 129 then modrm_t x true NoReg >> immx x                                (* ops_alu.c:203-236 *)
  else if op =? 131 then                                                               (* ops_alu.c:238-270 *)
    modrm_t x true NoReg >> r8 (fun v => if x_os x then hex 8 (sx 32 v) else hex 4 (sx 16 v))
  else if (op =? 132) || (op =? 136) then modrm_t x false After                        (* TEST, MOV MR: ops_mov.c:13-23 *)
  else if (op =? 133) || (op =? 137) then modrm_t x true After
  else if (op =? 134) || (op =? 138) then modrm_t x false Before                       (* XCHG, MOV RM *)
  else if (op =? 135) || (op =? 139) then modrm_t x true Before
  else if op =? 140 then mov_seg_t x true else if op =? 142 then mov_seg_t x false
  else if op =? 141 then modrm_t x true Before                                         (* LEA: ops_misc.c:250-275 *)
  else if op =? 143 then modrm_t x true NoReg                                          (* POP r/m: ops_stack.c:117-128 *)
  else if op =? 144 then say " - NOP"                                                  (* XCHG: ops_mov.c:370-390 *)
  else if (145 <=? op) && (op <=? 151) then say (acc_t x ++ regw_t x (op mod 8))
  else if op =? 154 then far_t                                                         (* CALL far: ops_call.c:21-34 *)
  else if op =? 160 then say " AL" >> moffs_t x
  else if op =? 161 then say (acc_t x) >> moffs_t x
  else if op =? 162 then moffs_t x >> say " AL"
  else if op =? 163 then moffs_t x >> say (acc_t x)
  else if (164 <=? op) && (op <=? 167) then str_t x true true "" ""                    (* MOVS CMPS *)
  else if op =? 168 then say " AL" >> imm8 else if op =? 169 then say (acc_t x) >> immx x
  else if op =? 170 then str_t x true false "" " AL"                                   (* STOS LODS SCAS: ops_string.c:134-312 *)
  else if op =? 171 then str_t x true false "" (acc_t x)
  else if op =? 172 then str_t x false true " AL" ""
  else if op =? 173 then str_t x false true (acc_t x) ""
  else if op =? 174 then str_t x true false "" ""
  else if op =? 175 then str_t x true false "" (acc_t x)
  else if (176 <=? op) && (op <=? 183) then r8 (fun v => regb_t (op mod 8) ++ hex 2 v) (* MOV reg,imm: ops_mov.c:262-296 *)
  else if (184 <=? op) && (op <=? 191) then
    if x_os x then r32 (fun v => regw_t x (op mod 8) ++ hex 8 v) else r16 (fun v => regw_t x (op mod 8) ++ hex 4 v)
  else if op =? 192 then modrm_t x false NoReg >> imm8                                 (* shifts: ops_alu.c:432-577 *)
  else if op =? 193 then modrm_t x true NoReg >> imm8
  else if (op =? 194) || (op =? 202) then r16 (fun _ => "")                            (* RET imm16: ops_call.c:55-80 *)
  else if (op =? 196) || (op =? 197) then modrm_t x true After                         (* LES LDS *)
  else if op =? 198 then modrm_t x false NoReg >> imm8                                 (* MOV r/m,imm: ops_mov.c:78-114 *)
  else if op =? 199 then modrm_t x true NoReg >> immx x
  else if op =? 200 then r16 (hex 4) >> r8 (fun v => " " ++ fmt_i (v mod 32))          (* ENTER: ops_call.c:82-93 *)
  else if op =? 205 then r8 (fun v => " 0x" ++ fmt_x 0 v)                              (* INT: ops_call.c:196-202 *)
  else if op =? 208 then modrm_t x false NoReg >> say " 1" else if op =? 209 then modrm_t x true NoReg >> say " 1"
  else if op =? 210 then modrm_t x false NoReg >> say " CL" else if op =? 211 then modrm_t x true NoReg >> say " CL"
  else if (op =? 212) || (op =? 213) then r8 (fun _ => "")                             (* AAM AAD: ops_misc.c:88-107 *)
  else if op =? 215 then say (" AL," ++ dseg_t x ++ (if x_as x then ":[EBX+AL]" else ":[BX+AL]"))   (* XLAT: ops_misc.c:277-302 *)
  else if (224 <=? op) && (op <=? 227) then r8 (fun v => " .+0x" ++ fmt_x 2 (sx 16 v)) (* LOOPx JCXZ: ops_jump.c:80-137 *)
  else if op =? 228 then r8 (fun v => hex 2 v ++ " AL") else if op =? 229 then r8 (fun v => hex 2 v ++ acc_t x)   (* IN: ops_io.c *)
  else if op =? 230 then r8 (fun v => " AL" ++ hex 2 v) else if op =? 231 then r8 (fun v => acc_t x ++ hex 2 v)   (* OUT *)
  else if (op =? 232) || (op =? 233) then rel16                                        (* CALL, JMP near *)
  else if op =? 234 then far_t
  else if op =? 235 then r8 (fun v => " .+0x" ++ fmt_x 2 (sx 16 v))
  else if op =? 236 then say " DX AL" else if op =? 237 then say (if x_os x then " DX EAX" else "DX AX")
  else if op =? 238 then say " AL DX" else if op =? 239 then say (if x_os x then " EAX DX" else " AX DX")
  else if op =? 246 then misc_t x false else if op =? 247 then misc_t x true
  else if op =? 254 then modrm_t x false NoReg else if op =? 255 then modrm_t x true NoReg   (* rme.c:327-471 *)
  else say "".
(** Name shown for an opcode: rme.c:239-251 *)
Definition op_text (op : Z) (l : list Z) : option string :=
  match nth (Z.to_nat op) op_names None with
  | Some (n, ty) =>
    match sub_names op with
    | Some ns => match l with b :: _ => Some (name_of ns ((b / 8) mod 8) ++ " (" ++ ty ++ ")") | [] => None end
    | None => Some (n ++ " (" ++ ty ++ ")")
    end
  | None => None
  end.
(** Prefix handlers (prefixes.c): the text they add and the context they leave. *)
Definition prefix_t (x : tctx) (op : Z) : option (string * tctx) :=
  let sg n := Some (seg_t n, mkX (Some n) (x_os x) (x_as x) (x_rep x) (x_cx x) (x_cx' x)) in
  if op =? 38 then sg 0 else if op =? 46 then sg 1 else if op =? 54 then sg 2 else if op =? 62 then sg 3
  else if op =? 100 then sg 4 else if op =? 101 then sg 5
  else if op =? 102 then Some (" <OPER>", mkX (x_seg x) true (x_as x) (x_rep x) (x_cx x) (x_cx' x))
  else if op =? 103 then Some (" <ADDR>", mkX (x_seg x) (x_os x) true (x_rep x) (x_cx x) (x_cx' x))
  else if (op =? 242) || (op =? 243) then Some ("", mkX (x_seg x) (x_os x) (x_as x) op (x_cx x) (x_cx' x))
  else None.
(** The do loop of RME_Int_DoOpcode (rme.c:224-254), texts only; [acc] is what DebugString holds, and the same bound on the
    number of passes as [op_loop].  (The separator depends on DebugStringLen, which is 0 exactly as long as nothing was printed.) *)
Fixpoint text (fuel : nat) (x : tctx) (acc : string) (l : list Z) : option (string * list Z) :=
  match fuel, l with
  | S fuel', op :: r =>
    match op_text op r with
    | Some n =>
      let acc' := acc ++ (if (String.length acc =? 0)%nat then "" else " ") ++ n in
      match prefix_t x op with
      | Some (t, x') => text fuel' x' (acc' ++ t) r
      | None => match handler x op r with Some (t, r') => Some (acc' ++ t, r') | None => None end
      end
    | None => None
    end
  | _, _ => None
  end.
(** What %s of DebugString shows (Trace.v: [shown], theorem trace_buffer). *)
Definition cut (t : string) : string := if (String.length t <? 64)%nat then t else substring 0 62 t ++ "$".

(** ** The lines *)
Section WithEnv.
Context (E : env).
(** A byte RME_Int_Read8 delivers in state [s]. *)
Definition peek (s : st) (cs ip : Z) : Z := match rd E 8 cs ip s with Ok b _ => b | _ => 0 end.
(** The instruction stream from CS:IP on; 20 bytes exceed every instruction that is accepted (at most 4 prefixes, C04). *)
Definition window (s : st) : list Z := map (fun i => peek s (r_cs (ar s)) (wrap 16 (r_ip (ar s) + Z.of_nat i))) (seq 0 20).
(** rme.c:221-223; InstrNum has just been increased *)
Definition header (s : st) : string :=
  "(" ++ pad_i 8 (icount s + 1) ++ ") [0x" ++ fmt_x 0 (r_cs (ar s) * 16 + r_ip (ar s)) ++ "] "
  ++ fmt_x 4 (r_cs (ar s)) ++ ":" ++ fmt_x 4 (r_ip (ar s)).
(** rme.c:300-307: the bytes of the instruction, read again *)
Fixpoint bytes_text (n : nat) (s' : st) (cs i : Z) : string :=
  match n with O => "" | S n' => " " ++ fmt_x 2 (peek s' cs i) ++ bytes_text n' s' cs (wrap 16 (i + 1)) end.
(** The opcode that ended the loop: the first byte that is no prefix. *)
Fixpoint last_opcode (l : list Z) : Z :=
  match l with b :: r => if existsb (Z.eqb b) [38; 46; 54; 62; 100; 101; 102; 103; 242; 243] then last_opcode r else b | [] => 0 end.
Definition tab : string := String (ascii_of_nat 9) "".
Definition ctx0 (s s' : st) : tctx := mkX None false false 0 (getf 32 16 (gprs (ar s))) (getf 32 16 (gprs (ar s'))).
(** DebugString after the instruction: rme.c:216-254 *)
Definition debug_string (s s' : st) : string :=
  match text 6 (ctx0 s s') "" (window s) with Some (t, _) => cut t | None => "" end.
(** rme.c:259-310 after a successful instruction; [s'] is the state it leaves *)
Definition rest_of_line (s s' : st) : string :=
  (if d_rep (dc s') =? 0 then "" else
   " Prefix 0x" ++ fmt_x 2 (d_rep (dc s')) ++ " used with wrong opcode 0x" ++ fmt_x 2 (last_opcode (window s)))
  ++ " " ++ debug_string s s' ++ tab ++ ";" ++ bytes_text (Z.to_nat (d_ipoff (dc s'))) s' (r_cs (ar s)) (r_ip (ar s)) ++ newline.
(** ** Messages: ERROR_S of the handlers, printed at any DebugLevel just before the handler returns an error *)
Definition place_t (s : st) : string := fmt_x 4 (r_cs (ar s)) ++ ":" ++ fmt_x 4 (r_ip (ar s)).
(** RME_Int_DecodeModMX: rme.c:769-773; [s]: the state in which the handler calls RME_Int_ParseModRMX *)
Definition straddle_t (s : st) : string :=
  match get_modrm E s with
  | Ok m s1 =>
    if m_mod m =? 3 then "" else
    match get_mmm E m s1 with
    | Ok so _ =>
      let x := wrap 32 (fst so * 16 + snd so) in
      if x mod 4096 =? 4095
      then fmt_x 0 (r_cs (ar s)) ++ ":" ++ fmt_x 0 (r_ip (ar s)) ++ " Word read across boundary (0x" ++ fmt_x 0 x ++ ")"
      else ""
    | _ => ""
    end
  | _ => ""
  end.
(** _CallInterrupt: ops_call.c:166-169 *)
Definition ivt_t (num : Z) (s : st) : string :=
  match rd E 16 0 (num * 4) s, rd E 16 0 (num * 4 + 2) s with
  | Ok 0 _, Ok 0 _ => " Caught attempt to execute IVT pointing to 0000:0000"
  | _, _ => ""
  end.
(** What handler [o] called with Param [p] in state [s] printed when it returned the error [c]: rme.c:345-347 (Unary_M), 361-364
    (RME_Int_ParseModRMX_FarPtr), 406-408 and 466-468 (Unary_MX); ops_alu.c:360-364, 388-392, 415-419 (IMUL); ops_call.c:104-107 (ENTER),
    166-169 (interrupts); every other word handler with a ModR/M byte goes through RME_Int_DecodeModMX.  The messages of the default cases
    of ALU_SELECT_OPERATION, SHIFT_SELECT_OPERATION, _READIMM, MISC_SELECT_OPERATION, DoFunc, DoFunc32 and RME_Int_GetMMM are unreachable;
    that of Seg() precedes undefined behaviour. *)
Definition complaint1 (o : opid) (p c : Z) (s : st) : string :=
  let bad := c =? E_BADMEM in let und := c =? E_UNDEF in
  let word := if bad then straddle_t s else "" in
  let unary t := " - Unary " ++ t ++ " /" ++ fmt_i p ++ " unimplemented" ++ newline in
  let imul := if c =? E_BUG then "IMUL (MIX) OvrSize Unimpl" else word in
  match o with
  | OUnaryM => if und then unary "M" else ""
  | OUnaryMX =>
    if d_op (dc s) then if und then unary "MX (32)" else word
    else if (p =? 3) || (p =? 5) then if und then " - Reading a far pointer w/ mod=3" else ""
    else if und then unary "MX (16)" else word
  | OImulMI8X | OImulMIX | OImulRMX => imul
  | OEnter => if und then "- ENTER Operand Override unimplimented" else ""
  | OInt3 => if bad then ivt_t 3 s else ""
  | OInto => if bad then ivt_t 4 s else ""
  | OIntI => if bad then match fetch8 E s with Ok n s1 => ivt_t n s1 | _ => "" end else ""
  | OAlu _ F_MRX | OAlu _ F_RMX | OArithMIX | OArithMI8X | OMiscMIX | OShiftMI8X | OShiftM1X | OShiftMClX
  | OBtx | OMovMRX | OMovRMX | OMovMIX | OMovRS | OMovSR | OMovZX | OXchgRMX | OPopMX | OBsf => word
  | _ => ""
  end.
(** RME_Op_Ext_0F: rme.c:317-321 *)
Definition complaint (o : opid) (p c : Z) (s : st) : string :=
  match o with
  | OExt0F =>
    match fetch8 E s with
    | Ok b s1 => match ca_op0F b with None => " Unkown Opcode 0x0F 0x" ++ fmt_x 2 b | Some e => complaint1 (e_op e) (e_arg e) c s1 end
    | _ => ""
    end
  | _ => complaint1 o p c s
  end.
(** The do loop of RME_Int_DoOpcode when it fails: rme.c:228-237 and the handlers *)
Fixpoint loop_complaint (fuel : nat) (s : st) : string :=
  match fuel with
  | O => ""
  | S fuel' =>
    match fetch8 E s with
    | Ok b s1 =>
      if b =? 241 then " Executing unset memory (opcode 0xF1) " ++ place_t s else
      match ca_op b with
      | None => " Unkown Opcode 0x" ++ fmt_x 2 b
      | Some e =>
        match op_param E e s1 with
        | Ok p s2 =>
          match exec E (e_op e) p s2 with
          | Err c s3 => if c =? E_CONTINUE then loop_complaint fuel' s3 else complaint (e_op e) p c s2
          | _ => ""
          end
        | _ => ""
        end
      end
    | _ => ""
    end
  end.
(** The byte column up to the byte that cannot be read: rme.c:302-306 *)
Fixpoint bytes_until (n : nat) (s' : st) (cs i : Z) : string :=
  match n with
  | O => ""
  | S n' => match rd E 8 cs i s' with Ok b _ => " " ++ fmt_x 2 b ++ bytes_until n' s' cs (wrap 16 (i + 1)) | _ => "" end
  end.
Definition warning_t (s s' : st) : string :=
  if d_rep (dc s') =? 0 then "" else " Prefix 0x" ++ fmt_x 2 (d_rep (dc s')) ++ " used with wrong opcode 0x" ++ fmt_x 2 (last_opcode (window s)).
(** The state in which the do loop starts: rme.c:207-218 *)
Definition reset (s : st) : st := set_icount (icount s + 1) (set_dc dec0 s).
(** What a failing RME_Int_DoOpcode prints behind the place: a message of the loop; or, when the instruction itself succeeded but the
    00 00 detector or the byte column failed, the part of the line before that. *)
Definition error_text (s : st) : string :=
  match op_loop E 6 (reset s) with
  | Err _ _ => loop_complaint 6 (reset s)
  | Ok _ s1 =>
    if dbg s <? 1 then "" else
    warning_t s s1 ++
    match bind advance_ip (fun _ => null_hack E (r_cs (ar s)) (r_ip (ar s))) s1 with
    | Ok _ s2 => " " ++ debug_string s s2 ++ tab ++ ";" ++ bytes_until (Z.to_nat (d_ipoff (dc s2))) s2 (r_cs (ar s)) (r_ip (ar s))
    | _ => ""
    end
  | _ => ""
  end.
(** RME_int_CallInt: rme.c:106-108 (%x of the int) and 110-113 *)
Definition callint_t (num : Z) (s : st) : string :=
  (if 0 <? dbg s then "RM_Int: Calling Int 0x" ++ fmt_x 0 (wrap 32 num) ++ newline else "")
  ++ (if (num <? 0) || (255 <? num) then "WARNING: " ++ fmt_i num ++ " is not a valid interrupt number" else "").
(** What one RME_RunOne prints (rme.c:163-310), whatever it returns: the dump, the place, then the line, or a message; after a divide error
    that of RME_int_CallInt.  What callbacks print is not modelled; undefined behaviour ends the text. *)
Definition run_prints (s : st) : string :=
  let ip := r_ip (ar s) in let cs := r_cs (ar s) in
  (if 2 <=? dbg s then dump_regs (ar s) else "")
  ++ (if (ip =? 65535) && (cs =? 65535) then "" else if (cs =? 47104) && (ip <? 256) then "" else
      (if dbg s <? 1 then "" else header s)
      ++ match do_opcode E s with
         | Ok _ s' => if dbg s <? 1 then "" else rest_of_line s s'
         | Err c _ => error_text s ++ (if c =? E_DIVERR then callint_t 0 s else "")   (* an instruction that divides does not write DebugLevel *)
         | _ => ""
         end).
(** What [n] calls of RME_RunOne print, stopping at the first that does not return 0. *)
Fixpoint trace (n : nat) (s : st) : string :=
  match n with
  | O => ""
  | S n' => run_prints s ++ match run_one E s with Ok _ s' => trace n' s' | _ => "" end
  end.
(** What RME_CallInt prints (rme.c:131-142); [n] bounds the RME_RunOne calls of RME_Call. *)
Definition call_int_prints (n : nat) (num : Z) (s : st) : string :=
  let s0 := set_ar (a_ip 65535 (a_cs 65535 (ar s))) s in
  callint_t num s0 ++ match int_callint E num s0 with Ok _ s1 => trace n s1 | _ => "" end.
End WithEnv.
