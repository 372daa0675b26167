(** Instruction names, from the Intel manual: for each mnemonic the opcodes it stands for. *)
From Coq Require Import String Ascii.
From Verif Require Import Base Spec SpecDump SpecTrace.
Local Open Scope string_scope.
Local Open Scope Z_scope.
Local Open Scope list_scope.

Definition from_to (a b : Z) : list Z := map (fun i => a + Z.of_nat i) (seq 0 (Z.to_nat (b - a + 1))).
(** One-byte opcodes without an operation in the ModR/M byte.  Synonyms are listed as separate entries. *)
Definition manual : list (string * list Z) :=
  [("ADD", from_to 0x00 0x05); ("OR", from_to 0x08 0x0D); ("ADC", from_to 0x10 0x15); ("SBB", from_to 0x18 0x1D);
   ("AND", from_to 0x20 0x25); ("SUB", from_to 0x28 0x2D); ("XOR", from_to 0x30 0x35); ("CMP", from_to 0x38 0x3D);
   ("PUSH", [0x06; 0x0E; 0x16; 0x1E] ++ from_to 0x50 0x57 ++ [0x68; 0x6A]); ("POP", [0x07; 0x17; 0x1F; 0x8F] ++ from_to 0x58 0x5F);
   ("DAA", [0x27]); ("DAS", [0x2F]); ("AAA", [0x37]); ("AAS", [0x3F]); ("AAM", [0xD4]); ("AAD", [0xD5]);
   ("INC", from_to 0x40 0x47); ("DEC", from_to 0x48 0x4F);
   ("IMUL", [0x69; 0x6B]); ("TEST", [0x84; 0x85; 0xA8; 0xA9]); ("XCHG", [0x86; 0x87] ++ from_to 0x90 0x97); ("LEA", [0x8D]);
   ("MOV", from_to 0x88 0x8C ++ [0x8E] ++ from_to 0xA0 0xA3 ++ from_to 0xB0 0xBF ++ [0xC6; 0xC7]);
   ("INSB", [0x6C]); ("OUTSB", [0x6E]); ("MOVSB", [0xA4]); ("CMPSB", [0xA6]); ("STOSB", [0xAA]); ("LODSB", [0xAC]); ("SCASB", [0xAE]);
   ("JO", [0x70]); ("JNO", [0x71]); ("JC", [0x72]); ("JNC", [0x73]); ("JZ", [0x74]); ("JNZ", [0x75]); ("JBE", [0x76]); ("JA", [0x77]);
   ("JS", [0x78]); ("JNS", [0x79]); ("JPE", [0x7A]); ("JPO", [0x7B]); ("JL", [0x7C]); ("JGE", [0x7D]); ("JLE", [0x7E]); ("JG", [0x7F]);
   ("LOOPNZ", [0xE0]); ("LOOPZ", [0xE1]); ("LOOP", [0xE2]); ("JCXZ", [0xE3]); ("JMP", [0xE9; 0xEA; 0xEB]); ("CALL", [0x9A; 0xE8]);
   ("RET", [0xC2; 0xC3; 0xCA; 0xCB]); ("ENTER", [0xC8]); ("LEAVE", [0xC9]); ("INT3", [0xCC]); ("INT", [0xCD]); ("INTO", [0xCE]);
   ("LES", [0xC4]); ("LDS", [0xC5]); ("XLAT", [0xD7]); ("SAHF", [0x9E]); ("LAHF", [0x9F]);
   ("IN", [0xE4; 0xE5; 0xEC; 0xED]); ("OUT", [0xE6; 0xE7; 0xEE; 0xEF]); ("HLT", [0xF4]); ("CMC", [0xF5]);
   ("CLC", [0xF8]); ("STC", [0xF9]); ("CLI", [0xFA]); ("STI", [0xFB]); ("CLD", [0xFC]); ("STD", [0xFD])].
(** Names that depend on the operand size: without and with prefix 66. *)
Definition manual_sized : list (Z * (string * string)) :=
  [(0x60, ("PUSHA", "PUSHAD")); (0x61, ("POPA", "POPAD")); (0x9C, ("PUSHF", "PUSHFD")); (0x9D, ("POPF", "POPFD")); (0x6D, ("INSW", "INSD")); (0x6F, ("OUTSW", "OUTSD")); (0x98, ("CBW", "CWDE")); (0x99, ("CWD", "CDQ")); (0xA5, ("MOVSW", "MOVSD")); (0xA7, ("CMPSW", "CMPSD"));
   (0xAB, ("STOSW", "STOSD")); (0xAD, ("LODSW", "LODSD")); (0xAF, ("SCASW", "SCASD")); (0xCF, ("IRET", "IRETD"))].
(** Opcodes whose operation is in bits 3-5 of the ModR/M byte. *)
Definition manual_groups : list (list Z * list (list string)) :=
  [([0x80; 0x81; 0x83], [["ADD"]; ["OR"]; ["ADC"]; ["SBB"]; ["AND"]; ["SUB"]; ["XOR"]; ["CMP"]]);
   ([0xC0; 0xC1; 0xD0; 0xD1; 0xD2; 0xD3], [["ROL"]; ["ROR"]; ["RCL"]; ["RCR"]; ["SHL"; "SAL"]; ["SHR"]; ["SHL"; "SAL"]; ["SAR"]]);
   ([0xF6; 0xF7], [["TEST"]; []; ["NOT"]; ["NEG"]; ["MUL"]; ["IMUL"]; ["DIV"]; ["IDIV"]]);
   ([0xFE], [["INC"]; ["DEC"]; []; []; []; []; []; []]);
   ([0xFF], [["INC"]; ["DEC"]; ["CALL"]; ["CALL"]; ["JMP"]; ["JMP"]; ["PUSH"]; []])].
(** Two-byte opcodes 0F xx. *)
Definition manual0F : list (string * list Z) :=
  [("JO", [0x80]); ("JNO", [0x81]); ("JC", [0x82]); ("JNC", [0x83]); ("JZ", [0x84]); ("JNZ", [0x85]); ("JBE", [0x86]); ("JA", [0x87]);
   ("JS", [0x88]); ("JNS", [0x89]); ("JPE", [0x8A]); ("JPO", [0x8B]); ("JL", [0x8C]); ("JGE", [0x8D]); ("JLE", [0x8E]); ("JG", [0x8F]);
   ("PUSH", [0xA0; 0xA8]); ("POP", [0xA1; 0xA9]); ("SHLD", [0xA4; 0xA5]); ("SHRD", [0xAC; 0xAD]); ("IMUL", [0xAF]);
   ("LSS", [0xB2]); ("LFS", [0xB4]); ("LGS", [0xB5]); ("MOVZX", [0xB6; 0xB7]); ("BSF", [0xBC])].

Definition isin (b : Z) (l : list Z) : bool := existsb (Z.eqb b) l.
Definition named_in (l : list (string * list Z)) (b : Z) : list string := map fst (filter (fun e => isin b (snd e)) l).
(** The mnemonics of an instruction (bytes after the prefixes); [os]: prefix 66. *)
Definition mnemonics (os : bool) (bs : list Z) : list string :=
  match bs with
  | [] => []
  | 0x0F :: b :: _ => named_in manual0F b
  | op :: t =>
    named_in manual op
    ++ map (fun e => if os then snd (snd e) else fst (snd e)) (filter (fun e => op =? fst e) manual_sized)
    ++ match t with m :: _ => flat_map (fun e => if isin op (fst e) then nth (Z.to_nat ((m / 8) mod 8)) (snd e) [] else []) manual_groups | [] => [] end
  end.
(** How the trace writes a mnemonic: as NAME (FORM), NAME together with FORM (PUSH (A), MOV (SB), INT (3)), or FORM alone (Flag (CLC)). *)
Definition written (m name form : string) : Prop := m = name \/ m = append name form \/ (name = "Flag" /\ m = form).

(** Prefixes as the trace announces them. *)
Definition announce (b : Z) : string :=
  match b with
  | 0x26 => "Ovr (Seg) ES " | 0x2E => "Ovr (Seg) CS " | 0x36 => "Ovr (Seg) SS " | 0x3E => "Ovr (Seg) DS " | 0x64 => "Ovr (Seg) FS " | 0x65 => "Ovr (Seg) GS "
  | 0x66 => "Ovr (OpSize) <OPER> " | 0x67 => "Ovr (AddrSize) <ADDR> " | 0xF2 => "Prefix (REPNZ) " | 0xF3 => "Prefix (REP) "
  | _ => ""
  end.
Definition announced (pre : list Z) : string := joined (map announce pre).
(** A text as far as it is shown: 63 characters; a longer one is cut to 62, and "$" says so. *)
Definition limited (t : string) : string := if (String.length t <? 64)%nat then t else append (substring 0 62 t) "$".
(** The string instructions: the ones that repeat. *)
Definition string_ops : list Z := [0x6C; 0x6D; 0x6E; 0x6F; 0xA4; 0xA5; 0xA6; 0xA7; 0xAA; 0xAB; 0xAC; 0xAD; 0xAE; 0xAF].
(** The warning that the instruction [bs] behind the prefixes [p] does not repeat: the REP or REPNE prefix, and the opcode. *)
Definition useless_rep (p : pfx) (bs : list Z) (t : string) : Prop :=
  exists r o, hex_text 2 (p_rep p) r /\ hex_text 2 (hd 0 bs) o /\ t = joined [" Prefix 0x"; r; " used with wrong opcode 0x"; o].
(** It is printed exactly if there is such a prefix and the instruction is not a string instruction. *)
Definition warning (p : pfx) (bs : list Z) (t : string) : Prop :=
  ((p_rep p = 0 \/ In (hd 0 bs) string_ops) /\ t = "") \/ (p_rep p <> 0 /\ ~ In (hd 0 bs) string_ops /\ useless_rep p bs t).
(** Instructions whose name in the trace differs from the manual's: those named after the operand size, with prefix 66; MOVZX. *)
Definition misnamed (os : bool) (bs : list Z) : Prop :=
  match bs with 0x0F :: b :: _ => b = 0xB6 \/ b = 0xB7 | op :: _ => os = true /\ In op (map fst manual_sized) | [] => False end.
(** The name shown is a mnemonic of the instruction. *)
Definition named_as (os : bool) (bs : list Z) (name form operands : string) : Prop :=
  misnamed os bs \/
  exists m, In m (mnemonics os bs) /\
    (written m name form \/ (name = "Ext" /\ form = "0F" /\ exists u, operands = append " " (append m u) /\ (u = "" \/ exists v, u = append " " v))).
(** Operations by their number in the opcode map, as the instruction specifications count them. *)
Definition alu_name (k : Z) : string := nth (Z.to_nat k) ["ADD"; "OR"; "ADC"; "SBB"; "AND"; "SUB"; "XOR"; "CMP"; "TEST"] "".
Definition shift_name (k : Z) : string := nth (Z.to_nat k) ["ROL"; "ROR"; "RCL"; "RCR"; "SHL"; "SHR"; "SAL"; "SAR"] "".
Definition muldiv_name (k : Z) : string := nth (Z.to_nat k) [""; ""; ""; ""; "MUL"; "IMUL"; "DIV"; "IDIV"] "".
