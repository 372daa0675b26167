(** The operands of the instructions, from the Intel manual's opcode map, and what a reader of the trace takes an operand for. *)
From Coq Require Import String Ascii.
From Verif Require Import Base Spec SpecStop SpecEa SpecDump SpecTrace SpecNames.
Local Open Scope string_scope.
Local Open Scope Z_scope.
Local Open Scope list_scope.

(** Operand codes of the opcode map (appendix A of the manual): E register or memory by ModR/M, G register by its reg field, S segment
    register by its reg field, I immediate, J relative jump, A far pointer, O direct memory offset; b byte, w word, v word or doubleword.
    Isv: byte immediate, sign-extended.  Rb, Rv: register by the low bits of the opcode. *)
Inductive kind : Type :=
| Eb | Ev | Ew | Gb | Gv | Sw | Ib | Iv | Isv | Jb | Jv | Ap | Ov | Rb | Rv | Reg_AL | Reg_eAX | Seg (n : Z) | One | Reg_CL.
(** The operands of the one-byte opcodes; [g]: bits 3-5 of the next byte; [os]: prefix 66.  None: the instructions whose operands the trace does
    not show in this form (see C84_shown_refuted), and the string instructions. *)
Definition op_map (os : bool) (op g : Z) : option (list kind) :=
  if isin op [0x00; 0x08; 0x10; 0x18; 0x20; 0x28; 0x30; 0x38; 0x84; 0x88] then Some [Eb; Gb]
  else if isin op [0x01; 0x09; 0x11; 0x19; 0x21; 0x29; 0x31; 0x39; 0x85; 0x89] then Some [Ev; Gv]
  else if isin op [0x02; 0x0A; 0x12; 0x1A; 0x22; 0x2A; 0x32; 0x3A; 0x86; 0x8A] then Some [Gb; Eb]
  else if isin op [0x03; 0x0B; 0x13; 0x1B; 0x23; 0x2B; 0x33; 0x3B; 0x87; 0x8B; 0x8D] then Some [Gv; Ev]
  else if isin op [0x04; 0x0C; 0x14; 0x1C; 0x24; 0x2C; 0x34; 0x3C; 0xA8] then Some [Reg_AL; Ib]
  else if isin op [0x05; 0x0D; 0x15; 0x1D; 0x25; 0x2D; 0x35; 0x3D; 0xA9] then Some [Reg_eAX; Iv]
  else if isin op [0x06; 0x07] then Some [Seg 0] else if isin op [0x0E] then Some [Seg 1]
  else if isin op [0x16; 0x17] then Some [Seg 2] else if isin op [0x1E; 0x1F] then Some [Seg 3]
  else if isin op (from_to 0x40 0x5F) then Some [Rv]
  else if op =? 0x68 then (if os then None else Some [Iv])
  else if op =? 0x69 then (if os then None else Some [Gv; Ev; Iv]) else if op =? 0x6B then (if os then None else Some [Gv; Ev; Isv])
  else if isin op (from_to 0x70 0x7F ++ [0xE0; 0xE1; 0xE2; 0xE3; 0xEB]) then Some [Jb]
  else if isin op [0x80; 0xC0; 0xC6] then Some [Eb; Ib] else if isin op [0x81; 0xC7] then Some [Ev; Iv] else if op =? 0x83 then Some [Ev; Isv]
  else if op =? 0xC1 then Some [Ev; Ib]
  else if op =? 0x8C then Some [Ev; Sw] else if op =? 0x8E then Some [Sw; Ev] else if op =? 0x8F then Some [Ev]
  else if isin op (from_to 0x91 0x97) then Some [Reg_eAX; Rv]
  else if isin op [0x9A; 0xEA] then Some [Ap]
  else if op =? 0xA0 then Some [Reg_AL; Ov] else if op =? 0xA1 then Some [Reg_eAX; Ov]
  else if op =? 0xA2 then Some [Ov; Reg_AL] else if op =? 0xA3 then Some [Ov; Reg_eAX]
  else if isin op (from_to 0xB0 0xB7) then Some [Rb; Ib] else if isin op (from_to 0xB8 0xBF) then Some [Rv; Iv]
  else if op =? 0xCD then Some [Ib]
  else if op =? 0xD0 then Some [Eb; One] else if op =? 0xD1 then Some [Ev; One] else if op =? 0xD2 then Some [Eb; Reg_CL] else if op =? 0xD3 then Some [Ev; Reg_CL]
  else if isin op [0xE8; 0xE9] then Some [Jv]
  else if op =? 0xF6 then Some (if g =? 0 then [Eb; Ib] else [Eb]) else if op =? 0xF7 then Some (if g =? 0 then [Ev; Iv] else [Ev])
  else if op =? 0xFE then Some [Eb] else if op =? 0xFF then Some [Ev]
  else if isin op [0x27; 0x2F; 0x37; 0x3F; 0x60; 0x61; 0x98; 0x99; 0x9C; 0x9D; 0x9E; 0x9F; 0xC3; 0xC9; 0xCB; 0xCC; 0xCE; 0xCF; 0xF4; 0xF5; 0xF8; 0xF9; 0xFA; 0xFB; 0xFC; 0xFD] then Some []
  else None.
(** The two-byte opcodes 0F xx. *)
Definition op_map0F (os : bool) (op : Z) : option (list kind) :=
  if isin op (from_to 0x80 0x8F) then Some [Jv]
  else if isin op [0xA0; 0xA1] then Some [Seg 4] else if isin op [0xA8; 0xA9] then Some [Seg 5]
  else if isin op [0xAF; 0xBC] then Some [Gv; Ev] else if op =? 0xB6 then Some [Gv; Eb]
  else if op =? 0xB7 then (if os then None else Some [Gv; Ew])
  else None.

(** An operand, as decoded: a register by width and number, a segment register, a memory operand at a linear address, a direct memory
    operand (segment register number and offset), a number, a jump distance (mod 65536), a far pointer. *)
Inductive operand : Type :=
| XReg (w n : Z) | XSeg (n : Z) | XMem (x : Z) | XOff (sg off : Z) | XImm (v : Z) | XJump (d : Z) | XFar (sg off : Z) | XOne.
Definition rm_oper (p : pfx) (a : arch) (w : Z) (t : list Z) : option (operand * list Z) :=
  match t with
  | b :: u =>
    if b / 64 =? 3 then Some (XReg w (b mod 8), u)
    else match real_address p a t with Some (_, x, r) => Some (XMem x, r) | None => None end
  | [] => None
  end.
Definition by_modrm (k : kind) : bool := match k with Eb | Ev | Ew | Gb | Gv | Sw => true | _ => false end.
(** One operand; [t]: the bytes after the opcode; [r]: those of the immediate. *)
Definition oper (p : pfx) (a : arch) (op : Z) (t r : list Z) (k : kind) : option operand :=
  let e w := option_map fst (rm_oper p a w t) in
  let g := reg_field t in
  match k with
  | Eb => e 8 | Ev => e (osz p) | Ew => e 16
  | Gb => Some (XReg 8 g) | Gv => Some (XReg (osz p) g) | Sw => if g <? 6 then Some (XSeg g) else None
  | Ib => option_map XImm (imm 8 r) | Iv => option_map XImm (imm (osz p) r)
  | Isv => option_map (fun v => XImm (low (osz p) (signed 8 v))) (imm 8 r)
  | Jb => option_map (fun v => XJump (low 16 (signed 8 v))) (imm 8 r)
  | Jv => option_map XJump (imm 16 r)
  | Ap => match r with [b0; b1; b2; b3] => Some (XFar (b2 + 256 * b3) (b0 + 256 * b1)) | _ => None end
  | Ov => option_map (XOff (match p_seg p with Some n => n | None => 3 end)) (imm (if p_as p then 32 else 16) r)
  | Rb => Some (XReg 8 (op mod 8)) | Rv => Some (XReg (osz p) (op mod 8))
  | Reg_AL => Some (XReg 8 AX) | Reg_eAX => Some (XReg (osz p) AX)
  | Seg n => Some (XSeg n) | One => Some XOne | Reg_CL => Some (XReg 8 CX)
  end.
Fixpoint all_opers (f : kind -> option operand) (ks : list kind) : option (list operand) :=
  match ks with
  | [] => Some []
  | k :: r => match f k, all_opers f r with Some o, Some l => Some (o :: l) | _, _ => None end
  end.
Definition opers_of (p : pfx) (a : arch) (op : Z) (t : list Z) (ks : list kind) : option (list operand) :=
  if existsb by_modrm ks then
    match rm_oper p a 8 t with Some (_, r) => all_opers (oper p a op t r) ks | None => None end
  else all_opers (oper p a op t t) ks.
(** The operands of an instruction (bytes after the prefixes), in the order of the manual: destination first. *)
Definition operands (p : pfx) (a : arch) (bs : list Z) : option (list operand) :=
  match bs with
  | [] => None
  | op :: t =>
    if op =? 15 then match t with op2 :: u => match op_map0F (p_os p) op2 with Some ks => opers_of p a op2 u ks | None => None end | [] => None end
    else match op_map (p_os p) op (reg_field t) with Some ks => opers_of p a op t ks | None => None end
  end.

(** ** Reading *)
Definition reg_names (w : Z) : list string :=
  if w =? 8 then ["AL"; "CL"; "DL"; "BL"; "AH"; "CH"; "DH"; "BH"]
  else if w =? 16 then ["AX"; "CX"; "DX"; "BX"; "SP"; "BP"; "SI"; "DI"]
  else ["EAX"; "ECX"; "EDX"; "EBX"; "ESP"; "EBP"; "ESI"; "EDI"].
Definition seg_names : list string := ["ES"; "CS"; "SS"; "DS"; "FS"; "GS"].
(** The text shows the operand; [a]: the state before the instruction. *)
Inductive shows (a : arch) : operand -> string -> Prop :=
| shows_reg w n u : nth_error (reg_names w) (Z.to_nat n) = Some u -> shows a (XReg w n) u
| shows_seg n u : nth_error seg_names (Z.to_nat n) = Some u -> shows a (XSeg n) u
| shows_mem x sg e v o : lookup_text sg (segments a) = Some v -> offset_value a e = Some o -> low 32 (16 * v + o) = x -> shows a (XMem x) (joined [sg; ":["; e; "]"])
| shows_off n sg off h : nth_error seg_names (Z.to_nat n) = Some sg -> hex_value off h -> shows a (XOff n off) (joined [sg; ":[0x"; h; "]"])
| shows_imm v h : hex_value v h -> shows a (XImm v) (append "0x" h)
| shows_jump d h : hex_value d h -> shows a (XJump d) (append ".+0x" h)
| shows_far sg off h1 h2 : hex_text 4 sg h1 -> hex_text 4 off h2 -> shows a (XFar sg off) (joined ["0x"; h1; ":"; h2])
| shows_one : shows a XOne "1".
(** Operands as they stand in the line: each behind a blank. *)
Definition operand_text (us : list string) : string := joined (map (append " ") us).
(** What stands between the form and the operands: " (MX)" for the jumps, calls and pushes of the FF group; for the two-byte opcodes, the mnemonic
    (MOV for MOVZX). *)
Definition between (os : bool) (bs : list Z) (more : string) : Prop :=
  match bs with
  | 0x0F :: _ => exists m, more = append " " m /\ (In m (mnemonics os bs) \/ m = "MOV")
  | _ => more = "" \/ more = " (MX)"
  end.

(** ** The decoded operands against those of the instruction specifications (Spec.v) *)
(** Where the operand is: a register of width [w], or memory at the linear address. *)
Definition stands (w : Z) (o : operand) (r : rm) : Prop :=
  match o, r with
  | XReg w' n, RReg n' => w' = w /\ n = n'
  | XMem x, RMem sg off => x = lin sg off
  | _, _ => False
  end.
(** Its value in state [a]. *)
Definition value (w : Z) (o : operand) (a : arch) : option Z :=
  match o with
  | XReg w' n => Some (reg w' n a)
  | XMem x => Some (mem w a x)
  | XImm v => Some v
  | XOne => Some 1
  | _ => None
  end.
