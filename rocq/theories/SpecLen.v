(** Length of an instruction, from the opcode map of the Intel manual (16-bit code segment). *)
From Verif Require Import Base Spec SpecOps.

(** ModR/M byte with SIB and displacement; [a32]: 32-bit addressing (prefix 67). *)
Definition modrm_size (a32 : bool) (t : list Z) : option Z :=
  match t with
  | [] => None
  | m :: u =>
    let md := m / 64 in let r := m mod 8 in
    if md =? 3 then Some 1
    else if a32 then
      let disp := if md =? 1 then 1 else if md =? 2 then 4 else 0 in
      if r =? 4 then match u with
                     | [] => None
                     | sib :: _ => Some (2 + if (md =? 0) && (sib mod 8 =? 5) then 4 else disp)
                     end
      else Some (1 + if (md =? 0) && (r =? 5) then 4 else disp)
    else Some (1 + if md =? 1 then 1 else if md =? 2 then 2 else if r =? 6 then 2 else 0)
  end.
(** What follows the opcode: an operand given by a ModR/M byte or not, then an immediate. *)
Inductive imm_kind : Set := Bytes (n : Z) | OpSize (* 2, or 4 with prefix 66 *) | AddrSize (* 2, or 4 with prefix 67 *).
Inductive layout : Set := Plain (i : imm_kind) | RegMem (i : imm_kind) | Group3 (i : imm_kind) (* ModR/M; immediate for /0 (TEST) only *).
(** One-byte opcodes: the implemented instructions that are not jumps, calls, returns or interrupts.
    FF is listed for its /0, /1 and /6 forms (INC, DEC, PUSH). *)
Definition layout1 (b : Z) : option layout :=
  if (0 <=? b) && (b <? 0x40) then
    if b mod 8 <? 4 then Some (RegMem (Bytes 0))
    else if b mod 8 =? 4 then Some (Plain (Bytes 1))
    else if b mod 8 =? 5 then Some (Plain OpSize)
    else if (b =? 0x0F) || (b =? 0x26) || (b =? 0x2E) || (b =? 0x36) || (b =? 0x3E) then None          (* two-byte opcodes, prefixes *)
    else Some (Plain (Bytes 0))                                                 (* PUSH/POP seg, DAA DAS AAA AAS *)
  else if (0x40 <=? b) && (b <=? 0x61) then Some (Plain (Bytes 0))              (* INC DEC PUSH POP PUSHA POPA *)
  else if b =? 0x68 then Some (Plain OpSize) else if b =? 0x6A then Some (Plain (Bytes 1))             (* PUSH imm *)
  else if b =? 0x69 then Some (RegMem OpSize) else if b =? 0x6B then Some (RegMem (Bytes 1))           (* IMUL *)
  else if (0x6C <=? b) && (b <=? 0x6F) then Some (Plain (Bytes 0))              (* INS OUTS *)
  else if (b =? 0x80) || (b =? 0x83) then Some (RegMem (Bytes 1))
  else if b =? 0x81 then Some (RegMem OpSize)
  else if (0x84 <=? b) && (b <=? 0x8F) then Some (RegMem (Bytes 0))             (* TEST XCHG MOV LEA POP *)
  else if (0x90 <=? b) && (b <=? 0x99) then Some (Plain (Bytes 0))
  else if (0x9C <=? b) && (b <=? 0x9F) then Some (Plain (Bytes 0))
  else if (0xA0 <=? b) && (b <=? 0xA3) then Some (Plain AddrSize)               (* MOV moffs *)
  else if b =? 0xA8 then Some (Plain (Bytes 1)) else if b =? 0xA9 then Some (Plain OpSize)             (* TEST acc,imm *)
  else if (0xA4 <=? b) && (b <=? 0xAF) then Some (Plain (Bytes 0))              (* string instructions *)
  else if (0xB0 <=? b) && (b <=? 0xB7) then Some (Plain (Bytes 1))
  else if (0xB8 <=? b) && (b <=? 0xBF) then Some (Plain OpSize)
  else if (b =? 0xC0) || (b =? 0xC1) || (b =? 0xC6) then Some (RegMem (Bytes 1))
  else if b =? 0xC7 then Some (RegMem OpSize)
  else if (b =? 0xC4) || (b =? 0xC5) then Some (RegMem (Bytes 0))               (* LES LDS *)
  else if b =? 0xC8 then Some (Plain (Bytes 3)) else if b =? 0xC9 then Some (Plain (Bytes 0))          (* ENTER, LEAVE *)
  else if (0xD0 <=? b) && (b <=? 0xD3) then Some (RegMem (Bytes 0))
  else if (b =? 0xD4) || (b =? 0xD5) then Some (Plain (Bytes 1)) else if b =? 0xD7 then Some (Plain (Bytes 0))
  else if (0xE4 <=? b) && (b <=? 0xE7) then Some (Plain (Bytes 1))              (* IN OUT imm8 *)
  else if (0xEC <=? b) && (b <=? 0xEF) then Some (Plain (Bytes 0))
  else if (b =? 0xF4) || (b =? 0xF5) then Some (Plain (Bytes 0))
  else if b =? 0xF6 then Some (Group3 (Bytes 1)) else if b =? 0xF7 then Some (Group3 OpSize)
  else if (0xF8 <=? b) && (b <=? 0xFD) then Some (Plain (Bytes 0))
  else if (b =? 0xFE) || (b =? 0xFF) then Some (RegMem (Bytes 0))
  else None.
(** Two-byte opcodes 0F b. *)
Definition layout0F (b : Z) : option layout :=
  if (b =? 0xA0) || (b =? 0xA1) || (b =? 0xA8) || (b =? 0xA9) then Some (Plain (Bytes 0))              (* PUSH/POP FS, GS *)
  else if (b =? 0xA4) || (b =? 0xAC) || (b =? 0xBA) then Some (RegMem (Bytes 1))                       (* SHLD, SHRD imm8; BTx *)
  else if (b =? 0xA5) || (b =? 0xAD) || (b =? 0xAF) || (b =? 0xB2) || ((0xB4 <=? b) && (b <=? 0xB7)) || (b =? 0xBC)
  then Some (RegMem (Bytes 0))                                                  (* SHLD, SHRD CL; IMUL; LSS LFS LGS MOVZX; BSF *)
  else None.
Definition imm_size (p : pfx) (i : imm_kind) : Z :=
  match i with Bytes n => n | OpSize => if p_os p then 4 else 2 | AddrSize => if p_as p then 4 else 2 end.
Definition layout_size (p : pfx) (l : layout) (t : list Z) : option Z :=
  match l with
  | Plain i => Some (imm_size p i)
  | RegMem i => match modrm_size (p_as p) t with Some k => Some (k + imm_size p i) | None => None end
  | Group3 i => match modrm_size (p_as p) t, t with
                | Some k, m :: _ => Some (k + if (m / 8) mod 8 =? 0 then imm_size p i else 0)
                | _, _ => None
                end
  end.
(** Number of bytes from the opcode on. *)
Definition insn_size (p : pfx) (bs : list Z) : option Z :=
  match bs with
  | [] => None
  | b :: t =>
    if b =? 15 then
      match t with
      | b2 :: t2 => match layout0F b2 with Some l => option_map (Z.add 2) (layout_size p l t2) | None => None end
      | [] => None
      end
    else match layout1 b with Some l => option_map (Z.add 1) (layout_size p l t) | None => None end
  end.
(** Excluded from the claim: PUSH imm16 with prefix 66; the jumps and calls of FF. *)
Definition length_known (p : pfx) (bs : list Z) : Prop :=
  match bs with
  | b :: t => ~ (p_os p = true /\ b = 0x68) /\
              (b = 0xFF -> match t with m :: _ => (m / 8) mod 8 = 0 \/ (m / 8) mod 8 = 1 \/ (m / 8) mod 8 = 6 | [] => False end)
  | [] => False
  end.
(** 8E /1: MOV CS. *)
Definition mov_cs (bs : list Z) : Prop := match bs with b :: m :: _ => b = 0x8E /\ (m / 8) mod 8 = 1 | _ => False end.
