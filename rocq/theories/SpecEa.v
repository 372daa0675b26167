(** Specification: the address the emulator really gives to a memory operand.  [Spec.parse_rm] says which address the manual
    prescribes; the two differ in the cases listed under C14 and C48. *)
From Verif Require Import Base Spec SpecStop.

(** Segment: the override, else SS for r/m = 2, 3, 6 with a displacement (mod 1, 2), else DS; the same rule for
    both address sizes. *)
Definition real_sreg (p : pfx) (md m : Z) : Z :=
  match p_seg p with
  | Some n => n
  | None => if negb (md =? 0) && ((m =? 2) || (m =? 3) || (m =? 6)) then 2 else 3
  end.
(** Scaled index of a SIB byte. *)
Definition scaled (sib : Z) (a : arch) : Z := if (sib / 8) mod 8 =? 4 then 0 else reg 32 ((sib / 8) mod 8) a * 2 ^ (sib / 64).
(** Offset (a 32-bit number) and the bytes that follow.
    16-bit addressing: base, index and sign-extended displacement added without reduction to 16 bits; [disp16] is sign-extended too.
    32-bit addressing: a displacement precedes the SIB byte and only its low 16 bits are added; the displacement of [index*scale + disp32]
    is skipped. *)
Definition real_offset (p : pfx) (md m : Z) (a : arch) (t : list Z) : option (Z * list Z) :=
  if p_as p then
    if md =? 0 then
      if m =? 4 then
        match t with
        | sib :: u =>
          if sib mod 8 =? 5 then match dword u with Some (_, r) => Some (low 32 (scaled sib a), r) | None => None end
          else Some (low 32 (scaled sib a + reg 32 (sib mod 8) a), u)
        | [] => None
        end
      else if m =? 5 then dword t
      else Some (reg 32 m a, t)
    else
      match disp32 md t with
      | Some (d, u) =>
        if m =? 4 then match u with sib :: v => Some (low 32 (scaled sib a + reg 32 (sib mod 8) a + low 16 d), v) | [] => None end
        else Some (low 32 (reg 32 m a + low 16 d), u)
      | None => None
      end
  else
    match disp md m t with
    | Some (d, r) => Some (low 32 ((if (md =? 0) && (m =? 6) then 0 else ea_base m a) + d), r)
    | None => None
    end.
(** Register field and linear address (a 32-bit number) of a memory operand, and the bytes that follow it. *)
Definition real_address (p : pfx) (a : arch) (t : list Z) : option (Z * Z * list Z) :=
  match t with
  | b :: u =>
    if b / 64 =? 3 then None else
    match real_offset p (b / 64) (b mod 8) a u with
    | Some (o, r) => Some ((b / 8) mod 8, low 32 (16 * sreg (real_sreg p (b / 64) (b mod 8)) a + o), r)
    | None => None
    end
  | [] => None
  end.
(** Size of the memory map: 272 blocks of 4 KiB. *)
Definition map_size : Z := 272 * 4096.
(** Instructions that form the address but do not use a pointer to it: LEA, and the far-pointer operands of LDS, LES, LSS, LFS, LGS, CALL
    and JMP, which are read with a 16-bit offset; and opcode 82, which is not implemented. *)
Definition no_pointer (bs : list Z) : bool :=
  match bs with
  | 15 :: op :: _ => (op =? 178) || (op =? 180) || (op =? 181)
  | op :: t => (op =? 130) || (op =? 141) || (op =? 196) || (op =? 197) || ((op =? 255) && ((reg_field t =? 3) || (reg_field t =? 5)))
  | [] => false
  end.
(** Instructions on a memory operand at linear address [x] and a register, as in C05-C09 apart from the address: MOV, XCHG,
    and the arithmetic and logic instructions (ADD OR ADC SBB AND SUB XOR CMP in opcodes 00-3B, TEST). *)
Definition on_memory (p : pfx) (op rg x : Z) (a : arch) : option arch :=
  let w := if Z.odd op then osz p else 8 in
  let v := reg w rg a in let m := mem w a x in
  let calc k d s := alu_result k w d s (r_flags a) in
  if (op =? 136) || (op =? 137) then Some (with_mem w x v a)
  else if (op =? 138) || (op =? 139) then Some (with_reg w rg m a)
  else if (op =? 134) || (op =? 135) then Some (with_mem w x v (with_reg w rg m a))
  else if (op =? 132) || (op =? 133) then Some (a_flags (snd (calc 8 m v)) a)
  else if (0 <=? op) && (op <? 64) && (op mod 8 <? 4) then
    let k := op / 8 in
    if op mod 8 <? 2 then
      let (r, f) := calc k m v in Some (if k =? 7 then a_flags f a else with_mem w x r (a_flags f a))
    else
      let (r, f) := calc k v m in Some (if k =? 7 then a_flags f a else with_reg w rg r (a_flags f a))
  else None.
