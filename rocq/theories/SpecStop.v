(** Specification: instructions refused without any effect (C50, C51). *)
From Verif Require Import Base Spec.

Definition mem_z (l : list Z) (b : Z) : bool := existsb (Z.eqb b) l.
Definition reg_field (t : list Z) : Z := match t with m :: _ => (m / 8) mod 8 | [] => 0 end.
Definition mod_field (t : list Z) : Z := match t with m :: _ => m / 64 | [] => 0 end.

(** Encodings that are invalid on every x86 (#UD): LEA, LES, LDS, LSS, LFS, LGS with a register
    operand; FE /2../7; FF /7; FF /3, FF /5 (far CALL, JMP) with a register operand. *)
Definition invalid_form (bs : list Z) : bool :=
  match bs with
  | 15 :: op :: t => mem_z [178; 180; 181] op && (mod_field t =? 3)
  | op :: t =>
      (mem_z [141; 196; 197] op && (mod_field t =? 3)) ||
      ((op =? 254) && (2 <=? reg_field t)) ||
      ((op =? 255) && ((reg_field t =? 7) || (mem_z [3; 5] (reg_field t) && (mod_field t =? 3))))
  | [] => false
  end.
(** Valid encodings the emulator does not implement: with prefix 66, the indirect jumps and calls
    and MOV with a segment register, POP r/m; the bit test group 0F BA. *)
Definition unsupported_form (p : pfx) (bs : list Z) : bool :=
  match bs with
  | 15 :: op :: t => op =? 186
  | op :: t => p_os p && (mem_z [140; 142; 143] op || ((op =? 255) && mem_z [2; 3; 4; 5] (reg_field t)))
  | [] => false
  end.
(** IMUL with two or three operands and prefix 66: "not implemented" (RME_ERR_BUG). *)
Definition imul_wide (p : pfx) (bs : list Z) : bool :=
  match bs with
  | 15 :: op :: t => p_os p && (op =? 175)
  | op :: t => p_os p && mem_z [105; 107] op
  | [] => false
  end.
(** The ModR/M byte has been read. *)
Definition modrm_read (bs : list Z) : Prop := match has_modrm bs with Some (_, []) => False | _ => True end.
(** MOV segment register: 6 and 7 do not exist (C46). *)
Definition sreg_exists (bs : list Z) : Prop := match bs with op :: t => op = 142 -> reg_field t < 6 | [] => True end.
(** FF /3, FF /5: the operand is a far pointer, not a word. *)
Definition far_indirect (bs : list Z) : bool := match bs with op :: t => (op =? 255) && mem_z [3; 5] (reg_field t) | [] => false end.
