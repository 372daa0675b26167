(** Specification of the instruction groups, written from the x86 manuals over the vocabulary
    of Spec.v.  Each [step_*] function decodes the bytes after the prefixes and gives the
    architectural state after the instruction (before IP moves on, unless stated otherwise). *)
From Verif Require Import Base Spec.

Definition after {X Y} (o : option X) (k : X -> option Y) : option Y :=
  match o with Some x => k x | None => None end.

(** ** One-operand arithmetic: INC, DEC, NOT, NEG *)
Inductive uop : Type := U_INC | U_DEC | U_NOT | U_NEG.
Definition spec_unary (o : uop) (w d f : Z) : Z * Z :=
  match o with
  | U_INC => spec_inc w d f
  | U_DEC => spec_dec w d f
  | U_NOT => (2 ^ w - 1 - d, f)
  | U_NEG => emu_neg w d f
  end.
Definition unary_effect (o : uop) (w : Z) (r : rm) (a : arch) : arch :=
  let '(v, f) := spec_unary o w (rd_rm w r a) (r_flags a) in wr_rm w r v (a_flags f a).
(** (operation, width, operand). *)
Definition decode_unary (p : pfx) (a : arch) (bs : list Z) : option (uop * Z * rm) :=
  match bs with
  | [] => None
  | op :: t =>
    let group ww (sel : Z -> option uop) :=
      match parse_rm p a t with
      | Some (rg, r, []) => match sel rg with Some o => Some (o, ww, r) | None => None end
      | _ => None
      end in
    if (0x40 <=? op) && (op <=? 0x47) then ifrest t (U_INC, osz p, RReg (op - 0x40))
    else if (0x48 <=? op) && (op <=? 0x4F) then ifrest t (U_DEC, osz p, RReg (op - 0x48))
    else
      let f6 rg := if rg =? 2 then Some U_NOT else if rg =? 3 then Some U_NEG else None in
      let fe rg := if rg =? 0 then Some U_INC else if rg =? 1 then Some U_DEC else None in
      match op with
      | 0xF6 => group 8 f6
      | 0xF7 => group (osz p) f6
      | 0xFE => group 8 fe
      | 0xFF => group (osz p) fe
      | _ => None
      end
  end.

(** ** Shifts and rotates, by their number in the opcode map *)
Definition top (w v : Z) : bool := 2 ^ (w - 1) <=? v.
(** One step by one bit on (value, carry). *)
Definition shift1 (op w : Z) (x : Z * bool) : Z * bool :=
  let '(v, c) := x in
  match op with
  | 0 (* ROL *) => (low w (2 * v) + b2z (top w v), top w v)
  | 1 (* ROR *) => (v / 2 + b2z (Z.odd v) * 2 ^ (w - 1), Z.odd v)
  | 2 (* RCL *) => (low w (2 * v) + b2z c, top w v)
  | 3 (* RCR *) => (v / 2 + b2z c * 2 ^ (w - 1), Z.odd v)
  | 5 (* SHR *) => (v / 2, Z.odd v)
  | 7 (* SAR *) => (low w (signed w v / 2), Z.odd v)
  | _ (* SHL *) => (low w (2 * v), top w v)
  end.
Definition shift_n (op w n d : Z) (c : bool) : Z * bool :=
  Nat.iter (Z.to_nat n) (shift1 op w) (d, c).
(** OF after a one-bit shift of d to v with old carry c0 and new carry c1. *)
Definition shift_of (op w d v : Z) (c0 c1 : bool) : bool :=
  match op with
  | 0 | 2 => xorb (top w v) c1
  | 1 => xorb (top w v) (Z.testbit v (w - 2))
  | 3 => xorb (top w d) c0
  | 5 => top w d
  | 7 => false
  | _ => xorb (top w v) c1
  end.
(** Result and flags of shifting d by [cnt]; [o] is the OF outcome, which the manuals leave
    undefined unless the reduced count is 1. *)
Definition spec_shift (op w cnt d f : Z) (o : bool) : Z * Z :=
  let n := cnt mod 32 in
  if n =? 0 then (d, f) else
  let '(v, c) := shift_n op w n d (flag CF f) in
  let f1 := if op <? 4 then f else put_szp w v f in
  (v, put CF c (put OF o f1)).
Definition shift_of_ok (op w cnt d f : Z) (o : bool) : Prop :=
  cnt mod 32 = 1 ->
  let '(v, c) := shift_n op w 1 d (flag CF f) in o = shift_of op w d v (flag CF f) c.
(** Counts the emulator handles as documented: rotating by a non-zero multiple of the width
    must update CF, and SHL by exactly the width is undefined behaviour in the C code. *)
Definition shift_count_ok (op w cnt : Z) : Prop :=
  match op with
  | 0 | 1 => cnt mod 32 <> 0 -> (cnt mod 32) mod w <> 0
  | 4 | 6 => cnt mod 32 <> w
  | _ => True
  end.
(** (operation, width, operand, count). *)
Definition decode_shift (p : pfx) (a : arch) (bs : list Z) : option (Z * Z * rm * Z) :=
  match bs with
  | [] => None
  | op :: t =>
    let imm_cnt ww := match parse_rm p a t with
                     | Some (rg, r, [c]) => Some (rg, ww, r, c) | _ => None end in
    let fix_cnt c ww := match parse_rm p a t with
                   | Some (rg, r, []) => Some (rg, ww, r, c) | _ => None end in
    match op with
    | 0xC0 => imm_cnt 8
    | 0xC1 => imm_cnt (osz p)
    | 0xD0 => fix_cnt 1 8
    | 0xD1 => fix_cnt 1 (osz p)
    | 0xD2 => fix_cnt (reg 8 CX a) 8
    | 0xD3 => fix_cnt (reg 8 CX a) (osz p)
    | _ => None
    end
  end.
Definition shift_effect (op w : Z) (r : rm) (cnt : Z) (o : bool) (a : arch) : arch :=
  let '(v, f) := spec_shift op w cnt (rd_rm w r a) (r_flags a) o in
  if cnt mod 32 =? 0 then a else wr_rm w r v (a_flags f a).
