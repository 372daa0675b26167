(** Specification: multiplication and division. *)
From Verif Require Import Base Spec SpecOps.

(** The double-width accumulator: AX, DX:AX or EDX:EAX. *)
Definition acc2 (w : Z) (a : arch) : Z :=
  if w =? 8 then reg 16 AX a else reg w DX a * 2 ^ w + reg w AX a.
Definition with_acc2 (w v : Z) (a : arch) : arch :=
  if w =? 8 then with_reg 16 AX v a
  else with_reg w AX (v mod 2 ^ w) (with_reg w DX (v / 2 ^ w) a).
(** Quotient and remainder: AL and AH, AX and DX, or EAX and EDX. *)
Definition with_quot (w q r : Z) (a : arch) : arch :=
  with_reg w AX q (with_reg w (if w =? 8 then 4 else DX) r a).
(** CF = OF = c; ZF, SF, PF (architecturally undefined) describe the low half. *)
Definition mul_flags (c : bool) (w v f : Z) : Z := put CF c (put OF c (put_szp w v f)).

(** F6/F7 groups 4 MUL, 5 IMUL, 6 DIV, 7 IDIV: (group, width, operand). *)
Definition decode_muldiv (p : pfx) (a : arch) (bs : list Z) : option (Z * Z * rm) :=
  match bs with
  | op :: t =>
    match parse_rm p a t with
    | Some (rg, r, []) =>
      if 4 <=? rg then
        if op =? 0xF6 then Some (rg, 8, r) else if op =? 0xF7 then Some (rg, osz p, r) else None
      else None
    | _ => None
    end
  | [] => None
  end.
Definition mul_effect (w x : Z) (a : arch) : arch :=
  let v := reg w AX a * x in
  a_flags (mul_flags (2 ^ w <=? v) w (low w v) (r_flags a)) (with_acc2 w v a).
Definition imul_effect (w x : Z) (a : arch) : arch :=
  let v := signed w (reg w AX a) * signed w x in
  a_flags (mul_flags (overflows w v) w (low w v) (r_flags a)) (with_acc2 w (low (2 * w) v) a).
(** Unsigned and signed division of the accumulator by x; None when the quotient does not fit. *)
Definition div_effect (w x : Z) (a : arch) : option arch :=
  let n := acc2 w a in
  if x =? 0 then None
  else if n / x <? 2 ^ w then Some (with_quot w (n / x) (n mod x) a) else None.
Definition idiv_effect (w x : Z) (a : arch) : option arch :=
  let n := signed (2 * w) (acc2 w a) in let d := signed w x in
  if d =? 0 then None
  else if overflows w (Z.quot n d) then None
  else Some (with_quot w (low w (Z.quot n d)) (low w (Z.rem n d)) a).
(** The accumulator is the most negative number and the divisor is -1. *)
Definition most_negative_by_minus_one (w x : Z) (a : arch) : Prop :=
  signed (2 * w) (acc2 w a) = - 2 ^ (2 * w - 1) /\ signed w x = -1.

(** Two- and three-operand IMUL, 16 bits: destination register and the two factors. *)
Definition decode_imul2 (p : pfx) (a : arch) (bs : list Z) : option (Z * Z * Z) :=
  match bs with
  | 0x69 :: t =>
    match parse_rm p a t with
    | Some (rg, r, t') => after (imm 16 t') (fun i => Some (rg, rd_rm 16 r a, i))
    | None => None
    end
  | 0x6B :: t =>
    match parse_rm p a t with
    | Some (rg, r, t') => after (imm 8 t') (fun i => Some (rg, rd_rm 16 r a, low 16 (signed 8 i)))
    | None => None
    end
  | 0x0F :: 0xAF :: t =>
    match parse_rm p a t with
    | Some (rg, r, []) => Some (rg, rd_rm 16 r a, reg 16 rg a)
    | _ => None
    end
  | _ => None
  end.
(** c is the CF = OF result. *)
Definition imul2_effect (dst x y : Z) (c : bool) (a : arch) : arch :=
  let v := low 16 (signed 16 x * signed 16 y) in
  with_reg 16 dst v (a_flags (mul_flags c 16 v (r_flags a)) a).
