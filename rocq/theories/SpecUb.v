(** Specification: exactly when an instruction reaches an operation that is undefined in C (C46). *)
From Verif Require Import Base Spec SpecStop SpecEa.

(** A ModR/M operand at its real address, the register field before it and the bytes after it. *)
Inductive operand : Type := InReg (n : Z) | InMem (x : Z).
Definition real_rm (p : pfx) (a : arch) (t : list Z) : option (Z * operand * list Z) :=
  match t with
  | b :: u =>
    if b / 64 =? 3 then Some ((b / 8) mod 8, InReg (b mod 8), u)
    else match real_address p a t with Some (rg, x, r) => Some (rg, InMem x, r) | None => None end
  | [] => None
  end.
Definition value (w : Z) (o : operand) (a : arch) : Z := match o with InReg n => reg w n a | InMem x => mem w a x end.
Definition imm8 (r : list Z) : Z := match r with b :: _ => b | [] => 0 end.
Definition imm16 (r : list Z) : Z := match r with b0 :: b1 :: _ => b0 + 256 * b1 | _ => 0 end.

(** Undefined operations once the operand is there. *)
Definition operation_ub (p : pfx) (a : arch) (bs : list Z) (rg : Z) (o : operand) (r : list Z) : option ub :=
  let when (c : bool) (u : ub) := if c then Some u else None in
  match bs with
  | 15 :: op :: _ =>
    let c := if (op =? 164) || (op =? 172) then imm8 r else reg 8 1 a in
    if (op =? 164) || (op =? 165) || (op =? 172) || (op =? 173) then when ((osz p <? c) || (32 <=? c)) UbShift   (* SHLD, SHRD: count beyond the width, or 32 *)
    else if op =? 175 then when (2 ^ 31 <=? value 16 o a * reg 16 rg a) UbMulOverflow                            (* IMUL r,r/m: unsigned product beyond an int *)
    else None
  | op :: _ =>
    let w := if Z.odd op then osz p else 8 in
    let c := if (op =? 192) || (op =? 193) then imm8 r else if (op =? 208) || (op =? 209) then 1 else reg 8 1 a in
    if (op =? 192) || (op =? 193) || ((208 <=? op) && (op <=? 211))
    then when (((rg =? 4) || (rg =? 6)) && (c mod 32 =? w)) UbShift                                              (* SHL by exactly the width *)
    else if op =? 105 then when (2 ^ 31 <=? value 16 o a * imm16 r) UbMulOverflow                                (* IMUL r,r/m,imm16 *)
    else if op =? 107 then when (2 ^ 31 <=? value 16 o a * low 16 (signed 8 (imm8 r))) UbMulOverflow             (* IMUL r,r/m,imm8 *)
    else if op =? 247 then
      when ((rg =? 7) && (reg w DX a * 2 ^ w + reg w AX a =? 2 ^ (2 * w - 1)) && (value w o a =? 2 ^ w - 1)) UbDivOverflow  (* IDIV: smallest number by -1 *)
    else if op =? 140 then when (6 <=? rg) UbSegReg                                                              (* MOV r/m,<segment 6, 7> *)
    else None
  | [] => None
  end.

(** Undefined operation reached by the instruction. *)
Definition ub_of (p : pfx) (a : arch) (bs : list Z) : option ub :=
  match has_modrm bs with
  | None => None
  | Some (wide, t) =>
    if invalid_form bs || unsupported_form p bs || imul_wide p bs then None                    (* refused before *)
    else if match bs with op :: _ => (op =? 142) && (6 <=? reg_field t) | [] => false end then Some UbSegReg   (* MOV <segment 6, 7>,r/m *)
    else if no_pointer bs then None
    else match real_rm p a t with
    | None => None
    | Some (rg, InMem x, r) =>
      if wide && (x mod 4096 =? 4095) then None                                                (* refused (C50) *)
      else if map_size <=? x then Some UbMapIndex                                              (* outside the map *)
      else operation_ub p a bs rg (InMem x) r
    | Some (rg, InReg n, r) => operation_ub p a bs rg (InReg n) r
    end
  end.
(** The operand starts on the last three bytes of the map: a dword access continues in the host memory after it, about which nothing is
    assumed. *)
Definition at_map_end (p : pfx) (a : arch) (bs : list Z) : Prop :=
  match has_modrm bs with
  | Some (_, t) => match real_rm p a t with Some (_, InMem x, _) => map_size - 4 < x < map_size | _ => False end
  | None => False
  end.
