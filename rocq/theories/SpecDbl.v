(** Specification: SHLD, SHRD. *)
From Verif Require Import Base Spec SpecOps.

(** (left?, width, destination, source register, count). *)
Definition decode_dbl (p : pfx) (a : arch) (bs : list Z) : option (bool * Z * rm * Z * Z) :=
  match bs with
  | 0x0F :: op :: t =>
    match parse_rm p a t with
    | Some (rg, r, rest) =>
      if op =? 0xA4 then after (imm 8 rest) (fun c => Some (true, osz p, r, rg, c))
      else if op =? 0xAC then after (imm 8 rest) (fun c => Some (false, osz p, r, rg, c))
      else if op =? 0xA5 then ifrest rest (true, osz p, r, rg, reg 8 CX a)
      else if op =? 0xAD then ifrest rest (false, osz p, r, rg, reg 8 CX a)
      else None
    | None => None
    end
  | _ => None
  end.
(** Shift the 2w-bit concatenation by n (0 < n <= w) and keep the destination half. *)
Definition dbl_value (left : bool) (w d s n : Z) : Z :=
  if left then (d * 2 ^ n) mod 2 ^ w + s / 2 ^ (w - n)
  else d / 2 ^ n + (s * 2 ^ (w - n)) mod 2 ^ w.
(** CF is the last bit shifted out; OF is a change of sign for a shift by one and otherwise
    cleared, AF is cleared (both architecturally undefined). *)
Definition dbl_effect (left : bool) (w : Z) (r : rm) (src n : Z) (a : arch) : arch :=
  if n =? 0 then a else
  let d := rd_rm w r a in
  let v := dbl_value left w d (reg w src a) n in
  let c := Z.testbit d (if left then w - n else n - 1) in
  wr_rm w r v
    (a_flags (put6 c false ((n =? 1) && xorb (top w d) (top w v)) w v (r_flags a)) a).
(** The operands the emulator handles correctly: the instruction is decoded with byte-register
    operands, the source is read after the destination is modified, and the count is not reduced. *)
Definition dbl_supported (w : Z) (r : rm) (src n : Z) : Prop :=
  match r with RReg d => d < 4 /\ d <> src | RMem _ _ => True end /\
  src < 4 /\ n <= w /\ n < 32.
