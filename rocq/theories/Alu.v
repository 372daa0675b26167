(** Pure functions for the ALU macros of src/ops_alu.h. *)
From Verif Require Import Base.

(** PAIRITY8(v): rme_internal.h:217; true when the low byte has odd parity. *)
Definition parity8 (v : Z) : bool :=
  xorb (Z.testbit v 7) (xorb (Z.testbit v 6) (xorb (Z.testbit v 5) (xorb (Z.testbit v 4)
  (xorb (Z.testbit v 3) (xorb (Z.testbit v 2) (xorb (Z.testbit v 1) (Z.testbit v 0))))))).

(** SET_COMM_FLAGS(State,v,w): rme_internal.h:218-223. *)
Definition set_comm (w v f : Z) : Z :=
  fset (negb (parity8 v)) M_PF
  (fset (negb (v / 2 ^ (w - 1) =? 0)) M_SF
  (fset (v =? 0) M_ZF
  (fclear (M_ZF + M_SF + M_PF) f))).

(** Bit w-1, i.e. & _ALU_SMASK: ops_alu.h:9. *)
Definition msb (w x : Z) : bool := Z.testbit x (w - 1).

(** The eight two-operand operations (ALU_SELECT_OPERATION, ops_alu.c:140-150) and TEST. *)
Inductive aluop : Type := ADD | OR | ADC | SBB | AND | SUB | XOR | CMP | TEST.

(** All six of PF ZF SF OF CF AF: the mask of ops_alu.h:31. *)
Definition M_ARITH := M_PF + M_ZF + M_SF + M_OF + M_CF + M_AF.
Definition M_LOGIC := M_PF + M_ZF + M_SF + M_OF + M_CF.

(** _ALU_ADD_SETFLAGS: ops_alu.h:12-21. *)
Definition add_setflags (w d s v f : Z) : Z :=
  let f := fset (Bool.eqb (msb w d) (msb w s) && negb (Bool.eqb (msb w v) (msb w d))) M_OF f in
  let f := fset (if d =? 0 then v <? s else v <=? s) M_CF f in
  fset (if d mod 16 =? 0 then v mod 16 <? s mod 16 else v mod 16 <=? s mod 16) M_AF f.

(** __SUB_FLAGS: ops_alu.h:23-27.  [rl] is (r&15)-c evaluated in the type of r: for SBB r
    is uint64_t so the difference wraps at 64 bits. *)
Definition sub_flags (w d r rl v f : Z) : Z :=
  let f := fset (d <? r) M_CF f in
  let f := fset (d mod 16 <? rl) M_AF f in
  fset (Z.testbit (Z.land (Z.lxor d r) (Z.lxor d v)) (w - 1)) M_OF f.

(** The bodies ALU_OPCODE_*_CODE, ops_alu.h:29-81: result v and FLAGS before SET_COMM_FLAGS. *)
Definition alu_core (op : aluop) (w d s f : Z) : Z * Z :=
  match op with
  | ADD =>
    let v := wrap w (d + s) in
    (v, add_setflags w d s v (fclear M_ARITH f))
  | OR => (Z.lor d s, fclear M_LOGIC f)
  | ADC =>
    let v := wrap w (d + s + (if ftest M_CF f then 1 else 0)) in
    let f' := add_setflags w d s v (fclear M_ARITH f) in
    (v, fset (negb (d =? 0) && (v =? s)) M_CF f')
  | SBB =>
    let c := if ftest M_CF f then 1 else 0 in
    let r := if w =? 32 then wrap 32 (s + c) else s + c in
    let v := wrap w (d - r) in
    (v, sub_flags w d r (wrap 64 (r mod 16 - c)) v (fclear (M_OF + M_CF + M_AF) f))
  | AND => (Z.land d s, fclear M_LOGIC f)
  | SUB | CMP =>
    let v := wrap w (d - s) in
    (v, sub_flags w d s (s mod 16) v (fclear M_ARITH f))
  | XOR => (Z.lxor d s, fclear M_LOGIC f)
  | TEST => (Z.land d s, fclear (M_OF + M_CF) f)
  end.

(** Whole operation including SET_COMM_FLAGS (e.g. ops_alu.c:27-28). *)
Definition alu (op : aluop) (w d s f : Z) : Z * Z :=
  let (v, f') := alu_core op w d s f in (v, set_comm w v f').

(** CMP and TEST set dest = NULL: ops_alu.h:75, 81. *)
Definition alu_writes (op : aluop) : bool :=
  match op with CMP | TEST => false | _ => true end.

(** ALU_OPCODE_NEG_CODE: ops_alu.h:87-98. *)
Definition alu_neg (w s f : Z) : Z * Z :=
  let f := fclear (M_CF + M_AF + M_OF) f in
  if s =? 0 then (0, set_comm w 0 f)
  else
    let v := wrap w (- s) in
    let f := fset true M_CF f in
    let f := fset (s =? 2 ^ (w - 1)) M_OF f in
    let f := fset (negb (Z.land s 7 =? 0)) M_AF f in
    (v, set_comm w v f).

(** ALU_OPCODE_INC_CODE / DEC_CODE: ops_alu.h:101-113. *)
Definition alu_inc (w d f : Z) : Z * Z :=
  let v := wrap w (d + 1) in
  let f := fclear (M_OF + M_ZF + M_SF + M_PF + M_AF) f in
  let f := fset (v =? 2 ^ (w - 1)) M_OF f in
  let f := fset (v mod 16 =? 0) M_AF f in
  (v, set_comm w v f).
(** "*dest + 1" is computed in int for 8/16-bit operands and wraps for uint32_t. *)
Definition alu_dec (w d f : Z) : Z * Z :=
  let v := wrap w (d - 1) in
  let f := fclear (M_OF + M_AF) f in
  let f := fset (wrap 32 (v + 1) =? 2 ^ (w - 1)) M_OF f in
  let f := fset (v mod 16 + 1 =? 16) M_AF f in
  (v, set_comm w v f).

(** ** Shifts and rotates.  Each function models the body executed when amt > 0 and
    returns the new destination and FLAGS, or None when the C code shifts by an
    out-of-range count. *)

(** ALU_OPCODE_ROL_CODE: ops_alu.h:116-123. *)
Definition sh_rol (w d amt f : Z) : option (Z * Z) :=
  let v := wrap w (Z.lor (d * 2 ^ amt) (d / 2 ^ (w - amt))) in
  let f := fclear (M_OF + M_CF) f in
  let f := fset (Z.testbit v 0) M_CF f in
  let f := fset (xorb (msb w v) (Z.testbit v 0)) M_OF f in
  Some (v, f).

(** ALU_OPCODE_ROR_CODE: ops_alu.h:125-132. *)
Definition sh_ror (w d amt f : Z) : option (Z * Z) :=
  let v := wrap w (Z.lor (d / 2 ^ amt) (d * 2 ^ (w - amt))) in
  let f := fclear (M_OF + M_CF) f in
  let f := fset (msb w v) M_CF f in
  let f := fset (xorb (msb w v) (Z.testbit v (w - 2))) M_OF f in
  Some (v, f).

(** Loops of ALU_OPCODE_RCL_CODE (ops_alu.h:140-144) and RCR_CODE (158-162). *)
Fixpoint rcl_loop (n : nat) (w val : Z) (cf : bool) : Z * bool :=
  match n with
  | O => (val, cf)
  | S n' => rcl_loop n' w (wrap w (Z.lor (val * 2) (Z.b2z cf))) (msb w val)
  end.
Fixpoint rcr_loop (n : nat) (w val : Z) (cf : bool) : Z * bool :=
  match n with
  | O => (val, cf)
  | S n' => rcr_loop n' w (wrap w (Z.lor (val / 2) (Z.b2z cf * 2 ^ (w - 1)))) (Z.testbit val 0)
  end.

(** ALU_OPCODE_RCL_CODE: ops_alu.h:135-149. *)
Definition sh_rcl (w d amt f : Z) : option (Z * Z) :=
  let (v, cf) := rcl_loop (Z.to_nat amt) w d (ftest M_CF f) in
  let f := fclear (M_OF + M_CF) f in
  let f := fset cf M_CF f in
  let f := fset (xorb cf (msb w v)) M_OF f in
  Some (v, f).

(** ALU_OPCODE_RCR_CODE: ops_alu.h:151-165. *)
Definition sh_rcr (w d amt f : Z) : option (Z * Z) :=
  let cf0 := ftest M_CF f in
  let f := fclear (M_OF + M_CF) f in
  let f := fset (xorb (msb w d) cf0) M_OF f in
  let (v, cf) := rcr_loop (Z.to_nat amt) w d cf0 in
  Some (v, fset cf M_CF f).

(** ALU_OPCODE_SHL_CODE: ops_alu.h:167-179.  When amt = width the shift count
    width-amt-1 is negative. *)
Definition sh_shl (w d amt f : Z) : option (Z * Z) :=
  let f := fclear (M_OF + M_CF) f in
  if w <? amt then Some (0, set_comm w 0 f)
  else if w - amt - 1 <? 0 then None
  else
    let f := fset (Z.testbit d (w - amt)) M_CF f in
    let f := fset (xorb (Z.testbit d (w - amt)) (Z.testbit d (w - amt - 1))) M_OF f in
    let v := wrap w (d * 2 ^ amt) in
    Some (v, set_comm w v f).

(** OF of SHR/SAR: ops_alu.h:191-192, 211-212. *)
Definition sh_high_of (w v : Z) : bool := xorb (Z.testbit v (w - 2)) (Z.testbit v (w - 1)).

(** ALU_OPCODE_SHR_CODE: ops_alu.h:181-194. *)
Definition sh_shr (w d amt f : Z) : option (Z * Z) :=
  let f := fclear (M_OF + M_CF) f in
  let '(v, f) := if w <? amt then (0, f)
                 else (d / 2 ^ amt, fset (Z.testbit d (amt - 1)) M_CF f) in
  let f := fset (sh_high_of w v) M_OF f in
  Some (v, set_comm w v f).

(** ALU_OPCODE_SAR_CODE: ops_alu.h:198-214. *)
Definition sh_sar (w d amt f : Z) : option (Z * Z) :=
  let sg := msb w d in
  let f := fclear (M_OF + M_CF) f in
  let '(v, f) :=
    if w <=? amt then (if sg then wrap w (-1) else 0, fset sg M_CF f)
    else (wrap w (Z.lor (d / 2 ^ amt) (if sg then wrap 32 (4294967295 * 2 ^ (w - amt)) else 0)),
          fset (Z.testbit d (amt - 1)) M_CF f) in
  let f := fset (sh_high_of w v) M_OF f in
  Some (v, set_comm w v f).

(** "amt" of each macro: count & 31, then % width (ROL, ROR) or % (width+1) (RCL, RCR). *)
Definition sh_amount (op w cnt : Z) : Z :=
  match op with
  | 0 | 1 => (cnt mod 32) mod w
  | 2 | 3 => (cnt mod 32) mod (w + 1)
  | _ => cnt mod 32
  end.

(** SHIFT_SELECT_OPERATION: ops_alu.c:151-161 (op_num is 0..7). *)
Definition sh_apply (op w d amt f : Z) : option (Z * Z) :=
  match op with
  | 0 => sh_rol w d amt f
  | 1 => sh_ror w d amt f
  | 2 => sh_rcl w d amt f
  | 3 => sh_rcr w d amt f
  | 5 => sh_shr w d amt f
  | 7 => sh_sar w d amt f
  | _ => sh_shl w d amt f
  end.

(** ALU_OPCODE_SHRD_CODE / SHLD_CODE with amt > 0: ops_alu.h:342-362.  The count is not
    reduced; width-amt < 0, or a 32-bit shift by 32, is undefined.  (The rest of these macros
    is in Ops.v, because the source is read after the destination has been modified.) *)
Definition sh_dbl_bad (w amt : Z) : bool := (w <? amt) || (32 <=? amt).
(** CF/OF of MUL (ops_alu.h:239-242) and of IMUL (_IMUL_FLAGS, ops_alu.h:244-248). *)
Definition set_cfof (b : bool) (f : Z) : Z :=
  if b then Z.lor f (M_CF + M_OF) else fclear (M_CF + M_OF) f.
Definition imul_ovf (w r : Z) : bool := (r <? - 2 ^ (w - 1)) || (2 ^ (w - 1) - 1 <? r).

(** ** Decimal adjustments on (AL, AH, FLAGS), without the final SET_COMM_FLAGS. *)

(** AAA: ops_misc.c:50-66.  AAS: ops_misc.c:69-85. *)
Definition bcd_aaa (al ah f : Z) : Z * Z * Z :=
  if (9 <? al mod 16) || ftest M_AF f
  then (wrap 8 (al + 6) mod 16, wrap 8 (ah + 1), Z.lor f (M_AF + M_CF))
  else (al mod 16, ah, fclear (M_AF + M_CF) f).
Definition bcd_aas (al ah f : Z) : Z * Z * Z :=
  if (9 <? al mod 16) || ftest M_AF f
  then (wrap 8 (al - 6) mod 16, wrap 8 (ah - 1), Z.lor f (M_AF + M_CF))
  else (al mod 16, ah, fclear (M_AF + M_CF) f).

(** DAA: ops_misc.c:111-139. *)
Definition bcd_daa (al f : Z) : Z * Z :=
  let old_cf := ftest M_CF f in
  let f := fclear M_CF f in
  let '(al1, f) :=
    if (9 <? al mod 16) || ftest M_AF f
    then (wrap 8 (al + 6), fset true M_AF (fset (250 <=? al) M_CF f))
    else (al, fclear M_AF f) in
  if (153 <? al) || old_cf then (wrap 8 (al1 + 96), fset true M_CF f)
  else (al1, fclear M_CF f).

(** DAS: ops_misc.c:142-166. *)
Definition bcd_das (al f : Z) : Z * Z :=
  let old_cf := ftest M_CF f in
  let f := fclear M_CF f in
  let '(al1, f) :=
    if (9 <? al mod 16) || ftest M_AF f
    then (wrap 8 (al - 6), fset true M_AF (fset (al <? 6) M_CF f))
    else (al, fclear M_AF f) in
  if (153 <? al) || old_cf then (wrap 8 (al1 - 96), fset true M_CF f)
  else (al1, f).
