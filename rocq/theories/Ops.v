(** Every opcode handler (src/ops_*.c, src/prefixes.c, src/rme.c) and the opcode tables. *)
From Verif Require Import Base Cpu Alu.

(** Conditions of the conditional jumps, ops_jump.c:29-44, in opcode order 0x70..0x7F. *)
Inductive cond : Type :=
| C_O | C_NO | C_C | C_NC | C_Z | C_NZ | C_BE | C_A
| C_S | C_NS | C_PE | C_PO | C_L | C_GE | C_LE | C_G.
Definition cond_holds (c : cond) (f : Z) : bool :=
  match c with
  | C_O => ftest M_OF f
  | C_NO => negb (ftest M_OF f)
  | C_C => ftest M_CF f
  | C_NC => negb (ftest M_CF f)
  | C_Z => ftest M_ZF f
  | C_NZ => negb (ftest M_ZF f)
  | C_BE => ftest M_CF f || ftest M_ZF f
  | C_A => negb (ftest M_CF f || ftest M_ZF f)
  | C_S => ftest M_SF f
  | C_NS => negb (ftest M_SF f)
  | C_PE => ftest M_PF f
  | C_PO => negb (ftest M_PF f)
  | C_L => negb (Bool.eqb (ftest M_SF f) (ftest M_OF f))
  | C_GE => Bool.eqb (ftest M_SF f) (ftest M_OF f)
  | C_LE => ftest M_ZF f || negb (Bool.eqb (ftest M_SF f) (ftest M_OF f))
  | C_G => negb (ftest M_ZF f || negb (Bool.eqb (ftest M_SF f) (ftest M_OF f)))
  end.

(** Operand forms generated by CREATE_ALU_OPCODE_FCN_*, ops_alu.c:21-124. *)
Inductive form : Type := F_RM | F_RMX | F_MR | F_MRX | F_AI | F_AIX.
(** Flag instructions, ops_flags.c. *)
Inductive flagop : Type := CLC | STC | CLI | STI | CLD | STD | CMC | SAHF | LAHF.
(** String instructions, ops_string.c; the handler suffix SB is [false], SW is [true]. *)
Inductive strop : Type := MOVS | STOS | LODS | CMPS | SCAS | INS | OUTS.

(** One constructor per handler RME_Op_name_type named in opcode_table.h. *)
Inductive opid : Type :=
| OAlu (o : aluop) (f : form)
| OArithMI | OArithMIX | OArithMI8X
| OIncReg | ODecReg
| OMiscMI | OMiscMIX
| OImulMI8X | OImulMIX | OImulRMX
| OShiftMI | OShiftMI8X | OShiftM1 | OShiftM1X | OShiftMCl | OShiftMClX
| OShrdI8 | OShrdCl | OShldI8 | OShldCl
| OUnaryM | OUnaryMX
| OExt0F
| OCallN | OCallF | ORetN | ORetF | ORetiN | ORetiF | OEnter | OLeave
| OInt3 | OIntI | OInto | OIret
| OFlag (o : flagop)
| OInADx | OInADxX | OInAI | OInAIX | OOutDxA | OOutDxAX | OOutAI | OOutAIX
| OJccS (c : cond) | OJccN (c : cond) | OJcxz
| OLoopnz | OLoopz | OLoop | OJmpN | OJmpF | OJmpS
| OCbw | OBsf | OHlt | OAaa | OAas | OAam | OAad | ODaa | ODas | OCwd
| OLxs (sreg : Z) | OLea | OXlat | OBtx
| OMovMR | OMovMRX | OMovRM | OMovRMX | OMovMI | OMovMIX
| OMovAMo | OMovAMoX | OMovMoA | OMovMoAX | OMovRS | OMovSR | OMovRegB | OMovReg
| OMovZ | OMovZX | OXchgRM | OXchgRMX | OXchgReg
| OPushSeg | OPopSeg | OPushReg | OPopReg | OPushA | OPopA | OPushF | OPopF
| OPopMX | OPushI | OPushI8
| OStr (o : strop) (wide : bool)
| OOvrSeg | OOvrOpSize | OOvrAddrSize | ORep | ORepnz.

Section WithEnv.
Context (E : env).

(** width selected by bOverrideOperand (e.g. ops_alu.c:37-50). *)
Definition opw : M Z := b <- getD d_op ;; ret (if b then 32 else 16).
Definition getflags : M Z := getA r_flags.

(** ** ALU: ops_alu.c *)

(** Body of a two-operand instruction once the operands are known:
    __code; SET_COMM_FLAGS; if(dest) *dest = v  (ops_alu.c:27-29). *)
Definition alu_vals (op : aluop) (w : Z) (dst : ptr) (d s : Z) : M unit :=
  f <- getflags ;;
  let '(v, f') := alu op w d s f in
  set_flags f' ;;;
  if alu_writes op then store w dst v else ret tt.
Definition alu2 (op : aluop) (w : Z) (dst src : ptr) : M unit :=
  d <- load w dst ;; s <- load w src ;; alu_vals op w dst d s.
Definition alu2i (op : aluop) (w : Z) (dst : ptr) (imm : Z) : M unit :=
  d <- load w dst ;; alu_vals op w dst d imm.

(** CREATE_ALU_OPCODE_FCN_RM/RMX/MR/MRX/AI/AIX: ops_alu.c:21-115. *)
Definition x_alu (op : aluop) (f : form) : M unit :=
  match f with
  | F_RM => rm <- parse_modrm E ;; alu2 op 8 (fst rm) (snd rm)
  | F_RMX => rm <- parse_modrmx E ;; w <- opw ;; alu2 op w (fst rm) (snd rm)
  | F_MR => rm <- parse_modrm E ;; alu2 op 8 (snd rm) (fst rm)
  | F_MRX => rm <- parse_modrmx E ;; w <- opw ;; alu2 op w (snd rm) (fst rm)
  | F_AI => i <- fetch8 E ;; alu2i op 8 (regB 0) i
  | F_AIX => w <- opw ;; i <- fetch E w ;; alu2i op w (regW 0) i
  end.

(** ALU_SELECT_OPERATION numbering: ops_alu.c:140-150. *)
Definition aluop_of (n : Z) : aluop :=
  match n with
  | 0 => ADD | 1 => OR | 2 => ADC | 3 => SBB | 4 => AND | 5 => SUB | 6 => XOR | _ => CMP
  end.

(** Arith_MI: ops_alu.c:180-199; MIX: 201-235; MI8X: 237-270. *)
Definition x_arith_mi (p : Z) : M unit :=
  rm <- parse_modrm E ;; i <- fetch8 E ;; alu2i (aluop_of p) 8 (snd rm) i.
Definition x_arith_mix (p : Z) : M unit :=
  rm <- parse_modrmx E ;;
  f <- getflags ;; set_flags (fclear (M_OF + M_ZF + M_SF + M_PF) f) ;;;
  w <- opw ;; i <- fetch E w ;; alu2i (aluop_of p) w (snd rm) i.
Definition x_arith_mi8x (p : Z) : M unit :=
  rm <- parse_modrmx E ;;
  f <- getflags ;; set_flags (fclear (M_OF + M_ZF + M_SF + M_PF) f) ;;;
  w <- opw ;; i <- fetch8s E ;; alu2i (aluop_of p) w (snd rm) (wrap w i).

(** One-operand read-modify-write: new value and flags from a pure function. *)
Definition alu1 (g : Z -> Z -> Z -> Z * Z) (w : Z) (dst : ptr) : M unit :=
  d <- load w dst ;; f <- getflags ;;
  let '(v, f') := g w d f in
  set_flags f' ;;; store w dst v.

(** INC_Reg, DEC_Reg: ops_alu.c:272-305. *)
Definition x_inc_reg (p : Z) : M unit := w <- opw ;; alu1 alu_inc w (regW p).
Definition x_dec_reg (p : Z) : M unit := w <- opw ;; alu1 alu_dec w (regW p).

(** ALU_OPCODE_MUL_CODE: ops_alu.h:218-242. *)
Definition mul_body (w : Z) (src : ptr) : M unit :=
  s <- load w src ;;
  a <- get_gpr 0 w ;;
  let r := a * s in
  (if w =? 8 then setW R_AX r
   else set_gpr 64 w (r / 2 ^ w) ;;; set_gpr 0 w r) ;;;
  f <- getflags ;;
  set_flags (set_cfof (negb (r / 2 ^ w =? 0)) (set_comm w (wrap w r) f)).

(** ALU_OPCODE_IMUL_CODE: ops_alu.h:252-273. *)
Definition imul_body (w : Z) (src : ptr) : M unit :=
  s <- load w src ;;
  a <- get_gpr 0 w ;;
  let r := sgn w a * sgn w s in
  (if w =? 8 then setW R_AX r
   else set_gpr 64 w (r / 2 ^ w) ;;; set_gpr 0 w r) ;;;
  f <- getflags ;;
  set_flags (set_cfof (imul_ovf w r) (set_comm w (wrap w r) f)).

(** ALU_OPCODE_DIV_CODE: ops_alu.h:278-306. *)
Definition div_body (w : Z) (src : ptr) : M unit :=
  s <- load w src ;;
  if s =? 0 then err E_DIVERR else
  if w =? 8 then
    n <- getW R_AX ;;
    if 255 <? n / s then err E_DIVERR
    else setH R_AX (n mod s) ;;; setL R_AX (n / s)
  else
    hi <- get_gpr 64 w ;; lo <- get_gpr 0 w ;;
    let n := hi * 2 ^ w + lo in
    if 2 ^ w - 1 <? n / s then err E_DIVERR
    else set_gpr 64 w (n mod s) ;;; set_gpr 0 w (n / s).

(** ALU_OPCODE_IDIV_CODE: ops_alu.h:312-339.  In the 32-bit case the bound -0x80000000 is
    an unsigned constant, i.e. +2147483648. *)
Definition idiv_body (w : Z) (src : ptr) : M unit :=
  s <- load w src ;;
  if s =? 0 then err E_DIVERR else
  let den := sgn w s in
  if w =? 8 then
    ax <- getW R_AX ;;
    let num := sgn 16 ax in
    let quo := sgn 16 (Z.quot num den) in
    let rem := sgn 16 (num - quo * den) in
    if (quo <? -128) || (127 <? quo) then err E_DIVERR
    else setH R_AX rem ;;; setL R_AX quo
  else
    hi <- get_gpr 64 w ;; lo <- get_gpr 0 w ;;
    let num := sgn (2 * w) (hi * 2 ^ w + lo) in
    if (num =? - 2 ^ (2 * w - 1)) && (den =? -1) then undef UbDivOverflow else
    let quo := Z.quot num den in
    if (2 ^ (w - 1) - 1 <? quo) ||
       (quo <? (if w =? 32 then 2147483648 else - 2 ^ (w - 1)))
    then err E_DIVERR
    else set_gpr 64 w (Z.rem num den) ;;; set_gpr 0 w quo.

(** MISC_SELECT_OPERATION: ops_alu.c:168-178. *)
Definition misc_select (p w : Z) (arg : ptr) : M unit :=
  match p with
  | 0 => i <- fetch E w ;; s <- load w arg ;; alu_vals TEST w arg i s
  | 1 => err E_UNDEF
  | 2 => s <- load w arg ;; store w arg (Z.lnot s)
  | 3 => alu1 alu_neg w arg
  | 4 => mul_body w arg
  | 5 => imul_body w arg
  | 6 => div_body w arg
  | 7 => idiv_body w arg
  | _ => err E_UNDEF
  end.

(** ArithMisc_MI: ops_alu.c:307-324; MIX: 326-349. *)
Definition x_misc_mi (p : Z) : M unit :=
  rm <- parse_modrm E ;; misc_select p 8 (snd rm).
Definition x_misc_mix (p : Z) : M unit :=
  rm <- parse_modrmx E ;; w <- opw ;; misc_select p w (snd rm).

(** Tail of the two- and three-operand IMULs: ops_alu.c:371-374, 399-402, 423-427.
    uint16_t * uint16_t is an int multiplication. *)
Definition imul2 (dst : ptr) (a b : Z) : M unit :=
  let r := a * b in
  if 2 ^ 31 <=? r then undef UbMulOverflow else
  let v := wrap 16 r in
  f <- getflags ;;
  set_flags (set_cfof (imul_ovf 16 v) (set_comm 16 v f)) ;;;
  store 16 dst v.
(** IMUL_MI8X: ops_alu.c:351-377; IMUL_MIX: 379-405; IMUL_RMX: 407-430. *)
Definition x_imul_mi8x : M unit :=
  o <- getD d_op ;;
  if o then err E_BUG else
  rm <- parse_modrmx E ;; i <- fetch8s E ;;
  s <- load 16 (snd rm) ;; imul2 (fst rm) s (wrap 16 i).
Definition x_imul_mix : M unit :=
  o <- getD d_op ;;
  if o then err E_BUG else
  rm <- parse_modrmx E ;; i <- fetch16 E ;;
  s <- load 16 (snd rm) ;; imul2 (fst rm) s i.
Definition x_imul_rmx : M unit :=
  o <- getD d_op ;;
  if o then err E_BUG else
  rm <- parse_modrmx E ;;
  s <- load 16 (snd rm) ;; d <- load 16 (fst rm) ;; imul2 (fst rm) s d.

(** A shift macro applied through SHIFT_SELECT_OPERATION; *dest is not touched when amt = 0. *)
Definition do_shift (op w : Z) (dst : ptr) (cnt : Z) : M unit :=
  let amt := sh_amount op w cnt in
  if amt =? 0 then ret tt else
  d <- load w dst ;; f <- getflags ;;
  match sh_apply op w d amt f with
  | Some (v, f') => set_flags f' ;;; store w dst v
  | None => undef UbShift
  end.

(** Shift_MI: ops_alu.c:433-449; MI8X: 452-484; M1: 487-502; M1X: 505-532; MCl: 535-550;
    MClX: 553-580. *)
Definition x_shift_mi (p : Z) : M unit :=
  rm <- parse_modrm E ;; c <- fetch8 E ;; do_shift p 8 (snd rm) c.
Definition x_shift_mi8x (p : Z) : M unit :=
  rm <- parse_modrmx E ;; c <- fetch8 E ;; w <- opw ;; do_shift p w (snd rm) c.
Definition x_shift_m1 (p : Z) : M unit :=
  rm <- parse_modrm E ;; do_shift p 8 (snd rm) 1.
Definition x_shift_m1x (p : Z) : M unit :=
  rm <- parse_modrmx E ;; w <- opw ;; do_shift p w (snd rm) 1.
Definition x_shift_mcl (p : Z) : M unit :=
  c <- getL R_CX ;; rm <- parse_modrm E ;; do_shift p 8 (snd rm) c.
Definition x_shift_mclx (p : Z) : M unit :=
  c <- getL R_CX ;; rm <- parse_modrmx E ;; w <- opw ;; do_shift p w (snd rm) c.

(** ALU_OPCODE_SHRD_CODE (ops_alu.h:342-351) and SHLD_CODE (353-362) through _EXT_OP_SD
    (ops_alu.c:11-19).  The source is read after the destination has been shifted, so
    overlapping operands interact. *)
Definition do_dbl (left : bool) (w : Z) (dst src : ptr) (amt : Z) : M unit :=
  if amt =? 0 then ret tt else
  if sh_dbl_bad w amt then undef UbShift else
  d <- load w dst ;;
  f <- getflags ;;
  set_flags (fset (Z.testbit d (if left then w - amt else amt - 1)) M_CF
                  (fclear (M_CF + M_OF + M_AF) f)) ;;;
  store w dst (if left then d * 2 ^ amt else d / 2 ^ amt) ;;;
  d1 <- load w dst ;; s <- load w src ;;
  store w dst (Z.lor d1 (if left then s / 2 ^ (w - amt) else s * 2 ^ (w - amt))) ;;;
  v <- load w dst ;;
  f1 <- getflags ;;
  let f2 := if amt =? 1
            then fset (if left then xorb (msb w v) (ftest M_CF f1)
                       else xorb (msb w v) (Z.testbit v (w - 2))) M_OF f1
            else f1 in
  set_flags (set_comm w v f2).

(** SHRD_I8: ops_alu.c:583-597; SHRD_Cl: 600-614; SHLD_I8: 617-631; SHLD_Cl: 634-648.
    All four decode the operands with the 8-bit RME_Int_ParseModRM. *)
Definition x_dbl_i8 (left : bool) : M unit :=
  rm <- parse_modrm E ;; c <- fetch8 E ;; w <- opw ;; do_dbl left w (snd rm) (fst rm) c.
Definition x_dbl_cl (left : bool) : M unit :=
  rm <- parse_modrm E ;; c <- getL R_CX ;; w <- opw ;; do_dbl left w (snd rm) (fst rm) c.

(** ** Unary groups FE/FF: rme.c:327-473 *)

(** RME_Op_Unary_M: rme.c:327-351. *)
Definition x_unary_m (p : Z) : M unit :=
  match p with
  | 0 => rm <- parse_modrm E ;; alu1 alu_inc 8 (snd rm)
  | 1 => rm <- parse_modrm E ;; alu1 alu_dec 8 (snd rm)
  | _ => err E_UNDEF
  end.

(** RME_Int_ParseModRMX_FarPtr: rme.c:353-377; returns (cs, ip). *)
Definition parse_farptr : M (Z * Z) :=
  m <- get_modrm E ;;
  if m_mod m =? 3 then err E_UNDEF else
  so <- get_mmm E m ;;
  ip <- rd E 16 (fst so) (snd so) ;;
  cs <- rd E 16 (fst so) (snd so + 2) ;;
  ret (cs, ip).

(** IP + IPOffset, the address of the next instruction. *)
Definition next_ip : M Z := ip <- getA r_ip ;; o <- getD d_ipoff ;; ret (wrap 16 (ip + o)).
Definition dont_change_ip : M unit := upd_dc (dd_noip true).

(** RME_Op_Unary_MX: rme.c:379-473.  (The second SET_COMM_FLAGS after INC/DEC repeats the one
    inside the macro and is omitted.) *)
Definition x_unary_mx (p : Z) : M unit :=
  o <- getD d_op ;;
  if o then
    match p with
    | 0 => rm <- parse_modrmx E ;; alu1 alu_inc 32 (snd rm)
    | 1 => rm <- parse_modrmx E ;; alu1 alu_dec 32 (snd rm)
    | 6 => rm <- parse_modrmx E ;; push E (load 32 (snd rm))
    | _ => err E_UNDEF
    end
  else
    match p with
    | 0 => rm <- parse_modrmx E ;; alu1 alu_inc 16 (snd rm)
    | 1 => rm <- parse_modrmx E ;; alu1 alu_dec 16 (snd rm)
    | 2 => rm <- parse_modrmx E ;; push E next_ip ;;;
           v <- load 16 (snd rm) ;; set_ip v ;;; dont_change_ip
    | 3 => ci <- parse_farptr ;; push E (getA r_cs) ;;; push E next_ip ;;;
           set_ip (snd ci) ;;; set_cs (fst ci) ;;; dont_change_ip
    | 4 => rm <- parse_modrmx E ;; v <- load 16 (snd rm) ;; set_ip v ;;; dont_change_ip
    | 5 => ci <- parse_farptr ;; set_ip (snd ci) ;;; set_cs (fst ci) ;;; dont_change_ip
    | 6 => rm <- parse_modrmx E ;; push E (load 16 (snd rm))
    | _ => err E_UNDEF
    end.

(** ** Calls, returns, interrupts: ops_call.c *)

(** CALL_N: 10-19; CALL_F: 21-34. *)
Definition x_call_n : M unit :=
  d <- fetch16 E ;; push E next_ip ;;; ip <- getA r_ip ;; set_ip (ip + d).
Definition x_call_f : M unit :=
  o <- fetch16 E ;; sg <- fetch16 E ;;
  push E (getA r_cs) ;;; push E next_ip ;;; set_cs sg ;;; set_ip o ;;; dont_change_ip.
(** RET_N: 36-44; RET_F: 45-55; RET_iN: 56-67; RET_iF: 68-81. *)
Definition x_ret_n : M unit := o <- pop E ;; set_ip o ;;; dont_change_ip.
Definition x_ret_f : M unit :=
  o <- pop E ;; sg <- pop E ;; set_cs sg ;;; set_ip o ;;; dont_change_ip.
Definition x_ret_in : M unit :=
  n <- fetch16 E ;; o <- pop E ;; set_ip o ;;;
  sp <- getW R_SP ;; setW R_SP (sp + n) ;;; dont_change_ip.
Definition x_ret_if : M unit :=
  n <- fetch16 E ;; o <- pop E ;; sg <- pop E ;; set_cs sg ;;; set_ip o ;;;
  sp <- getW R_SP ;; setW R_SP (sp + n) ;;; dont_change_ip.

(** The for loop of ENTER: ops_call.c:102-121 (n = level - 1 iterations). *)
Fixpoint enter_loop (n : nat) : M unit :=
  match n with
  | O => ret tt
  | S n' =>
    o <- getD d_op ;;
    if o then err E_UNDEF else
    bp <- getW R_BP ;; setW R_BP (bp - 2) ;;;
    ss <- getA r_ss ;; bp' <- getW R_BP ;;
    v <- rd E 16 ss bp' ;;
    push E (ret v) ;;;
    enter_loop n'
  end.
(** ENTER: ops_call.c:83-141. *)
Definition x_enter : M unit :=
  size <- fetch16 E ;; lv <- fetch8 E ;;
  let level := lv mod 32 in
  push E (getW R_BP) ;;;
  ft <- getW R_SP ;;
  (if 1 <? level then
     enter_loop (Z.to_nat (level - 1)) ;;;
     o <- getD d_op ;;
     if o then ret tt else push E (ret ft)
   else ret tt) ;;;
  setW R_BP ft ;;;
  sp <- getW R_SP ;; setW R_SP (sp - size).
(** LEAVE: ops_call.c:143-153. *)
Definition x_leave : M unit :=
  bp <- getW R_BP ;; setW R_SP bp ;;;
  o <- getD d_op ;;
  if o then ret tt else v <- pop E ;; setW R_BP v.

(** State->HLECallbacks[n](State, n) if non-NULL (ops_call.c:174-175, rme.c:174-175). *)
Definition call_hle (n : Z) : M unit := fun s =>
  let h := hle (ar s) n in
  if h =? 0 then Ok tt s else Ok tt (callback E h n s).

(** _CallInterrupt: ops_call.c:155-189. *)
Definition call_interrupt (num : Z) : M unit :=
  o <- rd E 16 0 (num * 4) ;;
  sg <- rd E 16 0 (num * 4 + 2) ;;
  if (o =? 0) && (sg =? 0) then err E_BADMEM else
  if (sg =? 47104) && (o =? num) then call_hle num else   (* RME_HLE_CS 0xB800, rme.h:62 *)
  push E getflags ;;; push E (getA r_cs) ;;; push E next_ip ;;;
  set_ip o ;;; set_cs sg ;;;
  f <- getflags ;; set_flags (fclear (M_IF + M_TF) f) ;;;
  dont_change_ip.
(** INT_3, INT_I, INTO, IRET: ops_call.c:192-218. *)
Definition x_int_i : M unit := n <- fetch8 E ;; call_interrupt n.
Definition x_into : M unit :=
  f <- getflags ;; if ftest M_OF f then call_interrupt 4 else ret tt.
Definition x_iret : M unit :=
  i <- pop E ;; set_ip i ;;;
  c <- pop E ;; set_cs c ;;;
  f <- pop E ;; set_flags (wrap 16 f) ;;;
  dont_change_ip.

(** ** Flags: ops_flags.c:10-56 *)
Definition upd_flags (g : Z -> Z) : M unit := f <- getflags ;; set_flags (g f).
Definition x_flag (o : flagop) : M unit :=
  match o with
  | CLC => upd_flags (fclear M_CF)
  | STC => upd_flags (fset true M_CF)
  | CLI => upd_flags (fclear M_IF)
  | STI => upd_flags (fset true M_IF)
  | CLD => upd_flags (fclear M_DF)
  | STD => upd_flags (fset true M_DF)
  | CMC => upd_flags (fun f => Z.lxor f M_CF)
  | SAHF => ah <- getH R_AX ;; upd_flags (fun f => Z.lor (fclear 213 f) (Z.land ah 213))
  | LAHF => f <- getflags ;; setH R_AX (Z.land f 255)
  end.

(** ** Port I/O: ops_io.c, ops_io.h:9-14 *)
Definition io_in (w port : Z) : M Z := fun s =>
  let v := wrap w (port_in E (iolog (ar s)) w port) in
  Ok v (set_ar (a_iolog (iolog (ar s) ++ [IoIn w port v]) (ar s)) s).
Definition io_out (w port v : Z) : M unit := fun s =>
  Ok tt (set_ar (a_iolog (iolog (ar s) ++ [IoOut w port v]) (ar s)) s).
(** IN_ADx: 12-16, IN_ADxX: 18-30, IN_AI: 32-38, IN_AIX: 40-55 of ops_io.c. *)
Definition x_in_adx : M unit := p <- getW R_DX ;; v <- io_in 8 p ;; setL R_AX v.
Definition x_in_adxx : M unit :=
  w <- opw ;; p <- getW R_DX ;; v <- io_in w p ;; set_gpr 0 w v.
Definition x_in_ai : M unit := p <- fetch8 E ;; v <- io_in 8 p ;; setL R_AX v.
Definition x_in_aix : M unit :=
  p <- fetch8 E ;; w <- opw ;; v <- io_in w p ;; set_gpr 0 w v.
(** OUT_DxA: 57-61, OUT_DxAX: 62-74, OUT_AI: 76-82, OUT_AIX: 84-98 of ops_io.c. *)
Definition x_out_dxa : M unit := p <- getW R_DX ;; v <- getL R_AX ;; io_out 8 p v.
Definition x_out_dxax : M unit :=
  w <- opw ;; p <- getW R_DX ;; v <- get_gpr 0 w ;; io_out w p v.
Definition x_out_ai : M unit := p <- fetch8 E ;; v <- getL R_AX ;; io_out 8 p v.
Definition x_out_aix : M unit :=
  p <- fetch8 E ;; w <- opw ;; v <- get_gpr 0 w ;; io_out w p v.

(** ** Jumps: ops_jump.c *)
(** MAKE_COND_JUMP_S / _N: ops_jump.c:9-27. *)
Definition jump_if (b : bool) (dist : Z) : M unit :=
  if b then ip <- getA r_ip ;; set_ip (ip + dist) else ret tt.
Definition x_jcc_s (c : cond) : M unit :=
  d <- fetch8s E ;; f <- getflags ;; jump_if (cond_holds c f) (wrap 16 d).
Definition x_jcc_n (c : cond) : M unit :=
  d <- fetch16 E ;; f <- getflags ;; jump_if (cond_holds c f) d.
(** JCXZ: ops_jump.c:81-94. *)
Definition x_jcxz : M unit :=
  d <- fetch8s E ;; w <- opw ;; c <- get_gpr 32 w ;;
  jump_if (c =? 0) (wrap 16 d).
(** LOOPNZ: 97-109; LOOPZ: 111-123; LOOP: 125-137. *)
Definition loop_with (g : Z -> bool) : M unit :=
  d <- fetch8s E ;;
  c <- getW R_CX ;; setW R_CX (c - 1) ;;;
  c' <- getW R_CX ;; f <- getflags ;;
  jump_if (negb (c' =? 0) && g f) (wrap 16 d).
(** JMP_N: 140-147; JMP_F: 149-159; JMP_S: 161-168. *)
Definition x_jmp_n : M unit := d <- fetch16 E ;; jump_if true d.
Definition x_jmp_s : M unit := d <- fetch8s E ;; jump_if true (wrap 16 d).
Definition x_jmp_f : M unit :=
  o <- fetch16 E ;; sg <- fetch16 E ;; set_cs sg ;;; set_ip o ;;; dont_change_ip.

(** ** Miscellaneous: ops_misc.c *)
(** CBW: ops_misc.c:10-17. *)
Definition x_cbw : M unit := l <- getL R_AX ;; w <- opw ;; set_gpr 0 w (sgn 8 l).
(** The search loop of BSF, ops_misc.c:33-36, n = 16 - val steps left. *)
Fixpoint bsf_loop (n : nat) (val src : Z) : Z :=
  match n with
  | O => val
  | S n' => if Z.testbit src val then val else bsf_loop n' (val + 1) src
  end.
(** BSF: ops_misc.c:19-41 (16-bit only). *)
Definition x_bsf : M unit :=
  rm <- parse_modrmx E ;;
  s <- load 16 (snd rm) ;;
  if s =? 0 then upd_flags (fset true M_ZF)
  else store 16 (fst rm) (bsf_loop 16 0 s) ;;; upd_flags (fclear M_ZF).
(** AAA: 50-66, AAS: 69-85. *)
Definition x_aaas (g : Z -> Z -> Z -> Z * Z * Z) : M unit :=
  al <- getL R_AX ;; ah <- getH R_AX ;; f <- getflags ;;
  let '(al', ah', f') := g al ah f in
  setL R_AX al' ;;; setH R_AX ah' ;;; set_flags (set_comm 8 al' f').
(** AAM: ops_misc.c:88-97; AAD: 99-108. *)
Definition x_aam : M unit :=
  i <- fetch8 E ;;
  if i =? 0 then err E_DIVERR else
  al <- getL R_AX ;; setH R_AX (al / i) ;;; setL R_AX (al mod i) ;;;
  upd_flags (set_comm 8 (al mod i)).
Definition x_aad : M unit :=
  i <- fetch8 E ;;
  al <- getL R_AX ;; ah <- getH R_AX ;;
  let v := wrap 8 (al + ah * i) in
  setL R_AX v ;;; setH R_AX 0 ;;;
  upd_flags (fun f => fclear (M_OF + M_CF) (set_comm 8 v f)).
(** DAA: ops_misc.c:111-139, DAS: 142-166. *)
Definition x_daas (g : Z -> Z -> Z * Z) : M unit :=
  al <- getL R_AX ;; f <- getflags ;;
  let '(al', f') := g al f in
  setL R_AX al' ;;; set_flags (set_comm 8 al' f').
(** CWD: ops_misc.c:169-186. *)
Definition x_cwd : M unit :=
  w <- opw ;; a <- get_gpr 0 w ;; set_gpr 64 w (if msb w a then -1 else 0).

(** RME_Int_GetModRM with its error code ignored (ops_misc.c:199, rme.c:242): on failure
    the structure stays uninitialised and is then used. *)
Definition get_modrm_nocheck : M modrm := fun s =>
  match get_modrm E s with
  | Err _ _ => UB UbUninit
  | x => x
  end.
(** _LDS_LES_internal: ops_misc.c:192-228, for LES LDS LFS LGS LSS (230-250). *)
Definition x_lxs (sreg : Z) : M unit :=
  m <- get_modrm_nocheck ;;
  if m_mod m =? 3 then err E_UNDEF else
  so <- get_mmm E m ;;
  w <- opw ;;
  v <- rd E w (fst so) (snd so) ;;
  store w (regW (m_rrr m)) v ;;;
  sv <- rd E 16 (fst so) (snd so + w / 8) ;;
  setseg sreg sv.
(** LEA: ops_misc.c:252-275. *)
Definition x_lea : M unit :=
  m <- get_modrm E ;;
  if m_mod m =? 3 then err E_UNDEF else
  so <- get_mmm E m ;;
  w <- opw ;; store w (regW (m_rrr m)) (snd so).
(** GET_SEGMENT(State, SREG_DS): rme_internal.h:270 (also ops_misc.c:286). *)
Definition data_seg : M Z :=
  o <- getD d_seg ;; getseg (if o =? -1 then S_DS else o).
(** XLAT: ops_misc.c:278-302. *)
Definition x_xlat : M unit :=
  sg <- data_seg ;;
  a <- getD d_addr ;;
  b <- get_gpr 96 (if a then 32 else 16) ;;
  l <- getL R_AX ;;
  v <- rd E 8 sg (wrap 32 (b + l)) ;; setL R_AX v.
(** BTx_RI8: ops_misc.c:304-351.  (Ext_0F always passes Arg = 0.) *)
Definition x_btx (p : Z) : M unit :=
  if p <? 4 then err E_UNDEF else
  rm <- parse_modrmx E ;; o <- fetch8 E ;; w <- opw ;;
  v <- load w (snd rm) ;;
  let k := o mod w in
  upd_flags (fun f => if Z.testbit v k then fclear M_CF f else fset true M_CF f) ;;;
  match p with
  | 4 => ret tt
  | 5 => store w (snd rm) (Z.lor v (2 ^ k))
  | 6 => store w (snd rm) (Z.ldiff v (2 ^ k))
  | _ => store w (snd rm) (Z.lxor v (2 ^ k))
  end.

(** ** Moves: ops_mov.c *)
(** *dest = *src. *)
Definition copy (w : Z) (dst src : ptr) : M unit := v <- load w src ;; store w dst v.
(** MOV_MR: 14-24, MRX: 25-44, RM: 47-57, RMX: 58-77, MI: 79-89, MIX: 90-115. *)
Definition x_mov_mr : M unit := rm <- parse_modrm E ;; copy 8 (snd rm) (fst rm).
Definition x_mov_mrx : M unit := rm <- parse_modrmx E ;; w <- opw ;; copy w (snd rm) (fst rm).
Definition x_mov_rm : M unit := rm <- parse_modrm E ;; copy 8 (fst rm) (snd rm).
Definition x_mov_rmx : M unit := rm <- parse_modrmx E ;; w <- opw ;; copy w (fst rm) (snd rm).
Definition x_mov_mi : M unit := rm <- parse_modrm E ;; i <- fetch8 E ;; store 8 (snd rm) i.
Definition x_mov_mix : M unit :=
  rm <- parse_modrmx E ;; w <- opw ;; i <- fetch E w ;; store w (snd rm) i.
(** The offset operand of A0..A3 (ops_mov.c:127-134). *)
Definition moffs : M (Z * Z) :=
  sg <- data_seg ;; a <- getD d_addr ;; o <- fetch E (if a then 32 else 16) ;; ret (sg, o).
(** MOV_AMo: 118-140, AMoX: 141-166, MoA: 169-189, MoAX: 190-216. *)
Definition x_mov_amo : M unit :=
  so <- moffs ;; v <- rd E 8 (fst so) (snd so) ;; setL R_AX v.
Definition x_mov_amox : M unit :=
  so <- moffs ;; w <- opw ;; v <- rd E w (fst so) (snd so) ;; set_gpr 0 w v.
Definition x_mov_moa : M unit :=
  so <- moffs ;; v <- getL R_AX ;; wr E 8 (fst so) (snd so) v.
Definition x_mov_moax : M unit :=
  so <- moffs ;; w <- opw ;; v <- get_gpr 0 w ;; wr E w (fst so) (snd so) v.
(** READ_INSTR8( byte2 ); IPOffset --   (ops_mov.c:231, 255). *)
Definition peek8 : M Z :=
  b <- fetch8 E ;; upd_dc (fun d => dd_ipoff (d_ipoff d - 1) d) ;;; ret b.
(** MOV_RS: ops_mov.c:219-241; MOV_SR: 243-265. *)
Definition x_mov_rs : M unit :=
  o <- getD d_op ;;
  if o then err E_UNDEF else
  b <- peek8 ;; rm <- parse_modrmx E ;;
  v <- getseg ((b / 8) mod 8) ;; store 16 (snd rm) v.
Definition x_mov_sr : M unit :=
  o <- getD d_op ;;
  if o then err E_UNDEF else
  b <- peek8 ;; chkseg ((b / 8) mod 8) ;;; rm <- parse_modrmx E ;;
  v <- load 16 (snd rm) ;; setseg ((b / 8) mod 8) v.
(** MOV_RegB: 267-275, MOV_Reg: 276-295. *)
Definition x_mov_regb (p : Z) : M unit := i <- fetch8 E ;; store 8 (regB p) i.
Definition x_mov_reg (p : Z) : M unit := w <- opw ;; i <- fetch E w ;; store w (regW p) i.
(** MOV_Z: 298-318, MOV_ZX: 319-340. *)
Definition x_mov_z : M unit :=
  m <- get_modrm E ;; p <- decode_modm E m ;; w <- opw ;;
  v <- load 8 p ;; store w (regW (m_rrr m)) v.
Definition x_mov_zx : M unit :=
  m <- get_modrm E ;; p <- decode_modmx E m ;; w <- opw ;;
  v <- load 16 p ;; store w (regW (m_rrr m)) v.
(** XCHG macro: ops_mov.c:10;  XCHG_RM: 343-351, RMX: 352-370, Reg: 371-390. *)
Definition xchg (w : Z) (a b : ptr) : M unit :=
  t <- load w a ;; u <- load w b ;; store w a u ;;; store w b t.
Definition x_xchg_rm : M unit := rm <- parse_modrm E ;; xchg 8 (fst rm) (snd rm).
Definition x_xchg_rmx : M unit :=
  w <- opw ;; rm <- parse_modrmx E ;; xchg w (fst rm) (snd rm).
Definition x_xchg_reg (p : Z) : M unit :=
  if p =? 0 then ret tt else w <- opw ;; xchg w (regW 0) (regW p).

(** ** Stack: ops_stack.c *)
(** PUSH_Seg: 11-17, POP_Seg: 19-25, PUSH_Reg: 27-35, POP_Reg: 37-45. *)
Definition x_push_seg (p : Z) : M unit := chkseg p ;;; push E (getseg p).
Definition x_pop_seg (p : Z) : M unit := chkseg p ;;; v <- pop E ;; setseg p v.
Definition x_push_reg (p : Z) : M unit :=
  o <- getD d_op ;;
  (if o then push E (get_gpr (32 * p + 16) 16) else ret tt) ;;;
  push E (getW p).
Definition x_pop_reg (p : Z) : M unit :=
  v <- pop E ;; setW p v ;;;
  o <- getD d_op ;;
  if o then h <- pop E ;; set_gpr (32 * p + 16) 16 h else ret tt.
(** PUSH_A: 47-58, POP_A: 60-69. *)
Definition x_pusha : M unit :=
  o <- getD d_op ;;
  if o then err E_UNDEF else
  sp <- getW R_SP ;;
  push E (getW R_AX) ;;; push E (getW R_CX) ;;; push E (getW R_DX) ;;; push E (getW R_BX) ;;;
  push E (ret sp) ;;; push E (getW R_BP) ;;; push E (getW R_SI) ;;; push E (getW R_DI).
Definition pop_to (r : Z) : M unit := v <- pop E ;; setW r v.
Definition x_popa : M unit :=
  o <- getD d_op ;;
  if o then err E_UNDEF else
  pop_to R_DI ;;; pop_to R_SI ;;; pop_to R_BP ;;;
  sp <- getW R_SP ;; setW R_SP (sp + 2) ;;;
  pop_to R_BX ;;; pop_to R_DX ;;; pop_to R_CX ;;; pop_to R_AX.
(** PUSH_F: 71-77, POP_F: 79-95. *)
Definition x_pushf : M unit :=
  o <- getD d_op ;; if o then err E_UNDEF else push E getflags.
Definition popf_masks (c : Z) : option (Z * Z) :=
  match c with
  | 0 => Some (61442, 40)     (* RME_CPU_8086  0xF002 0x0028 *)
  | 1 => Some (2, 61480)      (* RME_CPU_80286 0x0002 0xF028 *)
  | 2 => Some (2, 40)         (* RME_CPU_386   0x0002 0x0028 *)
  | _ => None
  end.
Definition x_popf : M unit :=
  o <- getD d_op ;;
  if o then err E_UNDEF else
  t <- pop E ;; c <- getA cpu ;;
  match popf_masks c with
  | Some (st_, cl) => set_flags (wrap 16 (Z.ldiff (Z.lor t st_) cl))
  | None => undef UbCpuType
  end.
(** POP_MX: 119-129, PUSH_I: 131-141, PUSH_I8: 143-153. *)
Definition x_pop_mx : M unit :=
  o <- getD d_op ;;
  if o then err E_UNDEF else
  rm <- parse_modrmx E ;; v <- pop E ;; store 16 (snd rm) v.
Definition push_imm (v : Z) : M unit :=
  o <- getD d_op ;;
  (if o then push E (ret (v / 65536)) else ret tt) ;;; push E (ret v).
Definition x_push_i : M unit := v <- fetch16 E ;; push_imm v.
Definition x_push_i8 : M unit := v <- fetch8s E ;; push_imm (wrap 32 v).

(** ** String instructions: ops_string.c *)

(** Loop body between STRING_HEAD and STRING_FOOTER for each instruction at width w:
    MOVS 91-132, STOS 134-165, LODS 166-196, CMPS 198-256, SCAS 259-312, INS 314-356,
    OUTS 357-399. *)
Definition str_body (o : strop) (w sseg sofs dseg dofs : Z) : M unit :=
  match o with
  | MOVS => v <- rd E w sseg sofs ;; wr E w dseg dofs v
  | STOS => v <- get_gpr 0 w ;; wr E w dseg dofs v
  | LODS => v <- rd E w sseg sofs ;; set_gpr 0 w v
  | CMPS => a <- rd E w sseg sofs ;; b <- rd E w dseg dofs ;; alu_vals CMP w (regW 0) a b
  | SCAS => b <- rd E w dseg dofs ;; a <- get_gpr 0 w ;; alu_vals CMP w (regW 0) a b
  | INS => p <- getW R_DX ;; v <- io_in w p ;; wr E w dseg dofs v
  | OUTS => v <- rd E w sseg sofs ;; p <- getW R_DX ;; io_out w p v
  end.
(** Arguments of STRING_HEAD per instruction: __check_zf, __use_di, __use_si. *)
Definition str_zf (o : strop) : bool := match o with CMPS | SCAS => true | _ => false end.
Definition str_di (o : strop) : bool := match o with LODS | OUTS => false | _ => true end.
Definition str_si (o : strop) : bool := match o with STOS | SCAS | INS => false | _ => true end.

(** The do/while loop of STRING_HEAD/STRING_FOOTER (ops_string.c:53-73).  [m] is the number
    of bits kept by the offset mask.  Returns the final (srcOfs, destOfs); an offset that
    the C code leaves uninitialised starts at 0 here and is never used. *)
Fixpoint str_loop (fuel : nat) (o : strop) (w m sseg dseg sofs dofs : Z) : M (Z * Z) :=
  match fuel with
  | O => fun _ => Fuel
  | S fuel' =>
    rep <- getD d_rep ;;
    cx <- getW R_CX ;;
    if negb (rep =? 0) && (cx =? 0) then ret (sofs, dofs) else
    (if rep =? 0 then ret tt else setW R_CX (cx - 1)) ;;;
    str_body o w sseg sofs dseg dofs ;;;
    f <- getflags ;;
    let delta := if ftest M_DF f then - (w / 8) else w / 8 in
    let sofs' := wrap m (sofs + delta) in
    let dofs' := wrap m (dofs + delta) in
    if str_zf o && (rep =? 242) && ftest M_ZF f then ret (sofs', dofs') else
    if str_zf o && (rep =? 243) && negb (ftest M_ZF f) then ret (sofs', dofs') else
    if rep =? 0 then ret (sofs', dofs')
    else str_loop fuel' o w m sseg dseg sofs' dofs'
  end.

(** STRING_HEAD ... STRING_FOOTER: ops_string.c:13-88. *)
Definition x_str (o : strop) (wide : bool) : M unit :=
  ow <- opw ;;
  let w := if wide then ow else 8 in
  a <- getD d_addr ;;
  let m := if a then 32 else 16 in
  dseg <- (if str_di o then getseg S_ES else ret 0) ;;
  dofs <- (if str_di o then get_gpr 224 m else ret 0) ;;
  sseg <- (if str_si o then data_seg else ret 0) ;;
  sofs <- (if str_si o then get_gpr 192 m else ret 0) ;;
  rep <- getD d_rep ;;
  cx <- getW R_CX ;;
  if negb (rep =? 0) && (cx =? 0) then upd_dc (dd_rep 0) else
  so <- str_loop (S (Z.to_nat cx)) o w m sseg dseg sofs dofs ;;
  (if str_di o then set_gpr 224 m (snd so) else ret tt) ;;;
  (if str_si o then set_gpr 192 m (fst so) else ret tt) ;;;
  upd_dc (dd_rep 0).

(** ** Prefixes: prefixes.c *)
(** Ovr_Seg: 10-17, Ovr_OpSize: 19-26, Ovr_AddrSize: 27-34, Prefix_REP: 36-42, REPNZ: 43-49. *)
Definition x_ovr_seg (p : Z) : M unit :=
  o <- getD d_seg ;;
  if o =? -1 then chkseg p ;;; upd_dc (dd_seg p) ;;; err E_CONTINUE else err E_UNDEF.
Definition x_ovr_op : M unit :=
  o <- getD d_op ;;
  if o then err E_UNDEF else upd_dc (dd_op true) ;;; err E_CONTINUE.
Definition x_ovr_addr : M unit :=
  o <- getD d_addr ;;
  if o then err E_UNDEF else upd_dc (dd_addr true) ;;; err E_CONTINUE.
Definition x_rep (v : Z) : M unit :=
  o <- getD d_rep ;;
  if o =? 0 then upd_dc (dd_rep v) ;;; err E_CONTINUE else err E_UNDEF.

(** Handler dispatch: caOperations[opcode].Function(State, Param).  Ext_0F is handled in
    [exec] below; the 0F table does not contain it. *)
Definition exec1 (o : opid) (p : Z) : M unit :=
  match o with
  | OAlu op f => x_alu op f
  | OArithMI => x_arith_mi p
  | OArithMIX => x_arith_mix p
  | OArithMI8X => x_arith_mi8x p
  | OIncReg => x_inc_reg p
  | ODecReg => x_dec_reg p
  | OMiscMI => x_misc_mi p
  | OMiscMIX => x_misc_mix p
  | OImulMI8X => x_imul_mi8x
  | OImulMIX => x_imul_mix
  | OImulRMX => x_imul_rmx
  | OShiftMI => x_shift_mi p
  | OShiftMI8X => x_shift_mi8x p
  | OShiftM1 => x_shift_m1 p
  | OShiftM1X => x_shift_m1x p
  | OShiftMCl => x_shift_mcl p
  | OShiftMClX => x_shift_mclx p
  | OShrdI8 => x_dbl_i8 false
  | OShrdCl => x_dbl_cl false
  | OShldI8 => x_dbl_i8 true
  | OShldCl => x_dbl_cl true
  | OUnaryM => x_unary_m p
  | OUnaryMX => x_unary_mx p
  | OExt0F => err E_BUG
  | OCallN => x_call_n
  | OCallF => x_call_f
  | ORetN => x_ret_n
  | ORetF => x_ret_f
  | ORetiN => x_ret_in
  | ORetiF => x_ret_if
  | OEnter => x_enter
  | OLeave => x_leave
  | OInt3 => call_interrupt 3
  | OIntI => x_int_i
  | OInto => x_into
  | OIret => x_iret
  | OFlag fo => x_flag fo
  | OInADx => x_in_adx
  | OInADxX => x_in_adxx
  | OInAI => x_in_ai
  | OInAIX => x_in_aix
  | OOutDxA => x_out_dxa
  | OOutDxAX => x_out_dxax
  | OOutAI => x_out_ai
  | OOutAIX => x_out_aix
  | OJccS c => x_jcc_s c
  | OJccN c => x_jcc_n c
  | OJcxz => x_jcxz
  | OLoopnz => loop_with (fun f => negb (ftest M_ZF f))
  | OLoopz => loop_with (fun f => ftest M_ZF f)
  | OLoop => loop_with (fun _ => true)
  | OJmpN => x_jmp_n
  | OJmpF => x_jmp_f
  | OJmpS => x_jmp_s
  | OCbw => x_cbw
  | OBsf => x_bsf
  | OHlt => err E_HALT                       (* ops_misc.c:44-47 *)
  | OAaa => x_aaas bcd_aaa
  | OAas => x_aaas bcd_aas
  | OAam => x_aam
  | OAad => x_aad
  | ODaa => x_daas bcd_daa
  | ODas => x_daas bcd_das
  | OCwd => x_cwd
  | OLxs sr => x_lxs sr
  | OLea => x_lea
  | OXlat => x_xlat
  | OBtx => x_btx p
  | OMovMR => x_mov_mr
  | OMovMRX => x_mov_mrx
  | OMovRM => x_mov_rm
  | OMovRMX => x_mov_rmx
  | OMovMI => x_mov_mi
  | OMovMIX => x_mov_mix
  | OMovAMo => x_mov_amo
  | OMovAMoX => x_mov_amox
  | OMovMoA => x_mov_moa
  | OMovMoAX => x_mov_moax
  | OMovRS => x_mov_rs
  | OMovSR => x_mov_sr
  | OMovRegB => x_mov_regb p
  | OMovReg => x_mov_reg p
  | OMovZ => x_mov_z
  | OMovZX => x_mov_zx
  | OXchgRM => x_xchg_rm
  | OXchgRMX => x_xchg_rmx
  | OXchgReg => x_xchg_reg p
  | OPushSeg => x_push_seg p
  | OPopSeg => x_pop_seg p
  | OPushReg => x_push_reg p
  | OPopReg => x_pop_reg p
  | OPushA => x_pusha
  | OPopA => x_popa
  | OPushF => x_pushf
  | OPopF => x_popf
  | OPopMX => x_pop_mx
  | OPushI => x_push_i
  | OPushI8 => x_push_i8
  | OStr so wide => x_str so wide
  | OOvrSeg => x_ovr_seg p
  | OOvrOpSize => x_ovr_op
  | OOvrAddrSize => x_ovr_addr
  | ORep => x_rep 243
  | ORepnz => x_rep 242
  end.

End WithEnv.

(** ** Opcode tables: opcode_table.h.  An entry is (handler, Arg, has ModRMNames); None is
    UNDEF_OP.  The macros below are the C macros of lines 12-29. *)
Record entry : Type := mkEntry { e_op : opid; e_arg : Z; e_names : bool }.
Definition UNDEF : option entry := None.
Definition DEF (o : opid) : option entry := Some (mkEntry o 0 false).
Definition DEF_A (o : opid) (a : Z) : option entry := Some (mkEntry o a false).
Definition DEF_N (o : opid) : option entry := Some (mkEntry o 0 true).
Definition DEF_ALU (o : aluop) : list (option entry) :=
  [DEF (OAlu o F_MR); DEF (OAlu o F_MRX); DEF (OAlu o F_RM); DEF (OAlu o F_RMX);
   DEF (OAlu o F_AI); DEF (OAlu o F_AIX)].
Definition DEF_REG (o : opid) : list (option entry) :=
  [DEF_A o 0; DEF_A o 1; DEF_A o 2; DEF_A o 3; DEF_A o 4; DEF_A o 5; DEF_A o 6; DEF_A o 7].
Definition UNDEF8 : list (option entry) :=
  [UNDEF; UNDEF; UNDEF; UNDEF; UNDEF; UNDEF; UNDEF; UNDEF].

(** caOperations: opcode_table.h:47-118. *)
Definition caOperations : list (option entry) :=
  (* 00 *) DEF_ALU ADD ++ [DEF_A OPushSeg S_ES; DEF_A OPopSeg S_ES] ++
  (* 08 *) DEF_ALU OR  ++ [DEF_A OPushSeg S_CS; DEF OExt0F] ++
  (* 10 *) DEF_ALU ADC ++ [DEF_A OPushSeg S_SS; DEF_A OPopSeg S_SS] ++
  (* 18 *) DEF_ALU SBB ++ [DEF_A OPushSeg S_DS; DEF_A OPopSeg S_DS] ++
  (* 20 *) DEF_ALU AND ++ [DEF_A OOvrSeg S_ES; DEF ODaa] ++
  (* 28 *) DEF_ALU SUB ++ [DEF_A OOvrSeg S_CS; DEF ODas] ++
  (* 30 *) DEF_ALU XOR ++ [DEF_A OOvrSeg S_SS; DEF OAaa] ++
  (* 38 *) DEF_ALU CMP ++ [DEF_A OOvrSeg S_DS; DEF OAas] ++
  (* 40 *) DEF_REG OIncReg ++
  (* 48 *) DEF_REG ODecReg ++
  (* 50 *) DEF_REG OPushReg ++
  (* 58 *) DEF_REG OPopReg ++
  (* 60 *) [DEF OPushA; DEF OPopA; UNDEF; UNDEF;
  (* 64 *)  DEF_A OOvrSeg S_FS; DEF_A OOvrSeg S_GS; DEF OOvrOpSize; DEF OOvrAddrSize;
  (* 68 *)  DEF OPushI; DEF OImulMIX; DEF OPushI8; DEF OImulMI8X;
  (* 6C *)  DEF (OStr INS false); DEF (OStr INS true); DEF (OStr OUTS false); DEF (OStr OUTS true);
  (* 70 *)  DEF (OJccS C_O); DEF (OJccS C_NO); DEF (OJccS C_C); DEF (OJccS C_NC);
  (* 74 *)  DEF (OJccS C_Z); DEF (OJccS C_NZ); DEF (OJccS C_BE); DEF (OJccS C_A);
  (* 78 *)  DEF (OJccS C_S); DEF (OJccS C_NS); DEF (OJccS C_PE); DEF (OJccS C_PO);
  (* 7C *)  DEF (OJccS C_L); DEF (OJccS C_GE); DEF (OJccS C_LE); DEF (OJccS C_G);
  (* 80 *)  DEF_N OArithMI; DEF_N OArithMIX; UNDEF; DEF_N OArithMI8X;
  (* 84 *)  DEF (OAlu TEST F_MR); DEF (OAlu TEST F_MRX); DEF OXchgRM; DEF OXchgRMX;
  (* 88 *)  DEF OMovMR; DEF OMovMRX; DEF OMovRM; DEF OMovRMX;
  (* 8C *)  DEF OMovRS; DEF OLea; DEF OMovSR; DEF OPopMX] ++
  (* 90 *) DEF_REG OXchgReg ++
  (* 98 *) [DEF OCbw; DEF OCwd; DEF OCallF; UNDEF;
  (* 9C *)  DEF OPushF; DEF OPopF; DEF (OFlag SAHF); DEF (OFlag LAHF);
  (* A0 *)  DEF OMovAMo; DEF OMovAMoX; DEF OMovMoA; DEF OMovMoAX;
  (* A4 *)  DEF (OStr MOVS false); DEF (OStr MOVS true); DEF (OStr CMPS false); DEF (OStr CMPS true);
  (* A8 *)  DEF (OAlu TEST F_AI); DEF (OAlu TEST F_AIX); DEF (OStr STOS false); DEF (OStr STOS true);
  (* AC *)  DEF (OStr LODS false); DEF (OStr LODS true); DEF (OStr SCAS false); DEF (OStr SCAS true)] ++
  (* B0 *) DEF_REG OMovRegB ++
  (* B8 *) DEF_REG OMovReg ++
  (* C0 *) [DEF_N OShiftMI; DEF_N OShiftMI8X; DEF ORetiN; DEF ORetN;
  (* C4 *)  DEF (OLxs S_ES); DEF (OLxs S_DS); DEF OMovMI; DEF OMovMIX;
  (* C8 *)  DEF OEnter; DEF OLeave; DEF ORetiF; DEF ORetF;
  (* CC *)  DEF OInt3; DEF OIntI; DEF OInto; DEF OIret;
  (* D0 *)  DEF_N OShiftM1; DEF_N OShiftM1X; DEF_N OShiftMCl; DEF_N OShiftMClX;
  (* D4 *)  DEF OAam; DEF OAad; UNDEF; DEF OXlat] ++
  (* D8 *) UNDEF8 ++
  (* E0 *) [DEF OLoopnz; DEF OLoopz; DEF OLoop; DEF OJcxz;
  (* E4 *)  DEF OInAI; DEF OInAIX; DEF OOutAI; DEF OOutAIX;
  (* E8 *)  DEF OCallN; DEF OJmpN; DEF OJmpF; DEF OJmpS;
  (* EC *)  DEF OInADx; DEF OInADxX; DEF OOutDxA; DEF OOutDxAX;
  (* F0 *)  UNDEF; UNDEF; DEF ORepnz; DEF ORep;
  (* F4 *)  DEF OHlt; DEF (OFlag CMC); DEF_N OMiscMI; DEF_N OMiscMIX;
  (* F8 *)  DEF (OFlag CLC); DEF (OFlag STC); DEF (OFlag CLI); DEF (OFlag STI);
  (* FC *)  DEF (OFlag CLD); DEF (OFlag STD); DEF_N OUnaryM; DEF_N OUnaryMX].

(** caOperations0F: opcode_table.h:122-161.  (ModRMNames is ignored by Ext_0F.) *)
Definition caOperations0F : list (option entry) :=
  (* 00 *) UNDEF8 ++ UNDEF8 ++ UNDEF8 ++ UNDEF8 ++
  (* 20 *) UNDEF8 ++ UNDEF8 ++ UNDEF8 ++ UNDEF8 ++
  (* 40 *) UNDEF8 ++ UNDEF8 ++ UNDEF8 ++ UNDEF8 ++
  (* 60 *) UNDEF8 ++ UNDEF8 ++ UNDEF8 ++ UNDEF8 ++
  (* 80 *) [DEF (OJccN C_O); DEF (OJccN C_NO); DEF (OJccN C_C); DEF (OJccN C_NC);
  (* 84 *)  DEF (OJccN C_Z); DEF (OJccN C_NZ); DEF (OJccN C_BE); DEF (OJccN C_A);
  (* 88 *)  DEF (OJccN C_S); DEF (OJccN C_NS); DEF (OJccN C_PE); DEF (OJccN C_PO);
  (* 8C *)  DEF (OJccN C_L); DEF (OJccN C_GE); DEF (OJccN C_LE); DEF (OJccN C_G)] ++
  (* 90 *) UNDEF8 ++ UNDEF8 ++
  (* A0 *) [DEF_A OPushSeg S_FS; DEF_A OPopSeg S_FS; UNDEF; UNDEF;
  (* A4 *)  DEF OShldI8; DEF OShldCl; UNDEF; UNDEF;
  (* A8 *)  DEF_A OPushSeg S_GS; DEF_A OPopSeg S_GS; UNDEF; UNDEF;
  (* AC *)  DEF OShrdI8; DEF OShrdCl; UNDEF; DEF OImulRMX;
  (* B0 *)  UNDEF; UNDEF; DEF (OLxs S_SS); UNDEF;
  (* B4 *)  DEF (OLxs S_FS); DEF (OLxs S_GS); DEF OMovZ; DEF OMovZX;
  (* B8 *)  UNDEF; UNDEF; DEF_N OBtx; UNDEF;
  (* BC *)  DEF OBsf; UNDEF; UNDEF; UNDEF] ++
  (* C0 *) UNDEF8 ++ UNDEF8 ++ UNDEF8 ++ UNDEF8 ++
  (* E0 *) UNDEF8 ++ UNDEF8 ++ UNDEF8 ++ UNDEF8.

Definition ca_op (b : Z) : option entry := nth (Z.to_nat b) caOperations None.
Definition ca_op0F (b : Z) : option entry := nth (Z.to_nat b) caOperations0F None.

(** RME_Op_Ext_0F: rme.c:312-325, and the function-pointer call of rme.c:252. *)
Definition exec (E : env) (o : opid) (p : Z) : M unit :=
  match o with
  | OExt0F =>
    b <- fetch8 E ;;
    match ca_op0F b with
    | None => err E_UNDEF
    | Some e => exec1 E (e_op e) (e_arg e)
    end
  | _ => exec1 E o p
  end.
