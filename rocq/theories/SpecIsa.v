(** Specification: the reference machine.  It collects the instruction specifications (Spec*.v, from the
    x86 manuals) into one transition system for whole guest programs.  An instruction is described by the set
    of states the manual allows after it (one state, unless some flag is undefined); encodings and operands
    for which the emulator departs from the manual are not part of the machine. *)
From Verif Require Import Base Machine Spec SpecOps SpecOps2 SpecSys SpecMul SpecBcd SpecDbl SpecStr SpecStr2 SpecRun SpecTop.

(** What the machine may rely on: memory is the usual flat map of bytes, registers are within their widths. *)
Record machine (E : env) (base : Z) (a : arch) : Prop := mkMachine {
  m_flat : flat E base a;
  m_regs : wf_regs a;
  m_bytes : forall x b, hmem a x = Some b -> 0 <= b < 256
}.

Section Ref.
(** What the ports deliver, and what the host's interrupt services do. *)
Context (input : list ioev -> Z -> Z -> Z) (svc : Z -> Z -> arch -> arch).

(** [isa p len a bs R]: the instruction with prefixes [p], remaining bytes [bs] and total length [len],
    executed in state [a], leads to one of the states in [R]. *)
Inductive isa (p : pfx) (len : Z) (a : arch) (bs : list Z) : (arch -> Prop) -> Prop :=
(* ADD OR ADC AND SUB XOR CMP TEST *)
| I_alu k w dst src : decode_alu p a bs = Some (k, w, dst, src) -> k <> 3 -> operand_ok p a bs ->
    isa p len a bs (eq (a_ip (fallthrough len a) (alu_effect k w dst src a)))
(* SBB: with the carry set AF is unspecified if the low digits agree, OF if the subtrahend is the greatest
   positive number; a doubleword subtrahend FFFFFFFFh is left out *)
| I_sbb w dst src : decode_alu p a bs = Some (3, w, dst, src) -> operand_ok p a bs ->
    sbb_cf_wrong w src (b2z (flag CF (r_flags a))) = false ->
    isa p len a bs (fun a' => exists af of_,
      let d := rd_rm w dst a in let c := b2z (flag CF (r_flags a)) in let v := low w (d - src - c) in
      (c = 0 \/ d mod 16 <> src mod 16 -> af = (d mod 16 <? src mod 16 + c)) /\
      (c = 0 \/ src <> 2 ^ (w - 1) - 1 -> of_ = overflows w (signed w d - signed w src - c)) /\
      a' = a_ip (fallthrough len a) (wr_rm w dst v (a_flags (put6 (d <? src + c) af of_ w v (r_flags a)) a)))
(* INC DEC NOT *)
| I_unary o w r : decode_unary p a bs = Some (o, w, r) -> o <> U_NEG -> operand_ok p a bs ->
    isa p len a bs (eq (a_ip (fallthrough len a) (unary_effect o w r a)))
(* NEG: AF is unspecified if the low digit is 8 *)
| I_neg w r : decode_unary p a bs = Some (U_NEG, w, r) -> operand_ok p a bs ->
    isa p len a bs (fun a' => exists af,
      let d := rd_rm w r a in let v := low w (- d) in
      (d mod 16 <> 8 -> af = negb (d mod 16 =? 0)) /\
      a' = a_ip (fallthrough len a) (wr_rm w r v (a_flags (put6 (negb (d =? 0)) af (d =? 2 ^ (w - 1)) w v (r_flags a)) a)))
(* shifts and rotates: OF is undefined unless the count is 1 *)
| I_shift op w r cnt : decode_shift p a bs = Some (op, w, r, cnt) -> operand_ok p a bs -> shift_count_ok op w cnt ->
    isa p len a bs (fun a' => exists o, shift_of_ok op w cnt (rd_rm w r a) (r_flags a) o /\
      a' = a_ip (fallthrough len a) (shift_effect op w r cnt o a))
| I_double left w r src n : decode_dbl p a bs = Some (left, w, r, src, n) -> operand_ok p a bs -> dbl_supported w r src n ->
    isa p len a bs (eq (a_ip (fallthrough len a) (dbl_effect left w r src n a)))
| I_mul w r : decode_muldiv p a bs = Some (4, w, r) -> operand_ok p a bs ->
    isa p len a bs (eq (a_ip (fallthrough len a) (mul_effect w (rd_rm w r a) a)))
| I_imul w r : decode_muldiv p a bs = Some (5, w, r) -> operand_ok p a bs ->
    isa p len a bs (eq (a_ip (fallthrough len a) (imul_effect w (rd_rm w r a) a)))
| I_imul2 dst x y : decode_imul2 p a bs = Some (dst, x, y) -> operand_ok p a bs -> p_os p = false ->
    x < 32768 -> y < 32768 -> x * y < 65536 ->
    isa p len a bs (eq (a_ip (fallthrough len a) (imul2_effect dst x y (overflows 16 (signed 16 x * signed 16 y)) a)))
(* division: the quotient fits, or interrupt 0 with the return address at the instruction *)
| I_div w r a' : decode_muldiv p a bs = Some (6, w, r) -> operand_ok p a bs -> div_effect w (rd_rm w r a) a = Some a' ->
    isa p len a bs (eq (a_ip (fallthrough len a) a'))
| I_div_fault w r : decode_muldiv p a bs = Some (6, w, r) -> operand_ok p a bs -> div_effect w (rd_rm w r a) a = None ->
    isa p len a bs (eq (enter_int 0 (r_ip a) a))
| I_idiv w r a' : decode_muldiv p a bs = Some (7, w, r) -> operand_ok p a bs -> w <> 32 -> idiv_effect w (rd_rm w r a) a = Some a' ->
    isa p len a bs (eq (a_ip (fallthrough len a) a'))
| I_idiv_fault w r : decode_muldiv p a bs = Some (7, w, r) -> operand_ok p a bs -> idiv_effect w (rd_rm w r a) a = None ->
    (w <> 8 -> ~ most_negative_by_minus_one w (rd_rm w r a) a) ->
    isa p len a bs (eq (enter_int 0 (r_ip a) a))
(* decimal adjustments *)
| I_bcd a' : step_bcd a bs = Some a' -> isa p len a bs (eq (a_ip (fallthrough len a) a'))
| I_aam_fault : bs = [0xD4; 0] -> isa p len a bs (eq (enter_int 0 (r_ip a) a))
(* data movement, address calculation, stack, conversions, flags, ports *)
| I_mov a' : step_mov p a bs = Some a' -> operand_ok p a bs -> isa p len a bs (eq (a_ip (fallthrough len a) a'))
| I_lea t rg o : bs = 0x8D :: t -> lea_offset p a t = Some (rg, o) -> lea_supported p a t ->
    isa p len a bs (eq (a_ip (fallthrough len a) (with_reg (osz p) rg (low (osz p) o) a)))
| I_stack k : decode_stack p a bs = Some k -> operand_ok p a bs ->
    (k = K_PopF -> cpu a = 0 \/ cpu a = 1 \/ cpu a = 2) -> (forall size, k <> K_Enter size 1) ->
    isa p len a bs (eq (a_ip (fallthrough len a) (stack_effect p k a)))
| I_misc a' : step_misc p a bs = Some a' -> operand_ok p a bs -> isa p len a bs (eq (a_ip (fallthrough len a) a'))
| I_io a' : step_io input p a bs = Some a' -> isa p len a bs (eq (a_ip (fallthrough len a) a'))
(* string instructions *)
| I_str o w : decode_str p bs = Some (o, w) -> p_rep p = 0 -> isa p len a bs (eq (a_ip (fallthrough len a) (str_once input p o w a)))
| I_rep o w : decode_str p bs = Some (o, w) -> p_rep p <> 0 -> compares o = false ->
    isa p len a bs (eq (a_ip (fallthrough len a) (str_rep input p o w (Z.to_nat (reg 16 CX a)) a)))
| I_scan o w n : decode_str p bs = Some (o, w) -> p_rep p <> 0 -> compares o = true -> scan_stops p o w n a ->
    isa p len a bs (eq (a_ip (fallthrough len a) (str_rep input p o w n a)))
| I_str67 o w : decode_str67 p bs = Some (o, w) -> p_rep p = 0 -> within67 o w 1 a ->
    isa p len a bs (eq (a_ip (fallthrough len a) (str_once67 input p o w a)))
| I_rep67 o w n : decode_str67 p bs = Some (o, w) -> p_rep p <> 0 -> compares o = false -> reg 32 CX a < 65536 ->
    n = Z.to_nat (reg 32 CX a) -> within67 o w n a ->
    isa p len a bs (eq (a_ip (fallthrough len a) (str_rep67 input p o w n a)))
| I_scan67 o w n : decode_str67 p bs = Some (o, w) -> p_rep p <> 0 -> compares o = true -> reg 32 CX a < 65536 ->
    within67 o w (Z.to_nat (reg 32 CX a)) a -> scan_stops67 p o w n a ->
    isa p len a bs (eq (a_ip (fallthrough len a) (str_rep67 input p o w n a)))
(* control transfer *)
| I_jump a' : step_jump p len a bs = Some a' -> operand_ok p a bs -> isa p len a bs (eq a')
| I_int n sg o : int_number bs = Some n -> (bs = [0xCE] -> flag OF (r_flags a) = true) ->
    vector n a = (sg, o) -> (sg, o) <> (0, 0) -> (sg, o) <> (0xB800, n) ->
    isa p len a bs (eq (interrupt sg o (fallthrough len a) a))
| I_into : bs = [0xCE] -> flag OF (r_flags a) = false -> isa p len a bs (eq (a_ip (fallthrough len a) a))
(* an interrupt whose vector is the host's entry point B800:n *)
| I_service n : int_number bs = Some n -> (bs = [0xCE] -> flag OF (r_flags a) = true) -> hle_vector n a ->
    isa p len a bs (eq (a_ip (low 16 (r_ip (hle_effect svc n a) + len)) (hle_effect svc n a))).

(** After n instructions from [a], whatever the undefined flags are, [P] holds.  Two-byte instructions 00 00
    are left out: rme2 takes the second in a row for a breakpoint.  At B800:n the host's service n runs and
    returns with IRET. *)
Fixpoint reaches (n : nat) (P : arch -> Prop) (a : arch) : Prop :=
  match n with
  | O => P a
  | S k =>
    (exists pre p bs R, normal_pc a /\ prefixes pre = Some p /\ code a (pre ++ bs) /\
       isa p (blen (pre ++ bs)) a bs R /\
       forall a1, R a1 -> is_null a a1 (pre ++ bs) = false /\ forall a2, same a2 a1 -> reaches k P a2) \/
    (hle_entry_pc a /\ forall a2, same a2 (iret (hle_effect svc (r_ip a) a)) -> reaches k P a2)
  end.
End Ref.
