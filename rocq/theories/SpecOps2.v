(** Specification of data movement, stack, control transfer, I/O and conversions, from the
    x86 manuals over the vocabulary of Spec.v.  A [step_*] function takes the prefixes, the
    architectural state and the bytes after the prefixes, and gives the state after the
    instruction, or None for a byte sequence it does not describe.  Where the emulator departs
    from the manual the form is left out (None), with a remark; those forms are covered by
    separate theorems. *)
From Verif Require Import Base Spec SpecOps.

(** ** Stack *)
Definition push16 (v : Z) (a : arch) : arch :=
  let sp := low 16 (reg 16 SP a - 2) in
  with_mem 16 (lin (r_ss a) sp) v (with_reg 16 SP sp a).
Definition top16 (a : arch) : Z := mem 16 a (lin (r_ss a) (reg 16 SP a)).
Definition drop (n : Z) (a : arch) : arch := with_reg 16 SP (low 16 (reg 16 SP a + n)) a.
(** A 32-bit value: high word first, so that it is little-endian at the new SP. *)
Definition push32 (v : Z) (a : arch) : arch := push16 (v mod 65536) (push16 (v / 65536) a).
Definition top32 (a : arch) : Z := top16 a + 65536 * top16 (drop 2 a).
(** The word pushed for register n.  PUSH SP stores the decremented value, as the 8086 does. *)
Definition pushed (n : Z) (a : arch) : Z :=
  if n =? SP then low 16 (reg 16 SP a - 2) else reg 16 n a.

(** FLAGS after POPF of the word v: bit 1 reads as one, bits 3 and 5 as zero; bits 12-15 read
    as ones on an 8086 (type 0), zeros on an 80286 (1) and are kept on a 386 (2). *)
Definition popf_value (cpu v : Z) : Z :=
  let v := put 1 true (put 3 false (put 5 false v)) in
  match cpu with
  | 0 => put 12 true (put 13 true (put 14 true (put 15 true v)))
  | 1 => put 12 false (put 13 false (put 14 false (put 15 false v)))
  | _ => v
  end.

Definition pusha (a : arch) : arch :=
  let sp := reg 16 SP a in
  push16 (reg 16 DI a) (push16 (reg 16 SI a) (push16 (reg 16 BP a) (push16 sp
  (push16 (reg 16 BX a) (push16 (reg 16 DX a) (push16 (reg 16 CX a) (push16 (reg 16 AX a) a))))))).
Definition pop_into (n : Z) (a : arch) : arch := with_reg 16 n (top16 a) (drop 2 a).
Definition popa (a : arch) : arch :=
  pop_into AX (pop_into CX (pop_into DX (pop_into BX (drop 2
  (pop_into BP (pop_into SI (pop_into DI a))))))).

(** ENTER size, level (16-bit): manual, nesting level taken modulo 32. *)
Definition enter_display (a : arch) : arch :=
  let bp := low 16 (reg 16 BP a - 2) in
  let a1 := with_reg 16 BP bp a in push16 (mem 16 a1 (lin (r_ss a1) bp)) a1.
Definition enter (size level : Z) (a : arch) : arch :=
  let a1 := push16 (reg 16 BP a) a in
  let ft := reg 16 SP a1 in
  let a2 := if level =? 0 then a1
            else push16 ft (Nat.iter (Z.to_nat (level - 1)) enter_display a1) in
  let a3 := with_reg 16 BP ft a2 in
  with_reg 16 SP (low 16 (reg 16 SP a3 - size)) a3.
Definition leave (a : arch) : arch :=
  pop_into BP (with_reg 16 SP (reg 16 BP a) a).

(** Segment register numbers of the one-byte PUSH/POP segment opcodes. *)
Definition push_seg_op (bs : list Z) : option Z :=
  match bs with
  | [0x06] => Some 0 | [0x0E] => Some 1 | [0x16] => Some 2 | [0x1E] => Some 3
  | [0x0F; 0xA0] => Some 4 | [0x0F; 0xA8] => Some 5
  | _ => None
  end.
Definition pop_seg_op (bs : list Z) : option Z :=
  match bs with
  | [0x07] => Some 0 | [0x17] => Some 2 | [0x1F] => Some 3
  | [0x0F; 0xA1] => Some 4 | [0x0F; 0xA9] => Some 5
  | _ => None
  end.

(** Stack instructions that continue with the next instruction. *)
Inductive stk : Type :=
| K_PushReg (n : Z) | K_PopReg (n : Z) | K_PushSeg (n : Z) | K_PopSeg (n : Z)
| K_PushImm (v : Z) | K_PushRM (r : rm) | K_PopRM (r : rm)
| K_PushA | K_PopA | K_PushF | K_PopF | K_Enter (size level : Z) | K_Leave.
Definition decode_stack (p : pfx) (a : arch) (bs : list Z) : option stk :=
  match push_seg_op bs, pop_seg_op bs with
  | Some n, _ => if p_os p then None else Some (K_PushSeg n)
  | _, Some n => if p_os p then None else Some (K_PopSeg n)
  | None, None =>
    match bs with
    | [] => None
    | op :: t =>
      if (0x50 <=? op) && (op <=? 0x57) then
        (* PUSH ESP: not described *)
        if p_os p && (op =? 0x54) then None else ifrest t (K_PushReg (op - 0x50))
      else if (0x58 <=? op) && (op <=? 0x5F) then
        (* POP ESP: the emulator pops the high half from the new stack *)
        if p_os p && (op =? 0x5C) then None else ifrest t (K_PopReg (op - 0x58))
      else if op =? 0x6A then after (imm 8 t) (fun i => Some (K_PushImm (low (osz p) (signed 8 i))))
      else if p_os p then None
      else if op =? 0x68 then after (imm 16 t) (fun i => Some (K_PushImm i))
      else if op =? 0x60 then ifrest t K_PushA
      else if op =? 0x61 then ifrest t K_PopA
      else if op =? 0x9C then ifrest t K_PushF
      else if op =? 0x9D then ifrest t K_PopF
      else if op =? 0xC9 then ifrest t K_Leave
      else if op =? 0xC8 then
        match t with
        | [l; h; lv] => Some (K_Enter (l + 256 * h) (lv mod 32))
        | _ => None
        end
      else if op =? 0x8F then
        match parse_rm p a t with
        | Some (rg, r, []) => if rg =? 0 then Some (K_PopRM r) else None
        | _ => None
        end
      else if op =? 0xFF then
        match parse_rm p a t with
        | Some (rg, r, []) => if rg =? 6 then Some (K_PushRM r) else None
        | _ => None
        end
      else None
    end
  end.
Definition stack_effect (p : pfx) (k : stk) (a : arch) : arch :=
  match k with
  | K_PushReg n => if p_os p then push32 (reg 32 n a) a else push16 (pushed n a) a
  | K_PopReg n => if p_os p then with_reg 32 n (top32 a) (drop 2 (drop 2 a)) else pop_into n a
  | K_PushSeg n => push16 (sreg n a) a
  | K_PopSeg n => with_sreg n (top16 a) (drop 2 a)
  | K_PushImm v => if p_os p then push32 v a else push16 v a
  | K_PushRM (RReg n) => push16 (pushed n a) a
  | K_PushRM r => push16 (rd_rm 16 r a) a
  | K_PopRM r => wr_rm 16 r (top16 a) (drop 2 a)
  | K_PushA => pusha a
  | K_PopA => popa a
  | K_PushF => push16 (r_flags a) a
  | K_PopF => a_flags (popf_value (cpu a) (top16 a)) (drop 2 a)
  | K_Enter size level => enter size level a
  | K_Leave => leave a
  end.

(** ** Control transfer.  [len] is the total instruction length. *)
(** Condition number n of Jcc (opcodes 70+n and 0F 80+n). *)
Definition jcc (n f : Z) : bool :=
  let c := match n / 2 with
           | 0 => flag OF f
           | 1 => flag CF f
           | 2 => flag ZF f
           | 3 => flag CF f || flag ZF f
           | 4 => flag SF f
           | 5 => flag PF f
           | 6 => xorb (flag SF f) (flag OF f)
           | _ => flag ZF f || xorb (flag SF f) (flag OF f)
           end in
  xorb (Z.odd n) c.
Definition fallthrough (len : Z) (a : arch) : Z := low 16 (r_ip a + len).
(** Relative target if [b] holds, else the next instruction. *)
Definition branch (b : bool) (len d : Z) (a0 a : arch) : arch :=
  a_ip (if b then low 16 (r_ip a0 + len + d) else fallthrough len a0) a.
Definition far (sg o : Z) (a : arch) : arch := a_cs sg (a_ip o a).
Definition step_jump (p : pfx) (len : Z) (a : arch) (bs : list Z) : option arch :=
  let short (b : bool) (a1 : arch) t :=
    after (imm 8 t) (fun d => Some (branch b len (signed 8 d) a a1)) in
  let near (b : bool) (a1 : arch) t :=
    after (imm 16 t) (fun d => Some (branch b len (signed 16 d) a a1)) in
  match bs with
  | [] => None
  | op :: t =>
    if (0x70 <=? op) && (op <=? 0x7F) then short (jcc (op - 0x70) (r_flags a)) a t
    else if op =? 0xEB then short true a t
    else if (0xE0 <=? op) && (op <=? 0xE2) && negb (p_as p) then
      let cx := low 16 (reg 16 CX a - 1) in
      let z := flag ZF (r_flags a) in
      short (negb (cx =? 0) && (if op =? 0xE0 then negb z else if op =? 0xE1 then z else true))
            (with_reg 16 CX cx a) t
    else if (op =? 0xE3) && Bool.eqb (p_os p) (p_as p) then
      (* the emulator selects CX or ECX by the operand size instead of the address size *)
      short (reg (osz p) CX a =? 0) a t
    else if p_os p then None
    else if op =? 0xE9 then near true a t
    else if op =? 0xE8 then near true (push16 (fallthrough len a) a) t
    else if op =? 0xEA then
      match t with
      | [o0; o1; s0; s1] => Some (far (s0 + 256 * s1) (o0 + 256 * o1) a)
      | _ => None
      end
    else if op =? 0x9A then
      match t with
      | [o0; o1; s0; s1] =>
        Some (far (s0 + 256 * s1) (o0 + 256 * o1)
                  (push16 (fallthrough len a) (push16 (r_cs a) a)))
      | _ => None
      end
    else if op =? 0xC3 then ifrest t (a_ip (top16 a) (drop 2 a))
    else if op =? 0xC2 then
      after (imm 16 t) (fun n => Some (a_ip (top16 a) (drop n (drop 2 a))))
    else if op =? 0xCB then
      ifrest t (far (top16 (drop 2 a)) (top16 a) (drop 2 (drop 2 a)))
    else if op =? 0xCA then
      after (imm 16 t) (fun n =>
        Some (far (top16 (drop 2 a)) (top16 a) (drop n (drop 2 (drop 2 a)))))
    else if op =? 0xCF then
      let a1 := drop 2 a in let a2 := drop 2 a1 in
      ifrest t (a_flags (top16 a2) (far (top16 a1) (top16 a) (drop 2 a2)))
    else if op =? 0x0F then
      match t with
      | op2 :: t2 =>
        if (0x80 <=? op2) && (op2 <=? 0x8F) then near (jcc (op2 - 0x80) (r_flags a)) a t2 else None
      | [] => None
      end
    else if op =? 0xFF then
      match parse_rm p a t with
      | Some (rg, r, []) =>
        if rg =? 2 then
          (* the emulator reads the target after the push *)
          let a1 := push16 (fallthrough len a) a in
          if rd_rm 16 r a1 =? rd_rm 16 r a then Some (a_ip (rd_rm 16 r a) a1) else None
        else if rg =? 4 then Some (a_ip (rd_rm 16 r a) a)
        else match r with
             | RMem sg o =>
               let ip := mem 16 a (lin sg o) in let cs := mem 16 a (lin sg (low 16 (o + 2))) in
               if rg =? 3 then
                 Some (far cs ip (push16 (fallthrough len a) (push16 (r_cs a) a)))
               else if rg =? 5 then Some (far cs ip a)
               else None
             | RReg _ => None
             end
      | _ => None
      end
    else None
  end.

(** ** Interrupts *)
Definition vector (n : Z) (a : arch) : Z * Z := (mem 16 a (4 * n + 2), mem 16 a (4 * n)).
(** Enter the handler sg:o with return address ret. *)
Definition interrupt (sg o ret : Z) (a : arch) : arch :=
  let a1 := push16 ret (push16 (r_cs a) (push16 (r_flags a) a)) in
  far sg o (a_flags (put IF_ false (put TF false (r_flags a))) a1).
(** The interrupt number of INT3, INT n, INTO. *)
Definition int_number (bs : list Z) : option Z :=
  match bs with
  | [0xCC] => Some 3
  | [0xCD; n] => Some n
  | [0xCE] => Some 4
  | _ => None
  end.

(** ** Data movement *)
Definition data_sreg (p : pfx) : Z := match p_seg p with Some n => n | None => 3 end.
(** Address size; a 32-bit offset beyond 65535 is outside the segment. *)
Definition asz (p : pfx) : Z := if p_as p then 32 else 16.
(** Unsigned extension and copies between register, memory, immediate and segment operands. *)
Definition step_mov (p : pfx) (a : arch) (bs : list Z) : option arch :=
  let w := osz p in
  let rmform t (k : Z -> rm -> option arch) :=
    match parse_rm p a t with Some (rg, r, []) => k rg r | _ => None end in
  let moffs t (k : Z -> option arch) :=
    after (imm (asz p) t) (fun o => if o <? 65536 then k (lin (sreg (data_sreg p) a) o) else None) in
  let lxs sr t := rmform t (fun rg r =>
    match r with
    | RMem sg o => Some (with_sreg sr (mem 16 a (lin sg (low 16 (o + w / 8))))
                          (with_reg w rg (mem w a (lin sg o)) a))
    | RReg _ => None
    end) in
  match bs with
  | [] => None
  | op :: t =>
    if op =? 0x88 then rmform t (fun rg r => Some (wr_rm 8 r (reg 8 rg a) a))
    else if op =? 0x89 then rmform t (fun rg r => Some (wr_rm w r (reg w rg a) a))
    else if op =? 0x8A then rmform t (fun rg r => Some (with_reg 8 rg (rd_rm 8 r a) a))
    else if op =? 0x8B then rmform t (fun rg r => Some (with_reg w rg (rd_rm w r a) a))
    else if op =? 0xC6 then
      match parse_rm p a t with
      | Some (rg, r, t') => if rg =? 0 then after (imm 8 t') (fun i => Some (wr_rm 8 r i a)) else None
      | None => None
      end
    else if op =? 0xC7 then
      match parse_rm p a t with
      | Some (rg, r, t') => if rg =? 0 then after (imm w t') (fun i => Some (wr_rm w r i a)) else None
      | None => None
      end
    else if (0xB0 <=? op) && (op <=? 0xB7) then
      after (imm 8 t) (fun i => Some (with_reg 8 (op - 0xB0) i a))
    else if (0xB8 <=? op) && (op <=? 0xBF) then
      after (imm w t) (fun i => Some (with_reg w (op - 0xB8) i a))
    else if op =? 0xA0 then moffs t (fun x => Some (with_reg 8 AX (mem 8 a x) a))
    else if op =? 0xA1 then moffs t (fun x => Some (with_reg w AX (mem w a x) a))
    else if op =? 0xA2 then moffs t (fun x => Some (with_mem 8 x (reg 8 AX a) a))
    else if op =? 0xA3 then moffs t (fun x => Some (with_mem w x (reg w AX a) a))
    else if op =? 0x8C then
      rmform t (fun rg r => if p_os p || (5 <? rg) then None else Some (wr_rm 16 r (sreg rg a) a))
    else if op =? 0x8E then
      rmform t (fun rg r => if p_os p || (5 <? rg) || (rg =? 1) then None
                            else Some (with_sreg rg (rd_rm 16 r a) a))
    else if op =? 0x86 then
      rmform t (fun rg r => Some (wr_rm 8 r (reg 8 rg a) (with_reg 8 rg (rd_rm 8 r a) a)))
    else if op =? 0x87 then
      rmform t (fun rg r => Some (wr_rm w r (reg w rg a) (with_reg w rg (rd_rm w r a) a)))
    else if (0x90 <=? op) && (op <=? 0x97) then
      ifrest t (with_reg w (op - 0x90) (reg w AX a) (with_reg w AX (reg w (op - 0x90) a) a))
    else if op =? 0x8D then
      rmform t (fun rg r => match r with RMem _ o => Some (with_reg w rg o a) | RReg _ => None end)
    else if op =? 0xC4 then lxs 0 t
    else if op =? 0xC5 then lxs 3 t
    else if op =? 0xD7 then
      let o := low (asz p) (reg (asz p) BX a + reg 8 AX a) in
      if o <? 65536 then ifrest t (with_reg 8 AX (mem 8 a (lin (sreg (data_sreg p) a) o)) a) else None
    else if op =? 0x0F then
      match t with
      | op2 :: t2 =>
        if op2 =? 0xB6 then rmform t2 (fun rg r => Some (with_reg w rg (rd_rm 8 r a) a))
        else if op2 =? 0xB7 then rmform t2 (fun rg r => Some (with_reg w rg (rd_rm 16 r a) a))
        else if op2 =? 0xB2 then lxs 2 t2
        else if op2 =? 0xB4 then lxs 4 t2
        else if op2 =? 0xB5 then lxs 5 t2
        else None
      | [] => None
      end
    else None
  end.

(** ** Conversions, bit scan, flag instructions *)
Definition lowest_bit (s : Z) : option Z := find (Z.testbit s) (map Z.of_nat (seq 0 16)).
Definition step_misc (p : pfx) (a : arch) (bs : list Z) : option arch :=
  let f := r_flags a in
  let w := osz p in
  match bs with
  | [op] =>
    if (op =? 0x98) && negb (p_os p) then            (* CBW; CWDE is not implemented *)
      Some (with_reg 16 AX (low 16 (signed 8 (reg 8 AX a))) a)
    else if op =? 0x99 then                          (* CWD, CDQ *)
      Some (with_reg w DX (if top w (reg w AX a) then 2 ^ w - 1 else 0) a)
    else if op =? 0xF5 then Some (a_flags (put CF (negb (flag CF f)) f) a)
    else if op =? 0xF8 then Some (a_flags (put CF false f) a)
    else if op =? 0xF9 then Some (a_flags (put CF true f) a)
    else if op =? 0xFA then Some (a_flags (put IF_ false f) a)
    else if op =? 0xFB then Some (a_flags (put IF_ true f) a)
    else if op =? 0xFC then Some (a_flags (put DF false f) a)
    else if op =? 0xFD then Some (a_flags (put DF true f) a)
    else if op =? 0x9F then Some (with_reg 8 4 (low 8 f) a)      (* LAHF *)
    else if op =? 0x9E then                                      (* SAHF *)
      let h := reg 8 4 a in
      Some (a_flags (put CF (flag CF h) (put PF (flag PF h) (put AF (flag AF h)
                    (put ZF (flag ZF h) (put SF (flag SF h) f))))) a)
    else None
  | 0x0F :: 0xBC :: t =>                              (* BSF, 16-bit only *)
    if p_os p then None else
    match parse_rm p a t with
    | Some (rg, r, []) =>
      match lowest_bit (rd_rm 16 r a) with
      | Some i => Some (a_flags (put ZF false f) (with_reg 16 rg i a))
      | None => Some (a_flags (put ZF true f) a)
      end
    | _ => None
    end
  | _ => None
  end.

(** ** Port I/O: IN and OUT, given what the port would deliver *)
Definition step_io (input : list ioev -> Z -> Z -> Z) (p : pfx) (a : arch) (bs : list Z) : option arch :=
  let w := osz p in
  let inp ww port :=
    let v := low ww (input (iolog a) ww port) in
    Some (with_reg ww AX v (a_iolog (iolog a ++ [IoIn ww port v]) a)) in
  let out ww port := Some (a_iolog (iolog a ++ [IoOut ww port (reg ww AX a)]) a) in
  match bs with
  | [0xE4; port] => inp 8 port
  | [0xE5; port] => inp w port
  | [0xE6; port] => out 8 port
  | [0xE7; port] => out w port
  | [0xEC] => inp 8 (reg 16 DX a)
  | [0xED] => inp w (reg 16 DX a)
  | [0xEE] => out 8 (reg 16 DX a)
  | [0xEF] => out w (reg 16 DX a)
  | _ => None
  end.
