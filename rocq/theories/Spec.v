(** Independent specification vocabulary.  Nothing here refers to the model's operand
    decoding, ALU or handler functions: it is written from the x86 manuals, over the
    architectural state record of Base.v, and is what the property theorems are stated in. *)
From Verif Require Import Base Machine.

(** ** Numbers *)
Definition width (w : Z) : Prop := w = 8 \/ w = 16 \/ w = 32.
Definition inrange (w x : Z) : Prop := 0 <= x < 2 ^ w.
(** Two's complement value of a [w]-bit pattern. *)
Definition signed (w x : Z) : Z := if x <? 2 ^ (w - 1) then x else x - 2 ^ w.
(** Reduction to [w] bits. *)
Definition low (w x : Z) : Z := x mod 2 ^ w.
Definition b2z (b : bool) : Z := if b then 1 else 0.

(** ** Registers.  Numbers 0..7 are AX CX DX BX SP BP SI DI (or AL CL DL BL AH CH DH BH);
    segment numbers 0..5 are ES CS SS DS FS GS. *)
Definition gpr (n : Z) (a : arch) : Z := (gprs a / 2 ^ (32 * n)) mod 2 ^ 32.
Definition with_gpr (n v : Z) (a : arch) : arch :=
  a_gprs (gprs a + (v - gpr n a) * 2 ^ (32 * n)) a.
Definition reg (w n : Z) (a : arch) : Z :=
  if w =? 8
  then (if n <? 4 then gpr n a mod 256 else (gpr (n - 4) a / 256) mod 256)
  else gpr n a mod 2 ^ w.
Definition with_reg (w n v : Z) (a : arch) : arch :=
  if w =? 8
  then (if n <? 4
        then with_gpr n (gpr n a - gpr n a mod 256 + v) a
        else with_gpr (n - 4) (gpr (n - 4) a - (gpr (n - 4) a / 256) mod 256 * 256 + v * 256) a)
  else with_gpr n (gpr n a - gpr n a mod 2 ^ w + v) a.
Notation AX := 0 (only parsing). Notation CX := 1 (only parsing).
Notation DX := 2 (only parsing). Notation BX := 3 (only parsing).
Notation SP := 4 (only parsing). Notation BP := 5 (only parsing).
Notation SI := 6 (only parsing). Notation DI := 7 (only parsing).

Definition sreg (n : Z) (a : arch) : Z :=
  match n with
  | 0 => r_es a | 1 => r_cs a | 2 => r_ss a | 3 => r_ds a | 4 => r_fs a | _ => r_gs a
  end.
Definition with_sreg (n v : Z) (a : arch) : arch :=
  match n with
  | 0 => a_es v a | 1 => a_cs v a | 2 => a_ss v a | 3 => a_ds v a | 4 => a_fs v a | _ => a_gs v a
  end.

(** ** Flags: bit numbers of the FLAGS register *)
Notation CF := 0 (only parsing). Notation PF := 2 (only parsing).
Notation AF := 4 (only parsing). Notation ZF := 6 (only parsing).
Notation SF := 7 (only parsing). Notation TF := 8 (only parsing).
Notation IF_ := 9 (only parsing). Notation DF := 10 (only parsing).
Notation OF := 11 (only parsing).
Definition flag (k f : Z) : bool := Z.testbit f k.
Definition put (k : Z) (b : bool) (f : Z) : Z := if b then Z.setbit f k else Z.clearbit f k.

Fixpoint count_ones (n : nat) (v : Z) : Z :=
  match n with O => 0 | S n' => v mod 2 + count_ones n' (v / 2) end.
(** Even number of one bits in the low byte. *)
Definition even_parity (v : Z) : bool := Z.even (count_ones 8 v).
(** ZF, SF, PF describing a [w]-bit result. *)
Definition put_szp (w v f : Z) : Z :=
  put ZF (v =? 0) (put SF (2 ^ (w - 1) <=? v) (put PF (even_parity v) f)).
(** All six arithmetic flags. *)
Definition put6 (cf af of_ : bool) (w v f : Z) : Z :=
  put CF cf (put AF af (put OF of_ (put_szp w v f))).

(** ** Guest memory as seen through the block map: linear address x *)
Definition host (a : arch) (x : Z) : Z := mtab a (x / 4096) + x mod 4096.
Definition byte (a : arch) (x : Z) : Z :=
  match hmem a (host a x) with Some b => b | None => 0 end.
Definition with_byte (x v : Z) (a : arch) : arch :=
  a_hmem (fun y => if y =? host a x then Some v else hmem a y) a.
Fixpoint peek (n : nat) (a : arch) (x : Z) : Z :=
  match n with O => 0 | S n' => byte a x + 256 * peek n' a (x + 1) end.
Fixpoint poke (n : nat) (x v : Z) (a : arch) : arch :=
  match n with O => a | S n' => poke n' (x + 1) (v / 256) (with_byte x (v mod 256) a) end.
(** Little-endian [w]-bit value at linear address x. *)
Definition mem (w : Z) (a : arch) (x : Z) : Z := peek (Z.to_nat (w / 8)) a x.
Definition with_mem (w x v : Z) (a : arch) : arch := poke (Z.to_nat (w / 8)) x v a.
Definition lin (seg ofs : Z) : Z := 16 * seg + ofs.

(** ** Well-formed states *)
(** The usual memory map: 272 consecutive accessible blocks starting at host address
    [base]; blocks whose pointer would be NULL are accepted by the build's NULL check. *)
Record flat (E : env) (base : Z) (a : arch) : Prop := mkFlat {
  fl_base : 0 <= base;
  fl_null : null_check E = true -> base = 0 -> zero_null_ok E = true;
  fl_tab : forall b, 0 <= b < 272 -> mtab a b = base + 4096 * b;
  fl_mem : forall x, 0 <= x < 1114112 -> exists b, hmem a (base + x) = Some b /\ 0 <= b < 256
}.
(** Every register within its declared width. *)
Record wf_regs (a : arch) : Prop := mkWfRegs {
  wf_gprs : 0 <= gprs a < 2 ^ 256;
  wf_ss : inrange 16 (r_ss a);
  wf_ds : inrange 16 (r_ds a);
  wf_es : inrange 16 (r_es a);
  wf_fs : inrange 16 (r_fs a);
  wf_gs : inrange 16 (r_gs a);
  wf_cs : inrange 16 (r_cs a);
  wf_ip : inrange 16 (r_ip a);
  wf_flags : inrange 16 (r_flags a)
}.
(** CS:IP is neither the magic return address nor an HLE entry point. *)
Definition normal_pc (a : arch) : Prop :=
  ~ (r_cs a = 65535 /\ r_ip a = 65535) /\ ~ (r_cs a = 47104 /\ r_ip a < 256).
(** A state ready to execute an ordinary instruction: flat memory, registers in range, the
    instruction counter not at INT_MAX. *)
Record ready (E : env) (base : Z) (s : st) : Prop := mkReady {
  rdy_flat : flat E base (ar s);
  rdy_regs : wf_regs (ar s);
  rdy_pc : normal_pc (ar s);
  rdy_count : icount s <> 2147483647
}.
(** The bytes [bs] are at CS:IP and do not cross the end of the code segment. *)
Definition pc (a : arch) : Z := lin (r_cs a) (r_ip a).
Definition blen (bs : list Z) : Z := Z.of_nat (length bs).
Definition code (a : arch) (bs : list Z) : Prop :=
  r_ip a + blen bs <= 65536 /\
  forall i b, nth_error bs i = Some b -> byte a (pc a + Z.of_nat i) = b.

(** ** Equality of architectural states (memory compared byte by byte) *)
Record same (a b : arch) : Prop := mkSame {
  sm_gprs : gprs a = gprs b;
  sm_ss : r_ss a = r_ss b; sm_ds : r_ds a = r_ds b; sm_es : r_es a = r_es b;
  sm_fs : r_fs a = r_fs b; sm_gs : r_gs a = r_gs b; sm_cs : r_cs a = r_cs b;
  sm_ip : r_ip a = r_ip b; sm_flags : r_flags a = r_flags b; sm_cpu : cpu a = cpu b;
  sm_mtab : mtab a = mtab b; sm_hle : hle a = hle b;
  sm_mem : forall x, hmem a x = hmem b x;
  sm_io : iolog a = iolog b
}.

(** ** One instruction *)
(** The 00 00 rule (C06): the two instruction bytes, read after execution, are zero. *)
Definition is_null (a0 a' : arch) (bs : list Z) : bool :=
  (blen bs =? 2) && (byte a' (pc a0) =? 0) && (byte a' (pc a0 + 1) =? 0).
(** RME_RunOne executes the instruction [bs] and ends in architectural state [a']: it
    returns 0 (or RME_ERR_BREAKPOINT by the 00 00 rule) and counts one instruction. *)
Definition executes_to (E : env) (s : st) (bs : list Z) (a' : arch) : Prop :=
  exists s',
    run_one E s = (if lastnull s && is_null (ar s) a' bs then Err E_BREAK s' else Ok tt s') /\
    same (ar s') a' /\
    icount s' = icount s + 1 /\ dbg s' = dbg s /\ lastnull s' = is_null (ar s) a' bs.
(** Same, for an instruction that continues with the next one. *)
Definition next (bs : list Z) (a0 a' : arch) : arch :=
  a_ip (low 16 (r_ip a0 + blen bs)) a'.
Definition executes (E : env) (s : st) (bs : list Z) (a' : arch) : Prop :=
  executes_to E s bs (next bs (ar s) a').
(** RME_RunOne stops with error code [c]; only the instruction counter moves. *)
Definition stops (E : env) (s : st) (c : Z) : Prop :=
  exists s', run_one E s = Err c s' /\ same (ar s') (ar s) /\
    icount s' = icount s + 1 /\ dbg s' = dbg s /\ lastnull s' = lastnull s.

(** ** Prefixes *)
Record pfx : Type := mkPfx {
  p_seg : option Z;   (* segment override *)
  p_os : bool;        (* 66: 32-bit operands *)
  p_as : bool;        (* 67: 32-bit addresses *)
  p_rep : Z           (* F2, F3 or 0 *)
}.
Definition seg_prefix (b : Z) : option Z :=
  match b with
  | 38 => Some 0   (* 26 ES *)
  | 46 => Some 1   (* 2E CS *)
  | 54 => Some 2   (* 36 SS *)
  | 62 => Some 3   (* 3E DS *)
  | 100 => Some 4  (* 64 FS *)
  | 101 => Some 5  (* 65 GS *)
  | _ => None
  end.
Definition add_prefix (p : pfx) (b : Z) : option pfx :=
  match seg_prefix b with
  | Some n => match p_seg p with
              | None => Some (mkPfx (Some n) (p_os p) (p_as p) (p_rep p))
              | Some _ => None
              end
  | None =>
    if b =? 102 then if p_os p then None else Some (mkPfx (p_seg p) true (p_as p) (p_rep p))
    else if b =? 103 then if p_as p then None else Some (mkPfx (p_seg p) (p_os p) true (p_rep p))
    else if (b =? 242) || (b =? 243)
         then if p_rep p =? 0 then Some (mkPfx (p_seg p) (p_os p) (p_as p) b) else None
    else None
  end.
Fixpoint prefixes_from (p : pfx) (bs : list Z) : option pfx :=
  match bs with
  | [] => Some p
  | b :: t => match add_prefix p b with Some p' => prefixes_from p' t | None => None end
  end.
(** The meaning of a sequence of prefix bytes; None if one is repeated. *)
Definition prefixes (bs : list Z) : option pfx := prefixes_from (mkPfx None false false 0) bs.
Definition osz (p : pfx) : Z := if p_os p then 32 else 16.

(** ** ModR/M operands *)
Inductive rm : Type :=
| RReg (n : Z)            (* register n *)
| RMem (seg ofs : Z).     (* segment value and offset *)
Definition rd_rm (w : Z) (r : rm) (a : arch) : Z :=
  match r with RReg n => reg w n a | RMem sg o => mem w a (lin sg o) end.
Definition wr_rm (w : Z) (r : rm) (v : Z) (a : arch) : arch :=
  match r with RReg n => with_reg w n v a | RMem sg o => with_mem w (lin sg o) v a end.

(** Base and index registers of each r/m code. *)
Definition ea_base (m : Z) (a : arch) : Z :=
  match m with
  | 0 => reg 16 BX a + reg 16 SI a
  | 1 => reg 16 BX a + reg 16 DI a
  | 2 => reg 16 BP a + reg 16 SI a
  | 3 => reg 16 BP a + reg 16 DI a
  | 4 => reg 16 SI a
  | 5 => reg 16 DI a
  | 6 => reg 16 BP a
  | _ => reg 16 BX a
  end.
Definition ea_sreg (p : pfx) (md m : Z) : Z :=
  match p_seg p with
  | Some n => n
  | None => if (m =? 2) || (m =? 3) || ((m =? 6) && negb (md =? 0)) then 2 else 3
  end.
(** Reads displacement bytes: the signed displacement and the remaining bytes. *)
Definition disp (md m : Z) (t : list Z) : option (Z * list Z) :=
  if md =? 1 then match t with d :: r => Some (signed 8 d, r) | _ => None end
  else if (md =? 2) || (m =? 6)
  then match t with l :: h :: r => Some (signed 16 (l + 256 * h), r) | _ => None end
  else Some (0, t).
(** 32-bit addressing (prefix 67): SIB byte and displacement, as in the table of the manual.  Gives
    whether the default segment is SS (base ESP or EBP), the offset and the remaining bytes. *)
Definition dword (t : list Z) : option (Z * list Z) :=
  match t with
  | b0 :: b1 :: b2 :: b3 :: r => Some (b0 + 256 * b1 + 65536 * b2 + 16777216 * b3, r)
  | _ => None
  end.
Definition disp32 (md : Z) (t : list Z) : option (Z * list Z) :=
  if md =? 1 then match t with d :: r => Some (signed 8 d, r) | _ => None end
  else if md =? 2 then dword t
  else Some (0, t).
Definition add_disp (x : Z) (d : option (Z * list Z)) : option (Z * list Z) :=
  match d with Some (v, r) => Some (x + v, r) | None => None end.
Definition ea32 (md m : Z) (a : arch) (t : list Z) : bool * option (Z * list Z) :=
  if m =? 4 then
    match t with
    | [] => (false, None)
    | sib :: u =>
      let b := sib mod 8 in let i := (sib / 8) mod 8 in
      let index := if i =? 4 then 0 else reg 32 i a * 2 ^ (sib / 64) in
      if (md =? 0) && (b =? 5) then (false, add_disp index (dword u))
      else ((b =? 4) || (b =? 5), add_disp (index + reg 32 b a) (disp32 md u))
    end
  else if (md =? 0) && (m =? 5) then (false, dword t)
  else (m =? 5, add_disp (reg 32 m a) (disp32 md t)).
(** (reg field, r/m operand, remaining bytes).  An offset beyond 65535 is outside the segment. *)
Definition parse_rm (p : pfx) (a : arch) (bs : list Z) : option (Z * rm * list Z) :=
  match bs with
  | [] => None
  | b :: t =>
    let md := b / 64 in let rg := (b / 8) mod 8 in let m := b mod 8 in
    if md =? 3 then Some (rg, RReg m, t)
    else if p_as p then
      let e := ea32 md m a t in
      match snd e with
      | Some (x, r) =>
        let sr := match p_seg p with Some n => n | None => if fst e then 2 else 3 end in
        if low 32 x <? 65536 then Some (rg, RMem (sreg sr a) (low 32 x), r) else None
      | None => None
      end
    else match disp md m t with
         | Some (d, r) =>
           let base := if (md =? 0) && (m =? 6) then 0 else ea_base m a in
           Some (rg, RMem (sreg (ea_sreg p md m) a) (low 16 (base + d)), r)
         | None => None
         end
  end.
(** The 32-bit forms that the emulator decodes correctly: no SIB byte together with a displacement;
    no negative 8-bit displacement, no 32-bit displacement beyond 65535; and without a segment
    override SS and DS must agree for the forms based on EDX, EBX, ESI (taken to be relative to SS
    when there is a displacement) and ESP, EBP (taken to be relative to DS). *)
Definition sib_ok (md m : Z) (t : list Z) : Prop :=
  m = 4 -> md = 0 /\ match t with sib :: u => sib mod 8 = 5 -> exists r, dword u = Some (0, r) | [] => True end.
Definition disp32_ok (md m : Z) (t : list Z) : Prop :=
  m <> 4 -> match disp32 md t with Some (d, _) => 0 <= d < 65536 | None => True end.
Definition ea32_supported (p : pfx) (md m : Z) (a : arch) (t : list Z) : Prop :=
  sib_ok md m t /\ disp32_ok md m t /\
  (p_seg p = None -> fst (ea32 md m a t) = true \/ (md <> 0 /\ (m = 2 \/ m = 3 \/ m = 6)) -> r_ss a = r_ds a).
(** The part of the 16-bit addressing space that the emulator decodes correctly (C14): the
    sum base + index + signed displacement does not leave 0..65535, and [BP+SI], [BP+DI]
    without displacement or override are only used when SS and DS agree. *)
Definition ea_supported (p : pfx) (a : arch) (bs : list Z) : Prop :=
  match bs with
  | [] => True
  | b :: t =>
    let md := b / 64 in let m := b mod 8 in
    md <> 3 ->
    if p_as p then ea32_supported p md m a t
    else
    match disp md m t with
    | Some (d, _) => 0 <= (if (md =? 0) && (m =? 6) then 0 else ea_base m a) + d < 65536
    | None => True
    end /\
    (md = 0 -> m = 2 \/ m = 3 -> p_seg p = None -> r_ss a = r_ds a)
  end.
(** The offset computed by LEA for a memory form of the ModR/M byte: 16 or 32 bits wide by address size. *)
Definition lea_offset (p : pfx) (a : arch) (bs : list Z) : option (Z * Z) :=
  match bs with
  | [] => None
  | b :: t =>
    let md := b / 64 in let rg := (b / 8) mod 8 in let m := b mod 8 in
    if md =? 3 then None
    else if p_as p then match snd (ea32 md m a t) with Some (x, []) => Some (rg, low 32 x) | _ => None end
    else match disp md m t with
         | Some (d, []) => Some (rg, low 16 ((if (md =? 0) && (m =? 6) then 0 else ea_base m a) + d))
         | _ => None
         end
  end.
(** LEA computes it correctly: always, if offset and result are 16-bit; else without SIB byte together
    with a displacement, and for a 32-bit result if the sum does not leave 0..65535 (16-bit addressing)
    or the displacement is in 0..65535 (32-bit addressing). *)
Definition lea_supported (p : pfx) (a : arch) (bs : list Z) : Prop :=
  match bs with
  | [] => True
  | b :: t =>
    let md := b / 64 in let m := b mod 8 in
    if p_as p then sib_ok md m t /\ (p_os p = true -> disp32_ok md m t)
    else p_os p = true ->
         match disp md m t with
         | Some (d, _) => 0 <= (if (md =? 0) && (m =? 6) then 0 else ea_base m a) + d < 65536
         | None => True
         end
  end.
(** A 16/32-bit memory operand must not start on the last byte of a 4 KiB block. *)
Definition not_block_end (w : Z) (r : rm) : Prop :=
  match r with RMem sg o => w <> 8 -> lin sg o mod 4096 <> 4095 | RReg _ => True end.

(** Immediates: exactly the remaining bytes. *)
Definition imm (w : Z) (t : list Z) : option Z :=
  match t with
  | [b] => if w =? 8 then Some b else None
  | [b0; b1] => if w =? 16 then Some (b0 + 256 * b1) else None
  | [b0; b1; b2; b3] =>
    if w =? 32 then Some (b0 + 256 * b1 + 65536 * b2 + 16777216 * b3) else None
  | _ => None
  end.

(** A complete instruction [pre ++ bs] at CS:IP of a ready state. *)
Definition fetched (E : env) (base : Z) (s : st) (pre : list Z) (p : pfx) (bs : list Z) : Prop :=
  ready E base s /\ prefixes pre = Some p /\ code (ar s) (pre ++ bs).

(** ** Arithmetic and logic *)
Definition overflows (w t : Z) : bool := (t <? - 2 ^ (w - 1)) || (2 ^ (w - 1) - 1 <? t).
(** d + s + c: result and flags. *)
Definition spec_add (w d s c f : Z) : Z * Z :=
  let v := low w (d + s + c) in
  (v, put6 (2 ^ w <=? d + s + c)
           (16 <=? d mod 16 + s mod 16 + c)
           (overflows w (signed w d + signed w s + c)) w v f).
(** d - s - c: result and flags. *)
Definition spec_sub (w d s c f : Z) : Z * Z :=
  let v := low w (d - s - c) in
  (v, put6 (d <? s + c)
           (d mod 16 <? s mod 16 + c)
           (overflows w (signed w d - signed w s - c)) w v f).
(** SBB as emulated: the result is right, but with the carry set three corner cases get the
    opposite CF, AF or OF (C19). *)
Definition sbb_cf_wrong (w s c : Z) : bool := (w =? 32) && (c =? 1) && (s =? 2 ^ w - 1).
Definition sbb_af_wrong (d s c : Z) : bool := (c =? 1) && (d mod 16 =? s mod 16) && (s mod 16 <? 15).
Definition sbb_of_wrong (w s c : Z) : bool := (c =? 1) && (s =? 2 ^ (w - 1) - 1).
Definition emu_sbb (w d s c f : Z) : Z * Z :=
  let v := low w (d - s - c) in
  (v, put6 (xorb (sbb_cf_wrong w s c) (d <? s + c))
           (xorb (sbb_af_wrong d s c) (d mod 16 <? s mod 16 + c))
           (xorb (sbb_of_wrong w s c) (overflows w (signed w d - signed w s - c))) w v f).
(** Bitwise result v. *)
Definition spec_logic (w v f : Z) : Z * Z := (v, put CF false (put OF false (put_szp w v f))).

(** The two-operand group by its number in the opcode map (8 is TEST). *)
Definition alu_result (k w d s f : Z) : Z * Z :=
  match k with
  | 0 => spec_add w d s 0 f                       (* ADD *)
  | 1 => spec_logic w (Z.lor d s) f               (* OR *)
  | 2 => spec_add w d s (b2z (flag CF f)) f       (* ADC *)
  | 3 => emu_sbb w d s (b2z (flag CF f)) f        (* SBB *)
  | 4 => spec_logic w (Z.land d s) f              (* AND *)
  | 5 => spec_sub w d s 0 f                       (* SUB *)
  | 6 => spec_logic w (Z.lxor d s) f              (* XOR *)
  | 7 => spec_sub w d s 0 f                       (* CMP *)
  | _ => spec_logic w (Z.land d s) f              (* TEST *)
  end.

(** Operand forms of that group: operation number, width, destination, source value. *)
Definition ifrest {X} (t : list Z) (x : X) : option X := match t with [] => Some x | _ => None end.
Definition decode_alu (p : pfx) (a : arch) (bs : list Z) : option (Z * Z * rm * Z) :=
  match bs with
  | [] => None
  | op :: t =>
    let w := osz p in
    let rm_reg ww k :=                     (* op r/m, reg *)
      match parse_rm p a t with
      | Some (rg, r, rest) => ifrest rest (k, ww, r, reg ww rg a)
      | None => None
      end in
    let reg_rm ww k :=                     (* op reg, r/m *)
      match parse_rm p a t with
      | Some (rg, r, rest) => ifrest rest (k, ww, RReg rg, rd_rm ww r a)
      | None => None
      end in
    let acc_imm ww k :=                    (* op accumulator, imm *)
      match imm ww t with Some i => Some (k, ww, RReg AX, i) | None => None end in
    let rm_imm ww iw (kf : Z -> option Z) := (* op r/m, imm; sign-extended if narrower *)
      match parse_rm p a t with
      | Some (rg, r, rest) =>
        match kf rg, imm iw rest with
        | Some k, Some i => Some (k, ww, r, if iw =? ww then i else low ww (signed iw i))
        | _, _ => None
        end
      | None => None
      end in
    if (0 <=? op) && (op <? 64) then
      match op mod 8 with
      | 0 => rm_reg 8 (op / 8)
      | 1 => rm_reg w (op / 8)
      | 2 => reg_rm 8 (op / 8)
      | 3 => reg_rm w (op / 8)
      | 4 => acc_imm 8 (op / 8)
      | 5 => acc_imm w (op / 8)
      | _ => None
      end
    else
      match op with
      | 128 (* 80 *) => rm_imm 8 8 Some
      | 129 (* 81 *) => rm_imm w w Some
      | 131 (* 83 *) => rm_imm w 8 Some
      | 132 (* 84 *) => rm_reg 8 8
      | 133 (* 85 *) => rm_reg w 8
      | 168 (* A8 *) => acc_imm 8 8
      | 169 (* A9 *) => acc_imm w 8
      | 246 (* F6 *) => rm_imm 8 8 (fun rg => if rg =? 0 then Some 8 else None)
      | 247 (* F7 *) => rm_imm w w (fun rg => if rg =? 0 then Some 8 else None)
      | _ => None
      end
  end.

(** Which opcodes carry a ModR/M byte, and whether the emulator refuses a memory operand that
    starts on the last byte of a 4 KiB block (it does for word operands, see [not_block_end]). *)
Definition has_modrm (bs : list Z) : option (bool * list Z) :=
  match bs with
  | [] => None
  | 15 :: op :: t =>                                     (* two-byte map *)
    if (op =? 182) || (op =? 164) || (op =? 165) || (op =? 172) || (op =? 173) ||
       (op =? 178) || (op =? 180) || (op =? 181)
    then Some (false, t)                         (* MOVZX r8; SHLD, SHRD; LSS, LFS, LGS *)
    else if (op =? 175) || (op =? 183) || (op =? 186) || (op =? 188)
    then Some (true, t)
    else None
  | op :: t =>
    if (0 <=? op) && (op <? 64) then
      if op mod 8 <? 4 then Some (Z.odd op, t) else None
    else if (op =? 105) || (op =? 107) then Some (true, t)
    else if (128 <=? op) && (op <=? 139) then Some (Z.odd op, t)
    else if (op =? 141) || (op =? 196) || (op =? 197) then Some (false, t)  (* LEA, LES, LDS *)
    else if (140 <=? op) && (op <=? 143) then Some (true, t)
    else if (op =? 192) || (op =? 193) || (op =? 198) || (op =? 199) ||
            ((208 <=? op) && (op <=? 211)) || (op =? 246) || (op =? 247) ||
            (op =? 254) || (op =? 255)
    then Some (Z.odd op, t)
    else None
  end.
(** The ModR/M operand of the instruction, if any, is one the emulator addresses correctly:
    see [ea_supported]; and a 16/32-bit memory operand does not start on the last byte of a
    4 KiB block. *)
Definition operand_ok (p : pfx) (a : arch) (bs : list Z) : Prop :=
  match has_modrm bs with
  | Some (wide, t) =>
    ea_supported p a t /\
    (wide = true ->
     match parse_rm p a t with Some (_, r, _) => not_block_end 16 r | None => True end)
  | None => True
  end.

(** INC, DEC. *)
Definition spec_inc (w d f : Z) : Z * Z :=
  let v := low w (d + 1) in
  (v, put AF (d mod 16 =? 15) (put OF (d =? 2 ^ (w - 1) - 1) (put_szp w v f))).
Definition spec_dec (w d f : Z) : Z * Z :=
  let v := low w (d - 1) in
  (v, put AF (d mod 16 =? 0) (put OF (d =? 2 ^ (w - 1)) (put_szp w v f))).
(** NEG as emulated: AF looks at three bits of the operand only (C22). *)
Definition emu_neg (w d f : Z) : Z * Z :=
  let v := low w (- d) in
  (v, put6 (negb (d =? 0)) (negb (d mod 8 =? 0)) (d =? 2 ^ (w - 1)) w v f).

(** Effect of a two-operand ALU instruction: flags, and the destination unless it is CMP or TEST. *)
Definition alu_effect (k w : Z) (dst : rm) (src : Z) (a : arch) : arch :=
  let '(v, f) := alu_result k w (rd_rm w dst a) src (r_flags a) in
  if (k =? 7) || (k =? 8) then a_flags f a else wr_rm w dst v (a_flags f a).
