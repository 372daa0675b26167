(** Specification vocabulary for whole runs and for single registers and bytes. *)
From Verif Require Import Base Machine Spec SpecOps SpecOps2 SpecRun.

(** k successful RME_RunOne calls in a row lead from s to s'. *)
Inductive runs (E : env) : nat -> st -> st -> Prop :=
| runs_0 s : runs E 0 s s
| runs_S k s s1 s' : run_one E s = Ok tt s1 -> runs E k s1 s' -> runs E (S k) s s'.
(** RME_RunOne finds CS:IP at an ordinary instruction. *)
Definition at_instruction (a : arch) : Prop := ~ magic a /\ ~ hle_entry_pc a.
(** No register, segment, flag or memory byte, and no port access. *)
Definition unchanged (s s' : st) : Prop := same (ar s') (ar s).
(** The host callbacks neither look at nor touch the debug level. *)
Definition ignores_debug_level (E : env) : Prop :=
  forall h n g s, callback E h n (set_dbg g s) = set_dbg g (callback E h n s).
(** Bits lo .. lo+n-1 of x are those of v, the others those of y. *)
Definition bits_replaced (x y v lo n : Z) : Prop :=
  forall i, 0 <= i -> Z.testbit x i = if (lo <=? i) && (i <? lo + n) then Z.testbit v (i - lo) else Z.testbit y i.

(** ** Flags, one by one.  [f] before, [f'] after. *)
Definition other_flags (l : list Z) (f f' : Z) : Prop := forall j, 0 <= j -> ~ In j l -> flag j f' = flag j f.
(** ZF, SF, PF of the w-bit result v. *)
Definition result_flags (w v f' : Z) : Prop :=
  flag ZF f' = (v =? 0) /\ flag SF f' = Z.testbit v (w - 1) /\ flag PF f' = Z.even (count_ones 8 v).
Definition arith_flags (w v : Z) (cf af of_ : bool) (f f' : Z) : Prop :=
  flag CF f' = cf /\ flag AF f' = af /\ flag OF f' = of_ /\ result_flags w v f' /\ other_flags [CF; PF; AF; ZF; SF; OF] f f'.
(** AND, OR, XOR, TEST: AF is left alone. *)
Definition logic_flags (w v f f' : Z) : Prop :=
  flag CF f' = false /\ flag OF f' = false /\ result_flags w v f' /\ other_flags [CF; PF; ZF; SF; OF] f f'.
(** INC, DEC. *)
Definition incdec_flags (w v : Z) (af of_ : bool) (f f' : Z) : Prop :=
  flag AF f' = af /\ flag OF f' = of_ /\ result_flags w v f' /\ other_flags [PF; AF; ZF; SF; OF] f f'.
(** Signed overflow of a w-bit operation with exact result t. *)
Definition signed_overflow (w t : Z) : bool := (t <? - 2 ^ (w - 1)) || (2 ^ (w - 1) - 1 <? t).

(** ** Rotations of W-bit numbers by n positions; for RCL, RCR the carry is bit w of a w+1 bit number. *)
Definition rotated_left (W n x y : Z) : Prop :=
  0 <= y < 2 ^ W /\ forall i, 0 <= i < W -> Z.testbit y i = Z.testbit x ((i - n) mod W).
Definition rotated_right (W n x y : Z) : Prop :=
  0 <= y < 2 ^ W /\ forall i, 0 <= i < W -> Z.testbit y i = Z.testbit x ((i + n) mod W).
Definition with_carry (w v : Z) (c : bool) : Z := v + (if c then 2 ^ w else 0).

(** ** The stack.  Word k above SS:SP; [as_left n a b]: a has SS:SP and n stack words as in b. *)
Definition stack_word (k : Z) (a : arch) : Z := mem 16 a (lin (r_ss a) (low 16 (reg 16 SP a + 2 * k))).
Definition as_left (n : Z) (a b : arch) : Prop :=
  r_ss a = r_ss b /\ reg 16 SP a = reg 16 SP b /\ forall k, 0 <= k < n -> stack_word k a = stack_word k b.
(** Result of the comparison "x cond y" for condition number n of Jcc: O NO B AE E NE BE A S NS P NP L GE LE G. *)
Definition compares_as (n w x y : Z) : bool :=
  let sx := signed w x in let sy := signed w y in let v := (x - y) mod 2 ^ w in
  match n with
  | 0 => signed_overflow w (sx - sy) | 1 => negb (signed_overflow w (sx - sy))
  | 2 => x <? y   | 3 => y <=? x
  | 4 => x =? y   | 5 => negb (x =? y)
  | 6 => x <=? y  | 7 => y <? x
  | 8 => Z.testbit v (w - 1) | 9 => negb (Z.testbit v (w - 1))
  | 10 => Z.even (count_ones 8 v) | 11 => negb (Z.even (count_ones 8 v))
  | 12 => sx <? sy | 13 => sy <=? sx
  | 14 => sx <=? sy | _ => sy <? sx
  end.
(** The single flag (or combination) that condition n looks at. *)
Definition condition (n f : Z) : bool :=
  match n with
  | 0 => flag OF f | 1 => negb (flag OF f)
  | 2 => flag CF f | 3 => negb (flag CF f)
  | 4 => flag ZF f | 5 => negb (flag ZF f)
  | 6 => flag CF f || flag ZF f | 7 => negb (flag CF f || flag ZF f)
  | 8 => flag SF f | 9 => negb (flag SF f)
  | 10 => flag PF f | 11 => negb (flag PF f)
  | 12 => xorb (flag SF f) (flag OF f) | 13 => negb (xorb (flag SF f) (flag OF f))
  | 14 => flag ZF f || xorb (flag SF f) (flag OF f) | _ => negb (flag ZF f || xorb (flag SF f) (flag OF f))
  end.
(** ** What the 16-bit PUSH forms push, and where the POP forms store the popped word v. *)
Definition pushed_value (k : stk) (a : arch) : option Z :=
  match k with
  | K_PushReg n | K_PushRM (RReg n) => Some (pushed n a)
  | K_PushSeg n => Some (sreg n a)
  | K_PushImm v => Some v
  | K_PushRM r => Some (rd_rm 16 r a)
  | K_PushF => Some (r_flags a)
  | _ => None
  end.
Definition popped_into (k : stk) (v : Z) (a : arch) : option arch :=
  match k with
  | K_PopReg n => Some (with_reg 16 n v a)
  | K_PopSeg n => Some (with_sreg n v a)
  | K_PopRM r => Some (wr_rm 16 r v a)
  | _ => None
  end.
(** Nothing but the low halves of general registers differs. *)
Definition only_low (a b : arch) : Prop := same a (a_gprs (gprs a) b) /\ forall n, 0 <= n < 8 -> gpr n a / 65536 = gpr n b / 65536.
(** Nothing but memory differs. *)
Definition only_memory (a b : arch) : Prop := same a (a_hmem (hmem a) b).
(** Linear addresses of the elements of a string instruction with element width w started in a. *)
Definition src_elem (sg w : Z) (a : arch) (k : nat) : Z :=
  lin sg ((reg 16 SI a + (if flag DF (r_flags a) then -1 else 1) * (Z.of_nat k * (w / 8))) mod 65536).
Definition dst_elem (w : Z) (a : arch) (k : nat) : Z :=
  lin (r_es a) ((reg 16 DI a + (if flag DF (r_flags a) then -1 else 1) * (Z.of_nat k * (w / 8))) mod 65536).
Definition moved (w : Z) (n : Z) (x : Z) (a : arch) : Z := (x + (if flag DF (r_flags a) then -1 else 1) * (n * (w / 8))) mod 65536.
