(** Specification: guest programs whose results are stated as theorems. *)
From Verif Require Import Base Spec.

(** The n-word little-endian number at linear address x. *)
Fixpoint number (n : nat) (x : Z) (a : arch) : Z :=
  match n with O => 0 | S k => mem 16 a x + 65536 * number k (x + 2) a end.
(** Multi-word addition and subtraction of the CX-word number at DS:SI to (from) the one at DS:DI:
<<
     clc
  L: mov ax, [si]
     adc [di], ax     (or: sbb [di], ax)
     inc si
     inc si
     inc di
     inc di
     loop L
>> *)
Definition add_words : list Z := [0xF8; 0x8B; 0x04; 0x11; 0x05; 0x46; 0x46; 0x47; 0x47; 0xE2; 0xF6].
Definition sub_words : list Z := [0xF8; 0x8B; 0x04; 0x19; 0x05; 0x46; 0x46; 0x47; 0x47; 0xE2; 0xF6].
(** The registers that such a routine leaves alone: all segment registers, DX BX SP BP and the upper halves. *)
Record leaves (a0 a : arch) : Prop := mkLeaves {
  lv_cs : r_cs a = r_cs a0; lv_ds : r_ds a = r_ds a0; lv_es : r_es a = r_es a0;
  lv_ss : r_ss a = r_ss a0; lv_fs : r_fs a = r_fs a0; lv_gs : r_gs a = r_gs a0;
  lv_reg : forall n, 2 <= n <= 5 -> reg 32 n a = reg 32 n a0
}.

(** The routine [prog] is at CS:IP (not in the host's entry segment B800), CX = n is not 0, SI and DI are even, neither
    number wraps around its segment, the source does not start inside the destination and the destination
    does not overlap the code. *)
Record words_ready (prog : list Z) (n : nat) (a : arch) : Prop := mkWords {
  wr_code : code a prog; wr_pc : r_cs a <> 0xB800;
  wr_cx : reg 16 CX a = Z.of_nat n; wr_pos : (0 < n)%nat;
  wr_si : Z.even (reg 16 SI a) = true; wr_di : Z.even (reg 16 DI a) = true;
  wr_ends : reg 16 SI a + 2 * Z.of_nat n <= 65536 /\ reg 16 DI a + 2 * Z.of_nat n <= 65536;
  wr_apart : reg 16 DI a <= reg 16 SI a \/ reg 16 SI a + 2 * Z.of_nat n <= reg 16 DI a;
  wr_prog : lin (r_ds a) (reg 16 DI a) + 2 * Z.of_nat n <= pc a \/ pc a + blen prog <= lin (r_ds a) (reg 16 DI a)
}.
(** How the routine leaves the machine, apart from the sum: memory outside the destination is unchanged, CX = 0, SI and DI
    point behind the numbers, IP behind the routine. *)
Record words_done (prog : list Z) (n : nat) (a a' : arch) : Prop := mkDone {
  wd_mem : forall x, 0 <= x < 1114112 -> ~ lin (r_ds a) (reg 16 DI a) <= x < lin (r_ds a) (reg 16 DI a) + 2 * Z.of_nat n -> byte a' x = byte a x;
  wd_cx : reg 16 CX a' = 0;
  wd_si : reg 16 SI a' = low 16 (reg 16 SI a + 2 * Z.of_nat n);
  wd_di : reg 16 DI a' = low 16 (reg 16 DI a + 2 * Z.of_nat n);
  wd_ip : r_ip a' = low 16 (r_ip a + blen prog);
  wd_leaves : leaves a a'
}.
