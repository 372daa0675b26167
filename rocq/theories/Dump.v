(** Model of RME_DumpRegs (src/rme.c:70-101) and of the printf conversions it uses. *)
From Coq Require Import String Ascii.
From Verif Require Import Base Cpu.
Local Open Scope string_scope.

(** libc's %0Nx of an unsigned value: lower-case hexadecimal without leading zeros, padded with 0 to N characters.
    [xdigits n]: at most n + 1 digits (16 are enough for any argument here). *)
Definition xdigit (d : Z) : ascii := ascii_of_nat (Z.to_nat (if (d <? 10)%Z then (48 + d)%Z else (87 + d)%Z)).
Fixpoint xdigits (n : nat) (v : Z) (acc : string) : string :=
  let acc' := String (xdigit (v mod 16)) acc in
  match n with O => acc' | S n' => if (v / 16 =? 0)%Z then acc' else xdigits n' (v / 16)%Z acc' end.
Fixpoint zeros_text (n : nat) : string := match n with O => "" | S n' => String "0" (zeros_text n') end.
Definition fmt_x (width : nat) (v : Z) : string :=
  let t := xdigits 15 v "" in zeros_text (width - String.length t) ++ t.
Definition newline : string := String (ascii_of_nat 10) "".
(** if(State->Flags & FLAG_x) printf(" x") *)
Definition flag_word (bit : Z) (name : string) (a : arch) : string := if (Z.land (r_flags a) (2 ^ bit) =? 0)%Z then "" else " " ++ name.
(** rme.c:73-101 with USE_SIZE_OVERRIDES = 1 (rme.h:39) *)
Definition dump_regs (a : arch) : string :=
  let d n := fmt_x 8 (getf (32 * n) 32 (gprs a)) in let w v := fmt_x 4 v in
  newline ++
  "EAX " ++ d 0%Z ++ "  ECX " ++ d 1%Z ++ "  EDX " ++ d 2%Z ++ "  EBX " ++ d 3%Z ++ newline ++
  "ESP " ++ d 4%Z ++ "  EBP " ++ d 5%Z ++ "  ESI " ++ d 6%Z ++ "  EDI " ++ d 7%Z ++ newline ++
  "SS " ++ w (r_ss a) ++ "  DS " ++ w (r_ds a) ++ "  ES " ++ w (r_es a) ++ newline ++
  "CS:IP = 0x" ++ w (r_cs a) ++ ":" ++ w (r_ip a) ++ newline ++
  "Flags = " ++ w (r_flags a) ++
  flag_word 11 "OF" a ++ flag_word 10 "DF" a ++ flag_word 9 "IF" a ++ flag_word 8 "TF" a ++ flag_word 7 "SF" a ++
  flag_word 6 "ZF" a ++ flag_word 4 "AF" a ++ flag_word 2 "PF" a ++ flag_word 0 "CF" a ++ newline.
