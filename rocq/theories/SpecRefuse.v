(** Specification: which instructions RME_RunOne refuses, and with which error code (C86). *)
From Verif Require Import Base Cpu Spec SpecRun SpecStop SpecEa SpecUb SpecOps.
Local Open Scope Z_scope.

(** A software interrupt and its number: INT 3, INT n, INTO with OF set. *)
Inductive software_int (a : arch) : list Z -> Z -> Prop :=
| si_3 t : software_int a (0xCC :: t) 3
| si_n n t : software_int a (0xCD :: n :: t) n
| si_o t : Z.testbit (r_flags a) 11 = true -> software_int a (0xCE :: t) 4.

(** The operand [t] can be read: a register, or memory inside the map that, for a word or dword, does not begin on the last byte of a
    4 KiB block. *)
Definition operand_read (p : pfx) (a : arch) (word : bool) (t : list Z) : Prop :=
  mod_field t = 3 \/ exists rg x rest, real_address p a t = Some (rg, x, rest) /\ x < map_size /\ (word = true -> x mod 4096 <> 4095).

(** [refused p a bs c]: in state [a], the instruction [bs] behind the prefixes [p] is refused with error code [c]. *)
Inductive refused (p : pfx) (a : arch) : list Z -> Z -> Prop :=
(** HLT; memory that was never written *)
| rf_halt t : refused p a (0xF4 :: t) E_HALT
| rf_unset t : refused p a (0xF1 :: t) E_BREAK
(** a prefix of a kind already seen; opcodes that do not exist here; encodings that are invalid or not implemented *)
| rf_again b t : prefix_byte b -> add_prefix p b = None -> refused p a (b :: t) E_UNDEF
| rf_opcode bs : opcode_read bs -> undefined_opcode bs -> refused p a bs E_UNDEF
| rf_invalid bs : invalid_form bs = true -> refused p a bs E_UNDEF
| rf_unsupported bs : unsupported_form p bs = true -> refused p a bs E_UNDEF
| rf_group3 op t : op = 0xF6 \/ op = 0xF7 -> reg_field t = 1 -> operand_read p a (op =? 0xF7) t -> refused p a (op :: t) E_UNDEF
(** with prefix 66: PUSHA, POPA, PUSHF, POPF, nested ENTER, IMUL with two or three operands *)
| rf_stack op t : p_os p = true -> In op [0x60; 0x61; 0x9C; 0x9D] -> refused p a (op :: t) E_UNDEF
| rf_enter s0 s1 level t : p_os p = true -> 2 <= level mod 32 -> refused p a (0xC8 :: s0 :: s1 :: level :: t) E_UNDEF
| rf_imul bs : imul_wide p bs = true -> refused p a bs E_BUG
(** an interrupt whose vector is 0:0 *)
| rf_vector bs n : software_int a bs n -> mem 16 a (4 * n) = 0 -> mem 16 a (4 * n + 2) = 0 -> refused p a bs E_BADMEM
(** a word or dword operand that begins on the last byte of a 4 KiB block *)
| rf_boundary bs t rg x rest : has_modrm bs = Some (true, t) -> real_address p a t = Some (rg, x, rest) -> x mod 4096 = 4095 ->
    invalid_form bs = false -> unsupported_form p bs = false -> imul_wide p bs = false -> far_indirect bs = false -> sreg_exists bs ->
    refused p a bs E_BADMEM.
