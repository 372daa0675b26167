(** Specification: what the emulator says when it stops on an instruction (C85). *)
From Coq Require Import String Ascii.
From Verif Require Import Base Cpu Spec SpecRun SpecStop SpecEa SpecUb Dump SpecDump SpecTrace.
Local Open Scope string_scope.
Local Open Scope Z_scope.

(** A software interrupt and its number: INT 3, INT n, INTO with OF set. *)
Inductive int_number (a : arch) : list Z -> Z -> Prop :=
| in_3 t : int_number a (0xCC :: t) 3
| in_n n t : int_number a (0xCD :: n :: t) n
| in_o t : Z.testbit (r_flags a) 11 = true -> int_number a (0xCE :: t) 4.

(** [message p a bs c m]: the instruction [bs] behind the prefixes [p] in state [a] is refused with RME_RunOne's error code [c], and
    the text [m] says why. *)
Inductive message (p : pfx) (a : arch) : list Z -> Z -> string -> Prop :=
(** memory that was never written *)
| msg_unset t cs ip : hex_text 4 (r_cs a) cs -> hex_text 4 (r_ip a) ip ->
    message p a (0xF1 :: t) E_BREAK (joined [" Executing unset memory (opcode 0xF1) "; cs; ":"; ip])
(** opcodes that are not implemented *)
| msg_opcode op t h : In op undefined1 -> hex_text 2 op h -> message p a (op :: t) E_UNDEF (joined [" Unkown Opcode 0x"; h])
| msg_opcode2 op t h : ~ In op defined0F -> hex_text 2 op h -> message p a (0x0F :: op :: t) E_UNDEF (joined [" Unkown Opcode 0x0F 0x"; h])
(** members of the groups FE and FF *)
| msg_group4 t n : 2 <= reg_field t -> dec_text 1 (reg_field t) n ->
    message p a (0xFE :: t) E_UNDEF (joined [" - Unary M /"; n; " unimplemented"; end_of_line])
| msg_group5 t n : p_os p = false -> reg_field t = 7 -> dec_text 1 (reg_field t) n ->
    message p a (0xFF :: t) E_UNDEF (joined [" - Unary MX (16) /"; n; " unimplemented"; end_of_line])
| msg_group5_wide t n : p_os p = true -> In (reg_field t) [2; 3; 4; 5; 7] -> dec_text 1 (reg_field t) n ->
    message p a (0xFF :: t) E_UNDEF (joined [" - Unary MX (32) /"; n; " unimplemented"; end_of_line])
(** far CALL and JMP through a register *)
| msg_far t : p_os p = false -> In (reg_field t) [3; 5] -> mod_field t = 3 -> message p a (0xFF :: t) E_UNDEF " - Reading a far pointer w/ mod=3"
(** IMUL with two or three operands, and nested ENTER, with prefix 66 *)
| msg_imul bs : imul_wide p bs = true -> message p a bs E_BUG "IMUL (MIX) OvrSize Unimpl"
| msg_enter s0 s1 level t : p_os p = true -> 2 <= level mod 32 ->
    message p a (0xC8 :: s0 :: s1 :: level :: t) E_UNDEF "- ENTER Operand Override unimplimented"
(** an interrupt whose vector is 0:0 *)
| msg_vector bs n : int_number a bs n -> mem 16 a (4 * n) = 0 -> mem 16 a (4 * n + 2) = 0 ->
    message p a bs E_BADMEM " Caught attempt to execute IVT pointing to 0000:0000"
(** a word or dword operand that starts on the last byte of a 4 KiB block *)
| msg_boundary bs t rg x rest cs ip h : has_modrm bs = Some (true, t) -> real_address p a t = Some (rg, x, rest) -> x mod 4096 = 4095 ->
    invalid_form bs = false -> unsupported_form p bs = false -> imul_wide p bs = false -> far_indirect bs = false -> sreg_exists bs ->
    hex_value (r_cs a) cs -> hex_value (r_ip a) ip -> hex_value x h ->
    message p a bs E_BADMEM (joined [cs; ":"; ip; " Word read across boundary (0x"; h; ")"]).

(** [bs] is a whole instruction as far as its operand and the immediates that matter here go. *)
Definition whole (p : pfx) (a : arch) (bs : list Z) : Prop :=
  match bs with
  | [] => False
  | b :: t =>
    b = 0xF1 \/
    (prefix_byte b /\ add_prefix p b = None) \/                                                (* a prefix of a kind already seen *)
    (opcode_read bs /\
     match has_modrm bs with Some (_, t') => real_rm p a t' <> None | None => True end /\
     (b = 0xC8 -> (3 <= List.length t)%nat) /\ (b = 0xCD -> t <> []))
  end.

(** What precedes the message: from DebugLevel 1 on, the number and the place of the instruction. *)
Definition begins_line (s : st) (t : string) : Prop :=
  (dbg s < 1 /\ t = "") \/
  (1 <= dbg s /\ exists num lin cs ip, t = line_start num lin cs ip /\ names_place (icount s + 1) (r_cs (ar s)) (r_ip (ar s)) num lin cs ip).

(** ** RME_CallInt with a number that is not 0..255 *)
Definition signed_text (n : Z) (t : string) : Prop :=
  (0 <= n /\ dec_text 1 n t) \/ (n < 0 /\ exists u, t = joined ["-"; u] /\ dec_text 1 (- n) u).
(** From DebugLevel 1 on, the number as 32 bits in hexadecimal. *)
Definition announces_call (s : st) (n : Z) (t : string) : Prop :=
  (dbg s < 1 /\ t = "") \/ (1 <= dbg s /\ exists h, t = joined ["RM_Int: Calling Int 0x"; h; end_of_line] /\ hex_value (low 32 n) h).
Definition bad_number (s : st) (n : Z) (t : string) : Prop :=
  exists a d, t = joined [a; "WARNING: "; d; " is not a valid interrupt number"] /\ announces_call s n a /\ signed_text n d.
