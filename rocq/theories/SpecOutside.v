(** Specification: the instructions that the reference machine of SpecIsa.v leaves out although RME_RunOne does not refuse them (C87).  They
    are the known departures from the manuals (C14, C19, C24, C25, C27, C28, C32, C44, C47, C48, ...) and encodings the manuals do not define. *)
From Verif Require Import Base Spec SpecOps SpecOps2 SpecMul SpecDbl SpecStr SpecStr2 SpecStop.
Local Open Scope Z_scope.

(** [outside p k a bs]: the bytes [bs] behind the [k] prefix bytes [p] begin with such an instruction. *)
Inductive outside (p : pfx) (k : Z) (a : arch) : list Z -> Prop :=
(** *** Addresses *)
(** the sum of base, index and displacement wraps around; [BP+SI] and [BP+DI] where SS and DS differ; 32-bit forms with SIB byte and displacement, ... *)
| out_address bs wide t : has_modrm bs = Some (wide, t) -> hd 0 bs <> 0x8D -> ~ ea_supported p a t -> outside p k a bs
| out_lea t : ~ lea_supported p a t -> outside p k a (0x8D :: t)
(** a 32-bit offset beyond FFFFh; LEA has no such limit *)
| out_beyond bs wide b u x r : has_modrm bs = Some (wide, b :: u) -> hd 0 bs <> 0x8D -> p_as p = true -> b / 64 <> 3 ->
    snd (ea32 (b / 64) (b mod 8) a u) = Some (x, r) -> 65536 <= low 32 x -> outside p k a bs
| out_moffs op t o r : p_as p = true -> 0xA0 <= op <= 0xA3 -> dword t = Some (o, r) -> 65536 <= o -> outside p k a (op :: t)
| out_xlat t : 65536 <= low (asz p) (reg (asz p) BX a + reg 8 AX a) -> outside p k a (0xD7 :: t)
(** far CALL or JMP through a pointer that begins on the last byte of a 4 KiB block *)
| out_far t rg sg o rest : In (reg_field t) [3; 5] -> parse_rm p a t = Some (rg, RMem sg o, rest) -> lin sg o mod 4096 = 4095 -> outside p k a (0xFF :: t)
(** *** Arithmetic *)
(** SBB of FFFFFFFFh with the carry set *)
| out_sbb i j dst : decode_alu p a i = Some (3, 32, dst, 0xFFFFFFFF) -> flag CF (r_flags a) = true -> outside p k a (i ++ j)
(** rotates by a multiple of the width, SHL by the width *)
| out_shift i j op w r cnt : decode_shift p a i = Some (op, w, r, cnt) -> ~ shift_count_ok op w cnt -> outside p k a (i ++ j)
(** SHLD, SHRD with registers other than the first four, with equal operands, by more than the width or 31 *)
| out_double i j left w r src n : decode_dbl p a i = Some (left, w, r, src, n) -> ~ dbl_supported w r src n -> outside p k a (i ++ j)
(** IMUL with two or three operands: negative factors, products of more than 16 bits *)
| out_imul2 i j dst x y : decode_imul2 p a i = Some (dst, x, y) -> 32768 <= x \/ 32768 <= y \/ 65536 <= x * y -> outside p k a (i ++ j)
(** IDIV: doublewords whose quotient fits; the most negative number by -1 *)
| out_idiv i j w r : decode_muldiv p a i = Some (7, w, r) ->
    (w = 32 /\ idiv_effect w (rd_rm w r a) a <> None) \/ (w <> 8 /\ most_negative_by_minus_one w (rd_rm w r a) a) -> outside p k a (i ++ j)
(** with prefix 66: CBW, BSF *)
| out_cbw t : p_os p = true -> outside p k a (0x98 :: t)
| out_bsf t : p_os p = true -> outside p k a (0x0F :: 0xBC :: t)
(** *** Stack *)
(** with prefix 66: PUSH and POP of segment registers and ESP, PUSH imm32, PUSH r/m32, LEAVE, ENTER *)
| out_stack1 op t : p_os p = true -> In op [0x06; 0x0E; 0x16; 0x1E; 0x07; 0x17; 0x1F; 0x54; 0x5C; 0x68; 0xC9; 0xC8] -> outside p k a (op :: t)
| out_stack2 op t : p_os p = true -> In op [0xA0; 0xA1; 0xA8; 0xA9] -> outside p k a (0x0F :: op :: t)
| out_push32 t : p_os p = true -> reg_field t = 6 -> outside p k a (0xFF :: t)
(** ENTER with nesting level 1; POPF for an unknown processor *)
| out_enter s0 s1 level t : level mod 32 = 1 -> outside p k a (0xC8 :: s0 :: s1 :: level :: t)
| out_popf t : ~ 0 <= cpu a <= 2 -> outside p k a (0x9D :: t)
(** *** Control transfer *)
(** with prefix 66: jumps, calls and returns with a 32-bit target *)
| out_jump1 op t : p_os p = true -> In op [0xE8; 0xE9; 0xEA; 0x9A; 0xC2; 0xC3; 0xCA; 0xCB; 0xCF] -> outside p k a (op :: t)
| out_jump2 op t : p_os p = true -> 0x80 <= op <= 0x8F -> outside p k a (0x0F :: op :: t)
(** LOOP on ECX; JCXZ if one of the prefixes 66 and 67 is present *)
| out_loop op t : p_as p = true -> 0xE0 <= op <= 0xE2 -> outside p k a (op :: t)
| out_jcxz t : p_os p <> p_as p -> outside p k a (0xE3 :: t)
(** CALL through an operand that the pushed return address changes *)
| out_call u v r : parse_rm p a u = Some (2, r, []) -> rd_rm 16 r (push16 (low 16 (r_ip a + k + blen (0xFF :: u))) a) <> rd_rm 16 r a ->
    outside p k a (0xFF :: u ++ v)
(** *** Encodings that do not exist *)
(** MOV from and to segment registers 6 and 7, MOV CS *)
| out_sreg op t : In op [0x8C; 0x8E] -> 6 <= reg_field t \/ (op = 0x8E /\ reg_field t = 1) -> outside p k a (op :: t)
(** 8F, C6, C7 with another register field than 0 *)
| out_group op t : In op [0x8F; 0xC6; 0xC7] -> reg_field t <> 0 -> outside p k a (op :: t)
(** *** String instructions with 32-bit addressing that leave the segment or have a count above FFFFh *)
| out_str o w op t : decode_str67 p [op] = Some (o, w) ->
    (~ within67 o w (if p_rep p =? 0 then 1 else Z.to_nat (reg 32 CX a)) a \/ (p_rep p <> 0 /\ 65536 <= reg 32 CX a)) -> outside p k a (op :: t).
