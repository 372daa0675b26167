(** Specification vocabulary: why the emulator stops. *)
From Verif Require Import Base Spec SpecRun SpecTop.

(** Host callbacks that leave the emulator's private flag alone and put only bytes into memory. *)
Definition byte_memory (s : st) : Prop := forall x b, hmem (ar s) x = Some b -> 0 <= b < 256.
Definition quiet_host (E : env) : Prop := forall h n s, lastnull (callback E h n s) = lastnull s /\ (byte_memory s -> byte_memory (callback E h n s)).
(** The byte at CS:IP+i (IP wraps). *)
Definition ipbyte (a : arch) (i : Z) : Z := byte a (lin (r_cs a) ((r_ip a + i) mod 65536)).
(** At CS:IP there are prefixes and then an opcode byte that P holds of. *)
Definition opcode_at (a : arch) (P : Z -> Prop) : Prop := exists k, 0 <= k /\ (forall i, 0 <= i < k -> prefix_byte (ipbyte a i)) /\ P (ipbyte a k).
(** The instruction at CS:IP of s is 00 00 in the memory of s'. *)
Definition zeros (s s' : st) : Prop := byte (ar s') (lin (r_cs (ar s)) (r_ip (ar s))) = 0 /\ byte (ar s') (lin (r_cs (ar s)) ((r_ip (ar s) + 1) mod 65536)) = 0.
(** F6, F7 (group 3) and AAM. *)
Definition divides (b : Z) : Prop := b = 0xF6 \/ b = 0xF7 \/ b = 0xD4.
(** Opcode bytes that no handler is registered for, or whose handler refuses some forms: group members
    that do not exist, register operands where memory is needed, 66 where it is not implemented, repeated
    prefixes; 0F stands for the whole 0F map. *)
Definition may_be_undefined (b : Z) : Prop := In b
  [0x0F; 0x26; 0x2E; 0x36; 0x3E; 0x60; 0x61; 0x62; 0x63; 0x64; 0x65; 0x66; 0x67; 0x82; 0x8C; 0x8D; 0x8E; 0x8F; 0x9B; 0x9C; 0x9D;
   0xC4; 0xC5; 0xC8; 0xD6; 0xD8; 0xD9; 0xDA; 0xDB; 0xDC; 0xDD; 0xDE; 0xDF; 0xF0; 0xF2; 0xF3; 0xF6; 0xF7; 0xFE; 0xFF].
(** IMUL with two or three operands, prefixed with 66. *)
Definition wide_imul (a : arch) : Prop := exists k, 0 <= k /\ (forall i, 0 <= i < k -> prefix_byte (ipbyte a i)) /\ (exists i, 0 <= i < k /\ ipbyte a i = 0x66) /\
  (ipbyte a k = 0x69 \/ ipbyte a k = 0x6B \/ (ipbyte a k = 0x0F /\ ipbyte a (k + 1) = 0xAF)).
(** Every way in which RME_RunOne stops; [lastnull s]: the instruction before was 00 00. *)
Inductive reason (s s' : st) : Z -> Prop :=
| r_return : magic (ar s) -> reason s s' E_FCNRET
| r_halt : opcode_at (ar s) (fun b => b = 0xF4) -> reason s s' E_HALT
| r_break : opcode_at (ar s) (fun b => b = 0xF1) -> reason s s' E_BREAK
| r_zeros : lastnull s = true -> zeros s s' -> reason s s' E_BREAK
| r_badmem : reason s s' E_BADMEM
| r_undef : opcode_at (ar s) may_be_undefined -> reason s s' E_UNDEF
| r_bug : wide_imul (ar s) -> reason s s' E_BUG.
