(** Specification vocabulary: comparing two runs of the emulator. *)
From Verif Require Import Base Spec.

(** Everything but the decoder's scratch variables and the instruction counter. *)
Definition same_machine (s1 s2 : st) : Prop := ar s2 = ar s1 /\ dbg s2 = dbg s1 /\ lastnull s2 = lastnull s1.
(** The same, also ignoring whether the last instruction was 00 00. *)
Definition same_visible (s1 s2 : st) : Prop := ar s2 = ar s1 /\ dbg s2 = dbg s1.
(** The machine with another CPU type. *)
Definition a_cpu (v : Z) (a : arch) : arch :=
  mkArch (gprs a) (r_ss a) (r_ds a) (r_es a) (r_fs a) (r_gs a) (r_cs a) (r_ip a) (r_flags a) v (mtab a) (hle a) (hmem a) (iolog a).
Definition same_but_cpu (v : Z) (s1 s2 : st) : Prop := ar s2 = a_cpu v (ar s1) /\ dbg s2 = dbg s1 /\ lastnull s2 = lastnull s1.
(** Two outcomes of the same kind (same value, same error code, same undefined behaviour), with related states. *)
Definition agree {X} (R : st -> st -> Prop) (o1 o2 : out X) : Prop :=
  match o1, o2 with
  | Ok x s1, Ok y s2 => x = y /\ R s1 s2
  | Err c s1, Err d s2 => c = d /\ R s1 s2
  | UB r, UB r' => r = r'
  | Fuel, Fuel => True
  | _, _ => False
  end.
(** Room for n more instructions before the 32-bit counter overflows. *)
Definition room (n : Z) (s : st) : Prop := icount s <= 2147483647 - n.
