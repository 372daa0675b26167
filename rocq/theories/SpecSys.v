(** Specification vocabulary: interrupts, faults, host callbacks. *)
From Verif Require Import Base Machine Spec SpecOps SpecOps2.

(** The state pushed for an interrupt: FLAGS, CS, return IP. *)
Definition int_frame (ret : Z) (a : arch) : arch :=
  push16 ret (push16 (r_cs a) (push16 (r_flags a) a)).
(** Entering interrupt [n] with the vector read after the frame is pushed (a divide fault, or
    RME_CallInt): IF and TF cleared. *)
Definition enter_int (n ret : Z) (a : arch) : arch :=
  let a1 := int_frame ret a in
  let '(sg, o) := vector n a1 in
  far sg o (a_flags (put IF_ false (put TF false (r_flags a))) a1).
(** RME_RunOne returns 0 having raised a divide fault: the instruction is counted, the 00 00
    detector is not touched and the return address is the faulting instruction itself. *)
Definition faults (E : env) (s : st) : Prop :=
  exists s', run_one E s = Ok tt s' /\
    same (ar s') (enter_int 0 (r_ip (ar s)) (ar s)) /\
    icount s' = icount s + 1 /\ dbg s' = dbg s /\ lastnull s' = lastnull s.

(** IRET's effect. *)
Definition iret (a : arch) : arch :=
  let a1 := drop 2 a in let a2 := drop 2 a1 in
  a_flags (top16 a2) (far (top16 a1) (top16 a) (drop 2 a2)).

(** The host callbacks act on the architectural state only, as the function [f] of handle,
    interrupt number and state. *)
Definition callbacks (E : env) (f : Z -> Z -> arch -> arch) : Prop :=
  forall h n s, callback E h n s = mkSt (f h n (ar s)) (dc s) (dbg s) (icount s) (lastnull s).
(** What interrupt number [n]'s callback, if installed, does. *)
Definition hle_effect (f : Z -> Z -> arch -> arch) (n : Z) (a : arch) : arch :=
  if hle a n =? 0 then a else f (hle a n) n a.
(** Vector [n] is the HLE entry point B800:n. *)
Definition hle_vector (n : Z) (a : arch) : Prop := vector n a = (47104, n).
