(** Specification: executions of the reference machine (SpecIsa.v) and what ends them (C88). *)
From Verif Require Import Base Cpu Machine Spec SpecSys SpecRun SpecIsa SpecRefuse SpecOutside.
Local Open Scope Z_scope.

(** [follows k a b]: after k steps of the reference machine from [a], the registers, flags and memory bytes are those of [b].  A step is an instruction,
    or the host service whose entry point B800:n has been reached. *)
Inductive follows (inp : list ioev -> Z -> Z -> Z) (svc : Z -> Z -> arch -> arch) : nat -> arch -> arch -> Prop :=
| fl_none a : follows inp svc 0 a a
| fl_step k a pre p i R a1 a2 b : normal_pc a -> prefixes pre = Some p -> code a (pre ++ i) -> isa inp svc p (blen (pre ++ i)) a i R -> R a1 -> same a2 a1 ->
    follows inp svc k a2 b -> follows inp svc (S k) a b
| fl_service k a a2 b : hle_entry_pc a -> same a2 (iret (hle_effect svc (r_ip a) a)) -> follows inp svc k a2 b -> follows inp svc (S k) a b.

(** Why an execution of the emulator does not go on along the reference machine. *)
Inductive leaves_reference (E : env) (s : st) : Prop :=
(** the return address FFFF:FFFF of RME_CallInt *)
| lr_return : magic (ar s) -> leaves_reference E s
(** RME_RunOne refuses the instruction *)
| lr_refused pre p bs c s' : prefixes pre = Some p -> code (ar s) (pre ++ bs) -> refused p (ar s) bs c -> run_one E s = Err c s' -> leaves_reference E s
(** the instruction is an exception *)
| lr_exception pre p bs : prefixes pre = Some p -> code (ar s) (pre ++ bs) -> outside p (blen pre) (ar s) bs -> leaves_reference E s
(** a repeated prefix, the byte F1, or fewer than twelve bytes behind the prefixes before the end of the segment *)
| lr_code : (forall pre p bs, prefixes pre = Some p -> code (ar s) (pre ++ bs) -> opcode_read bs -> blen bs < 12) -> leaves_reference E s
(** the last instruction was 00 00, and rme2 takes the next 00 00 for a breakpoint *)
| lr_zeros : lastnull s = true -> leaves_reference E s.
