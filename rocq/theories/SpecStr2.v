(** Specification: string instructions with the address-size prefix 67, from the x86 manuals.  The
    index registers are ESI and EDI, the count of a repeat prefix is ECX; element k is at offset
    ESI + k*d (EDI + k*d) modulo 2^32.  In real mode an offset must not exceed FFFFh. *)
From Verif Require Import Base Spec SpecOps SpecOps2 SpecStr.

(** (operation, element width) when prefix 67 is present. *)
Definition decode_str67 (p : pfx) (bs : list Z) : option (sop * Z) :=
  if p_as p then decode_str (mkPfx (p_seg p) (p_os p) false (p_rep p)) bs else None.
Definition at32 (x d : Z) (k : nat) : Z := low 32 (x + Z.of_nat k * d).
(** The first n elements are within the segment. *)
Definition within67 (o : sop) (w : Z) (n : nat) (a : arch) : Prop :=
  forall k, (k < n)%nat ->
    (uses_si o = true -> at32 (reg 32 SI a) (stride w (r_flags a)) k < 65536) /\
    (uses_di o = true -> at32 (reg 32 DI a) (stride w (r_flags a)) k < 65536).

Section WithInput.
Context (input : list ioev -> Z -> Z -> Z).
Fixpoint elems67 (o : sop) (w sg si dg di d : Z) (n : nat) (a : arch) : arch :=
  match n with
  | O => a
  | S k => elem input o w (lin sg (at32 si d k)) (lin dg (at32 di d k)) (elems67 o w sg si dg di d k a)
  end.
Definition run_elems67 (p : pfx) (o : sop) (w : Z) (n : nat) (a : arch) : arch :=
  elems67 o w (sreg (data_sreg p) a) (reg 32 SI a) (r_es a) (reg 32 DI a) (stride w (r_flags a)) n a.
Definition advance67 (o : sop) (w : Z) (n : nat) (a0 a : arch) : arch :=
  let d := stride w (r_flags a0) in
  let a1 := if uses_di o then with_reg 32 DI (at32 (reg 32 DI a0) d n) a else a in
  if uses_si o then with_reg 32 SI (at32 (reg 32 SI a0) d n) a1 else a1.
Definition str_once67 (p : pfx) (o : sop) (w : Z) (a : arch) : arch :=
  advance67 o w 1 a (run_elems67 p o w 1 a).
Definition str_rep67 (p : pfx) (o : sop) (w : Z) (n : nat) (a : arch) : arch :=
  advance67 o w n a (with_reg 32 CX (reg 32 CX a - Z.of_nat n) (run_elems67 p o w n a)).
Definition elem_equal67 (p : pfx) (o : sop) (w : Z) (k : nat) (a : arch) : bool :=
  let d := stride w (r_flags a) in
  let x := lin (sreg (data_sreg p) a) (at32 (reg 32 SI a) d k) in
  let y := lin (r_es a) (at32 (reg 32 DI a) d k) in
  (if match o with S_CMPS => true | _ => false end then mem w a x else reg w AX a) =? mem w a y.
(** Which elements a repeated comparison processes: as in SpecStr, with ECX. *)
Definition scan_stops67 (p : pfx) (o : sop) (w : Z) (n : nat) (a : arch) : Prop :=
  (forall k, (S k < n)%nat -> elem_equal67 p o w k a = (p_rep p =? 0xF3)) /\
  (Z.of_nat n = reg 32 CX a \/
   (Z.of_nat n < reg 32 CX a /\ exists k, n = S k /\ elem_equal67 p o w k a <> (p_rep p =? 0xF3))).
End WithInput.

(** What n successive reads of a port deliver, after the port history h: the device may answer
    depending on everything that was done before. *)
Fixpoint port_values (input : list ioev -> Z -> Z -> Z) (w port : Z) (h : list ioev) (n : nat) : list Z :=
  match n with
  | O => []
  | S k => let vs := port_values input w port h k in
           vs ++ [low w (input (h ++ map (IoIn w port) vs) w port)]
  end.
