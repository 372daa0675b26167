(** Specification: string instructions, from the x86 manuals.  Element k (counting from 0) is
    at offset SI + k*d (source) and DI + k*d (destination) modulo 65536, where d is the element
    size in bytes, negated when DF is set. *)
From Verif Require Import Base Spec SpecOps SpecOps2.

Inductive sop : Type := S_MOVS | S_CMPS | S_STOS | S_LODS | S_SCAS | S_INS | S_OUTS.
Definition uses_si (o : sop) : bool :=
  match o with S_MOVS | S_CMPS | S_LODS | S_OUTS => true | _ => false end.
Definition uses_di (o : sop) : bool :=
  match o with S_LODS | S_OUTS => false | _ => true end.
Definition compares (o : sop) : bool := match o with S_CMPS | S_SCAS => true | _ => false end.

(** (operation, element width); 32-bit addressing (67) is not described. *)
Definition decode_str (p : pfx) (bs : list Z) : option (sop * Z) :=
  if p_as p then None else
  match bs with
  | [0x6C] => Some (S_INS, 8)   | [0x6D] => Some (S_INS, osz p)
  | [0x6E] => Some (S_OUTS, 8)  | [0x6F] => Some (S_OUTS, osz p)
  | [0xA4] => Some (S_MOVS, 8)  | [0xA5] => Some (S_MOVS, osz p)
  | [0xA6] => Some (S_CMPS, 8)  | [0xA7] => Some (S_CMPS, osz p)
  | [0xAA] => Some (S_STOS, 8)  | [0xAB] => Some (S_STOS, osz p)
  | [0xAC] => Some (S_LODS, 8)  | [0xAD] => Some (S_LODS, osz p)
  | [0xAE] => Some (S_SCAS, 8)  | [0xAF] => Some (S_SCAS, osz p)
  | _ => None
  end.

(** Distance between elements. *)
Definition stride (w f : Z) : Z := if flag DF f then - (w / 8) else w / 8.
Definition at_k (x d : Z) (k : nat) : Z := low 16 (x + Z.of_nat k * d).

Section WithInput.
(** What a port read would deliver after the given history. *)
Context (input : list ioev -> Z -> Z -> Z).

(** Processing the element whose source is at linear address x and destination at y. *)
Definition elem (o : sop) (w x y : Z) (a : arch) : arch :=
  match o with
  | S_MOVS => with_mem w y (mem w a x) a
  | S_STOS => with_mem w y (reg w AX a) a
  | S_LODS => with_reg w AX (mem w a x) a
  | S_CMPS => a_flags (snd (spec_sub w (mem w a x) (mem w a y) 0 (r_flags a))) a
  | S_SCAS => a_flags (snd (spec_sub w (reg w AX a) (mem w a y) 0 (r_flags a))) a
  | S_INS =>
    let v := low w (input (iolog a) w (reg 16 DX a)) in
    with_mem w y v (a_iolog (iolog a ++ [IoIn w (reg 16 DX a) v]) a)
  | S_OUTS => a_iolog (iolog a ++ [IoOut w (reg 16 DX a) (mem w a x)]) a
  end.
(** The first n elements, one after the other (so that overlapping copies are described). *)
Fixpoint elems (o : sop) (w sg si dg di d : Z) (n : nat) (a : arch) : arch :=
  match n with
  | O => a
  | S k => elem o w (lin sg (at_k si d k)) (lin dg (at_k di d k)) (elems o w sg si dg di d k a)
  end.
(** The elements of an instruction with prefixes p started in state a. *)
Definition run_elems (p : pfx) (o : sop) (w : Z) (n : nat) (a : arch) : arch :=
  elems o w (sreg (data_sreg p) a) (reg 16 SI a) (r_es a) (reg 16 DI a) (stride w (r_flags a)) n a.
(** Index registers after n elements. *)
Definition advance (o : sop) (w : Z) (n : nat) (a0 a : arch) : arch :=
  let d := stride w (r_flags a0) in
  let a1 := if uses_di o then with_reg 16 DI (at_k (reg 16 DI a0) d n) a else a in
  if uses_si o then with_reg 16 SI (at_k (reg 16 SI a0) d n) a1 else a1.
(** Without a repeat prefix: one element. *)
Definition str_once (p : pfx) (o : sop) (w : Z) (a : arch) : arch :=
  advance o w 1 a (run_elems p o w 1 a).
(** With one, when n elements are processed: CX is reduced by n. *)
Definition str_rep (p : pfx) (o : sop) (w : Z) (n : nat) (a : arch) : arch :=
  advance o w n a (with_reg 16 CX (low 16 (reg 16 CX a - Z.of_nat n)) (run_elems p o w n a)).
(** The outcome of comparing element k of CMPS or SCAS. *)
Definition elem_equal (p : pfx) (o : sop) (w : Z) (k : nat) (a : arch) : bool :=
  let d := stride w (r_flags a) in
  let x := lin (sreg (data_sreg p) a) (at_k (reg 16 SI a) d k) in
  let y := lin (r_es a) (at_k (reg 16 DI a) d k) in
  (if match o with S_CMPS => true | _ => false end then mem w a x else reg w AX a) =? mem w a y.
(** How many elements a repeated comparison processes: it stops after the first element whose
    comparison differs from what the prefix asks for (F3: equal, F2: not equal), or after CX. *)
Definition goes_on (p : pfx) (o : sop) (w : Z) (k : nat) (a : arch) : bool :=
  Bool.eqb (elem_equal p o w k a) (p_rep p =? 0xF3).
Definition scan_stops (p : pfx) (o : sop) (w : Z) (n : nat) (a : arch) : Prop :=
  (forall k, (S k < n)%nat -> goes_on p o w k a = true) /\
  (Z.of_nat n = reg 16 CX a \/ (Z.of_nat n < reg 16 CX a /\ exists k, n = S k /\ goes_on p o w k a = false)).
End WithInput.
