(** Specification: decimal adjustment, from the x86 manuals.  The adjustments are functions of
    AL, AH and FLAGS; ZF, SF, PF describe the resulting AL (undefined in the manual for AAA
    and AAS, which the emulator sets in the same way). *)
From Verif Require Import Base Spec SpecOps SpecOps2.

Definition AL : Z := 0.
Definition AH : Z := 4.
Definition with_al (v : Z) (a : arch) : arch := with_reg 8 AL v a.
Definition with_ah (v : Z) (a : arch) : arch := with_reg 8 AH v a.
(** Does the low (high) digit need a correction? *)
Definition adj_lo (al f : Z) : bool := (9 <? al mod 16) || flag AF f.
Definition adj_hi (al f : Z) : bool := (0x99 <? al) || flag CF f.
Definition daa_value (al f : Z) : Z :=
  low 8 (al + (if adj_lo al f then 6 else 0) + (if adj_hi al f then 0x60 else 0)).
Definition das_value (al f : Z) : Z :=
  low 8 (al - (if adj_lo al f then 6 else 0) - (if adj_hi al f then 0x60 else 0)).
(** [c] is CF after the adjustment; [g] selects DAA or DAS. *)
Definition daa (a : arch) : arch :=
  let al := reg 8 AL a in let f := r_flags a in let v := daa_value al f in
  a_flags (put CF (adj_hi al f) (put AF (adj_lo al f) (put_szp 8 v f))) (with_al v a).
Definition das (a : arch) : arch :=
  let al := reg 8 AL a in let f := r_flags a in let v := das_value al f in
  a_flags (put CF (adj_hi al f || (adj_lo al f && (al <? 6))) (put AF (adj_lo al f) (put_szp 8 v f)))
          (with_al v a).
Definition aaa (a : arch) : arch :=
  let al := reg 8 AL a in let f := r_flags a in let k := adj_lo al f in
  let v := (al + (if k then 6 else 0)) mod 16 in
  a_flags (put CF k (put AF k (put_szp 8 v f)))
          (with_ah (low 8 (reg 8 AH a + b2z k)) (with_al v a)).
Definition aas (a : arch) : arch :=
  let al := reg 8 AL a in let f := r_flags a in let k := adj_lo al f in
  let v := (al - (if k then 6 else 0)) mod 16 in
  a_flags (put CF k (put AF k (put_szp 8 v f)))
          (with_ah (low 8 (reg 8 AH a - b2z k)) (with_al v a)).
Definition aam (i : Z) (a : arch) : arch :=
  let al := reg 8 AL a in
  a_flags (put_szp 8 (al mod i) (r_flags a)) (with_al (al mod i) (with_ah (al / i) a)).
Definition aad (i : Z) (a : arch) : arch :=
  let v := low 8 (reg 8 AL a + reg 8 AH a * i) in
  a_flags (put CF false (put OF false (put_szp 8 v (r_flags a)))) (with_ah 0 (with_al v a)).
Definition step_bcd (a : arch) (bs : list Z) : option arch :=
  match bs with
  | [0x27] => Some (daa a)
  | [0x2F] => Some (das a)
  | [0x37] => Some (aaa a)
  | [0x3F] => Some (aas a)
  | [0xD4; i] => if i =? 0 then None else Some (aam i a)
  | [0xD5; i] => Some (aad i a)
  | _ => None
  end.

(** ** Packed and unpacked decimal *)
Definition digit (x : Z) : Prop := 0 <= x <= 9.
(** x is the packed-BCD byte for a number 0..99. *)
Definition packed (x : Z) : Prop := 0 <= x /\ digit (x / 16) /\ digit (x mod 16).
Definition decimal (x : Z) : Z := 10 * (x / 16) + x mod 16.
