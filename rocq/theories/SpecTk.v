(** Specification vocabulary for the test kernel's support library. *)
From Verif Require Import Base.

Definition u64 (x : Z) : Prop := 0 <= x < 2 ^ 64.
Definition u32 (x : Z) : Prop := 0 <= x < 2 ^ 32.
(** Address x lies in the n bytes from p. *)
Definition within (p n x : Z) : Prop := p <= x < p + n.
(** [m'] has [f i] at p+i for every i < n and is otherwise m. *)
Definition filled (m m' : Z -> Z) (p n : Z) (f : Z -> Z) : Prop :=
  (forall i, 0 <= i < n -> m' (p + i) = f i) /\ (forall x, ~ within p n x -> m' x = m x).
Definition disjoint_blocks (b1 b2 : Z * Z) : Prop :=
  fst b1 + snd b1 <= fst b2 \/ fst b2 + snd b2 <= fst b1.
(** Positional notation: the digits (most significant first), as characters. *)
Definition digit_char (d : Z) : Z := if d <? 10 then 48 + d else 55 + d.
Fixpoint value_of (base : Z) (ds : list Z) : Z :=
  match ds with [] => 0 | d :: t => d * base ^ Z.of_nat (length t) + value_of base t end.
Definition numeral (base val : Z) (ds : list Z) : Prop :=
  value_of base ds = val /\ (forall d, In d ds -> 0 <= d < base) /\ ds <> [] /\ (hd 0 ds = 0 -> ds = [0]).
(** The text of a number padded on the left to at least [len] characters. *)
Definition number_text (base val len pad : Z) (s : list Z) : Prop :=
  exists ds, numeral base val ds /\ s = repeat pad (Z.to_nat (len - Z.of_nat (length ds))) ++ map digit_char ds.

(** printf formats as sequences of items. *)
Inductive item : Type :=
| Lit (c : Z)                          (* any character but % *)
| Num (base : Z) (zero : bool) (width : Z)   (* %o %i %x, flag 0, width *)
| Ptr                                  (* %p *)
| Str.                                 (* %s *)
(** Decimal digits of a width, none for 0. *)
Definition width_text (w : Z) (s : list Z) : Prop :=
  (w = 0 /\ s = []) \/ (0 < w /\ exists ds, numeral 10 w ds /\ s = map digit_char ds).
Inductive writes : list item -> list Z -> Prop :=
| W_nil : writes [] []
| W_lit c l s : c <> 37 -> writes l s -> writes (Lit c :: l) (c :: s)
| W_num base (z : bool) w ws c l s : (base = 8 /\ c = 111 \/ base = 10 /\ c = 105 \/ base = 16 /\ c = 120) ->
    width_text w ws -> writes l s ->
    writes (Num base z w :: l) (37 :: (if z then [48] else []) ++ ws ++ c :: s)
| W_ptr l s : writes l s -> writes (Ptr :: l) (37 :: 112 :: s)
| W_str l s : writes l s -> writes (Str :: l) (37 :: 115 :: s).
(** What printing them with these arguments should output. *)
Inductive prints (str : Z -> list Z) : list item -> list Z -> list Z -> Prop :=
| P_nil (args : list Z) : prints str [] args []
| P_lit c l args o : prints str l args o -> prints str (Lit c :: l) args (c :: o)
| P_num base (z : bool) w v t l args o : number_text base v w (if z then 48 else 32) t -> prints str l args o ->
    prints str (Num base z w :: l) (v :: args) (t ++ o)
| P_ptr v t l args o : number_text 16 v 8 48 t -> prints str l args o ->
    prints str (Ptr :: l) (v :: args) ([42; 48; 120] ++ t ++ o)
| P_str v l args o : v <> 0 -> prints str l args o -> prints str (Str :: l) (v :: args) (str v ++ o)
| P_null l args o : prints str l args o -> prints str (Str :: l) (0 :: args) ([40; 110; 117; 108; 108; 41] ++ o).
(** The arguments are 32-bit words and the widths fit printf's buffer. *)
Definition fits (l : list item) (args : list Z) : Prop :=
  (forall v, In v args -> u32 v) /\ (forall b z w, In (Num b z w) l -> 0 <= w <= 64).
