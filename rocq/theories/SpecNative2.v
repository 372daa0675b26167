(** Specification vocabulary: DOS executables, change reports, hex templates. *)
From Verif Require Import Base Spec.

(** ** DOS executables *)
Section Exe.
Context (f : Z -> Z).
(** The 16-bit header field at file offset i. *)
Definition hdr (i : Z) : Z := f i + 256 * f (i + 1).
Definition exe_last := hdr 2.       (* bytes in the last 512-byte page, 0 = full *)
Definition exe_pages := hdr 4.
Definition exe_nrel := hdr 6.
Definition exe_head := hdr 8.       (* header size in paragraphs *)
Definition exe_ss := hdr 14.
Definition exe_sp := hdr 16.
Definition exe_ip := hdr 20.
Definition exe_cs := hdr 22.
Definition exe_rel := hdr 24.       (* offset of the relocation table *)
Definition exe_start : Z := 16 * exe_head.
Definition exe_size : Z := 512 * exe_pages - (if exe_last =? 0 then 0 else 512 - exe_last) - exe_start.
(** Position in the load module that relocation k names. *)
Definition exe_reloc (k : Z) : Z := 16 * hdr (exe_rel + 4 * k + 2) + hdr (exe_rel + 4 * k).
End Exe.
Definition bytes (f : Z -> Z) : Prop := forall i, 0 <= f i < 256.
Record exe_ok (len : Z) (f : Z -> Z) : Prop := mkExe {
  eo_bytes : bytes f;
  eo_head : 28 <= len;
  eo_sig : f 0 = 0x4D /\ f 1 = 0x5A;
  eo_last : exe_last f <= 512;
  eo_size : 0 <= exe_size f;
  eo_body : exe_start f + exe_size f <= len;
  eo_table : exe_rel f + 4 * exe_nrel f <= len;
  eo_relocs : forall k, 0 <= k < exe_nrel f -> exe_reloc f k + 2 <= exe_size f
}.
(** Number of k < n with P k. *)
Fixpoint count (n : nat) (P : Z -> bool) : Z := match n with O => 0 | S n' => count n' P + (if P (Z.of_nat n') then 1 else 0) end.

(** Byte k of the load module after relocation for load segment 100h: each relocation adds 1 to the high byte of its word. *)
Definition exe_byte (f : Z -> Z) (k : Z) : Z := (f (exe_start f + k) + count (Z.to_nat (exe_nrel f)) (fun j => exe_reloc f j + 1 =? k)) mod 256.

(** ** Change reports: pairs of bytes at even indices *)
Definition changed (prev cur : Z -> Z) (i : Z) : Prop := prev i <> cur i \/ prev (i + 1) <> cur (i + 1).
Definition reported (l : list (Z * Z * Z)) (i : Z) : Prop := exists o n, In (i, o, n) l.
Definition word_index (i : Z) : Prop := 0 <= i < 1114112 /\ Z.even i = true.

(** ** Hex templates *)
Definition blank_char (c : Z) : Prop := c = 32 \/ 9 <= c <= 13.
Definition hex_digit (c v : Z) : Prop := (48 <= c <= 57 /\ v = c - 48) \/ (65 <= c <= 70 /\ v = c - 65 + 10) \/ (97 <= c <= 102 /\ v = c - 97 + 10).
(** One item: XX (any byte) or two hex digits. *)
Inductive item : option Z -> list Z -> Prop :=
| item_any : item None [88; 88]
| item_byte a b x y : hex_digit a x -> hex_digit b y -> item (Some (16 * x + y)) [a; b].
(** Items separated by at least [gap] blanks (none is needed before the first), then blanks. *)
Inductive items (gap : nat) : list (option Z) -> list Z -> Prop :=
| items_nil t : Forall blank_char t -> items gap [] t
| items_cons w o s l r : Forall blank_char w -> item o s -> items_more gap l r -> items gap (o :: l) (w ++ s ++ r)
with items_more (gap : nat) : list (option Z) -> list Z -> Prop :=
| more_nil t : Forall blank_char t -> items_more gap [] t
| more_cons w o s l r : Forall blank_char w -> (gap <= length w)%nat -> item o s -> items_more gap l r -> items_more gap (o :: l) (w ++ s ++ r).
Scheme items_ind2 := Induction for items Sort Prop with items_more_ind2 := Induction for items_more Sort Prop.
(** A line of cmpmemhex's template: [;NN: items] or [;NNh: items] and a newline. *)
Inductive hexline : list (option Z) -> list Z -> Prop :=
| hexline_intro l d1 d2 v1 v2 h t : hex_digit d1 v1 -> hex_digit d2 v2 -> h = [] \/ h = [104] ->
    items 1 l (t ++ [10]) -> ~ In 10 t -> (length l <= 16)%nat -> (5 + length h + length t <= 510)%nat ->
    hexline l (59 :: d1 :: d2 :: h ++ 58 :: t ++ [10]).
(** The rest of the file: nothing, or something that does not begin with ';' or begins with "; ". *)
Definition not_template (t : list Z) : Prop := match t with [] => True | c :: r => c <> 59 \/ hd 0 r = 32 end.
(** Template and dump differ at a position both have. *)
Definition differ (l : list (option Z)) (have : list Z) : Prop := exists i b h, nth_error l i = Some (Some b) /\ nth_error have i = Some h /\ b <> h.
