(** Specification vocabulary: command lines, decimal numbers, the window, register reports. *)
From Coq Require Import String Ascii.
From Verif Require Import Base Spec.

(** ** Command lines *)
(** What a command line can ask for. *)
Inductive choice : Type := Disk (n : string) | Image (n : string) | DumpTo (n : string) | Program (n : string) | NoWindow | CpuIs (n : string) | LevelIs (t : string).
Definition dashed (n : string) : Prop := exists r, n = String "-" r.
(** An option letter followed by anything: "-b", "-bin", ... *)
Definition letter (c : ascii) (o : string) : Prop := exists r, o = String "-" (String c r).
(** [writes f cs l f']: the arguments l ask for the choices cs, in this order; f: a "--" came before (every argument is
    a disk name), f': the same after l. *)
Inductive writes : bool -> list choice -> list string -> bool -> Prop :=
| w_nil f : writes f [] [] f
| w_disk f n cs l f' : f = true \/ ~ dashed n -> writes f cs l f' -> writes f (Disk n :: cs) (n :: l) f'
| w_image o n cs l f' : letter "b" o -> writes false cs l f' -> writes false (Image n :: cs) (o :: n :: l) f'
| w_dump o n cs l f' : letter "O" o -> writes false cs l f' -> writes false (DumpTo n :: cs) (o :: n :: l) f'
| w_program o n cs l f' : letter "d" o -> writes false cs l f' -> writes false (Program n :: cs) (o :: n :: l) f'
| w_nogui cs l f' : writes false cs l f' -> writes false (NoWindow :: cs) ("--nogui"%string :: l) f'
| w_cpu n cs l f' : writes false cs l f' -> writes false (CpuIs n :: cs) ("--cpu"%string :: n :: l) f'
| w_level t cs l f' : writes false cs l f' -> writes false (LevelIs t :: cs) ("--debug-level"%string :: t :: l) f'
| w_stop cs l f' : writes true cs l f' -> writes false cs ("--"%string :: l) f'.
(** The values given for one kind of choice, in order. *)
Definition disks (cs : list choice) : list string := flat_map (fun c => match c with Disk n => [n] | _ => [] end) cs.
Definition images (cs : list choice) : list string := flat_map (fun c => match c with Image n => [n] | _ => [] end) cs.
Definition dumps (cs : list choice) : list string := flat_map (fun c => match c with DumpTo n => [n] | _ => [] end) cs.
Definition programs (cs : list choice) : list string := flat_map (fun c => match c with Program n => [n] | _ => [] end) cs.
Definition cpus (cs : list choice) : list string := flat_map (fun c => match c with CpuIs n => [n] | _ => [] end) cs.
Definition levels (cs : list choice) : list string := flat_map (fun c => match c with LevelIs t => [t] | _ => [] end) cs.
(** The last of them, if any. *)
Definition latest (l : list string) : option string := last (map Some l) None.
(** An argument that asks for help; one that is no option. *)
Definition help (o : string) : Prop := letter "h" o \/ o = "--help"%string.
Definition no_option (letters : list ascii) (longs : list string) (o : string) : Prop :=
  o = "-"%string \/ (exists c, letter c o /\ c <> "-"%char /\ ~ In c letters) \/
  (exists c r, o = String "-" (String "-" (String c r)) /\ ~ In o longs).
Definition nt_letters : list ascii := ["h"; "b"; "O"; "d"]%char.
Definition nt_longs : list string := ["--help"; "--nogui"; "--cpu"; "--debug-level"]%string.
Definition mini_letters : list ascii := ["h"; "O"]%char.
Definition mini_longs : list string := ["--help"; "--cpu"; "--debug-level"]%string.
Definition mini_choice (c : choice) : Prop := match c with Disk _ | DumpTo _ | CpuIs _ | LevelIs _ => True | _ => False end.

(** ** Decimal numbers at the start of a text *)
Fixpoint text (l : list Z) : string := match l with [] => EmptyString | c :: r => String (ascii_of_nat (Z.to_nat c)) (text r) end.
Fixpoint decimal (ds : list Z) : Z := match ds with [] => 0 | d :: r => d * 10 ^ Z.of_nat (length r) + decimal r end.
Definition is_digit (c : Z) : Prop := 48 <= c <= 57.
Definition is_blank (c : Z) : Prop := c = 32 \/ 9 <= c <= 13.
(** Blanks, a sign or none, digits, anything that does not begin with a digit. *)
Inductive reads_as : string -> Z -> Prop :=
| ra_plus w sg ds r : Forall is_blank w -> sg = [] \/ sg = [43] -> ds <> [] -> Forall is_digit ds -> (forall c t, r = c :: t -> ~ is_digit c) -> Forall (fun c => 0 <= c < 256) r ->
    reads_as (text (w ++ sg ++ ds ++ r)) (decimal (map (fun c => c - 48) ds))
| ra_minus w ds r : Forall is_blank w -> ds <> [] -> Forall is_digit ds -> (forall c t, r = c :: t -> ~ is_digit c) -> Forall (fun c => 0 <= c < 256) r ->
    reads_as (text (w ++ [45] ++ ds ++ r)) (- decimal (map (fun c => c - 48) ds)).

(** ** The window *)
(** Pixel (x, y) of the picture of a text screen: [ch], [att] give the character and attribute of a cell (column, row), [glyph c j]
    the 8 pixels of line j of character c, [colour] the 16 colours. *)
Definition picture (ch att : Z -> Z -> Z) (glyph : Z -> Z -> Z) (colour : Z -> Z) (x y : Z) : Z :=
  let c := ch (x / 8) (y / 16) in let a := att (x / 8) (y / 16) in
  if Z.testbit (glyph c (y mod 16)) (7 - x mod 8) then colour (a mod 16) else colour (a / 16).
Definition in_window (x y : Z) : Prop := 0 <= x < 640 /\ 0 <= y < 400.

(** ** Register reports *)
(** Applying a report (name, old, new) to named values. *)
Fixpoint lookup (n : string) (r : list (string * Z * Z)) : option (Z * Z) :=
  match r with [] => None | (m, o, v) :: t => if String.eqb m n then Some (o, v) else lookup n t end.
Definition apply_report (r : list (string * Z * Z)) (f : string -> Z) : string -> Z := fun n => match lookup n r with Some (_, v) => v | None => f n end.
(** The registers a report can name. *)
Definition named (a : arch) (n : string) : Z :=
  if String.eqb n "AX" then reg 32 AX a else if String.eqb n "CX" then reg 32 CX a else if String.eqb n "DX" then reg 32 DX a else if String.eqb n "BX" then reg 32 BX a
  else if String.eqb n "SP" then reg 32 SP a else if String.eqb n "BP" then reg 32 BP a else if String.eqb n "SI" then reg 32 SI a else if String.eqb n "DI" then reg 32 DI a
  else if String.eqb n "SS" then r_ss a else if String.eqb n "DS" then r_ds a else if String.eqb n "ES" then r_es a else if String.eqb n "FS" then r_fs a else if String.eqb n "GS" then r_gs a
  else if String.eqb n "Flags" then r_flags a else 0.
