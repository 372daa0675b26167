(** Specification vocabulary for the instruction trace: how a reader takes a trace line apart. *)
From Coq Require Import String Ascii.
From Verif Require Import Base Cpu Machine Spec SpecRun SpecTop SpecCodes Dump SpecDump.
Local Open Scope string_scope.
Local Open Scope Z_scope.

(** ** Numbers *)
(** A decimal number. *)
Fixpoint dec_number (acc : Z) (t : string) : option Z :=
  match t with
  | EmptyString => Some acc
  | String c r =>
    let n := Z.of_nat (nat_of_ascii c) in if (48 <=? n) && (n <=? 57) then dec_number (10 * acc + (n - 48)) r else None
  end.
(** t is v in decimal, blanks in front up to width w. *)
Fixpoint skip_blanks (t : string) : string := match t with String " " r => skip_blanks r | _ => t end.
Definition dec_text (w : nat) (v : Z) (t : string) : Prop :=
  (w <= String.length t)%nat /\ skip_blanks t <> "" /\ dec_number 0 (skip_blanks t) = Some v.
(** t is v in hexadecimal, without a fixed width. *)
Definition hex_value (v : Z) (t : string) : Prop := t <> "" /\ hex_number 0 t = Some v.

(** ** Characters *)
Fixpoint every (P : ascii -> bool) (t : string) : bool := match t with EmptyString => true | String c r => P c && every P r end.
(** Printable characters. *)
Definition plain_char (c : ascii) : bool := let n := nat_of_ascii c in (32 <=? n)%nat && (n <=? 126)%nat.
Definition plain (t : string) : bool := every plain_char t.
Definition has_char (c : ascii) (t : string) : bool := negb (every (fun d => negb (Ascii.eqb c d)) t).

(** ** A trace line: "(number) [0xaddress] segment:offset text <TAB>; bytes <newline>" *)
Definition tab_char : string := String (ascii_of_nat 9) "".
Definition line_start (num lin cs ip : string) : string := joined ["("; num; ") [0x"; lin; "] "; cs; ":"; ip].
Definition line (num lin cs ip txt bytes : string) : string :=
  joined [line_start num lin cs ip; txt; tab_char; ";"; bytes; end_of_line].
(** The line of an instruction that raised a divide fault: no text and no bytes. *)
Definition fault_line (num lin cs ip : string) : string := joined [line_start num lin cs ip; "RM_Int: Calling Int 0x0"; end_of_line].
(** The number of the line and the place of the instruction. *)
Definition names_place (k c i : Z) (num lin cs ip : string) : Prop :=
  dec_text 8 k num /\ hex_value (16 * c + i) lin /\ hex_text 4 c cs /\ hex_text 4 i ip.
(** Bytes in hexadecimal, each behind a blank. *)
Fixpoint shows_bytes (bs : list Z) (t : string) : Prop :=
  match bs with
  | [] => t = ""
  | b :: r => exists h u, t = joined [" "; h; u] /\ hex_text 2 b h /\ shows_bytes r u
  end.
(** ** Operands *)
(** The first "SS:[...]" of a text: the two characters before the colon, and what is between the brackets. *)
Fixpoint up_to (c : ascii) (t : string) : string :=
  match t with EmptyString => "" | String d r => if Ascii.eqb c d then "" else String d (up_to c r) end.
Fixpoint shown_operand (t : string) : option (string * string) :=
  match t with
  | String a u =>
    match u with
    | String b (String c (String d r)) => if Ascii.eqb c ":" && Ascii.eqb d "[" then Some (String a (String b ""), up_to "]" r) else shown_operand u
    | _ => None
    end
  | EmptyString => None
  end.
(** Values of the names a reader knows. *)
Fixpoint lookup_text (t : string) (l : list (string * Z)) : option Z :=
  match l with [] => None | (n, v) :: r => if String.eqb t n then Some v else lookup_text t r end.
Definition segments (a : arch) : list (string * Z) :=
  [("ES", r_es a); ("CS", r_cs a); ("SS", r_ss a); ("DS", r_ds a); ("FS", r_fs a); ("GS", r_gs a)].
Definition registers (a : arch) : list (string * Z) :=
  [("BX", reg 16 BX a); ("BP", reg 16 BP a); ("SI", reg 16 SI a); ("DI", reg 16 DI a);
   ("EAX", reg 32 AX a); ("ECX", reg 32 CX a); ("EDX", reg 32 DX a); ("EBX", reg 32 BX a);
   ("ESP", reg 32 SP a); ("EBP", reg 32 BP a); ("ESI", reg 32 SI a); ("EDI", reg 32 DI a); ("EIZ", 0)].
Definition scales : list (string * Z) := [("*1", 1); ("*2", 2); ("*4", 4); ("*8", 8)].
(** A term is a number 0x..., a register, or a register with a scale. *)
Definition term_value (a : arch) (t : string) : option Z :=
  match t with
  | String "0" (String "x" r) => hex_number 0 r
  | _ =>
    let reg := up_to "*" t in
    match lookup_text reg (registers a) with
    | Some v =>
      if String.eqb reg t then Some v
      else match lookup_text (substring (String.length reg) (String.length t) t) scales with Some k => Some (v * k) | None => None end
    | None => None
    end
  end.
(** At most three terms joined by +; the offset is their sum, a 32-bit number. *)
Fixpoint sum_value (fuel : nat) (a : arch) (t : string) : option Z :=
  match fuel with
  | O => None
  | S fuel' =>
    let h := up_to "+" t in
    match term_value a h with
    | Some v =>
      if String.eqb h t then Some v
      else match sum_value fuel' a (substring (S (String.length h)) (String.length t) t) with Some w => Some (v + w) | None => None end
    | None => None
    end
  end.
Definition offset_value (a : arch) (t : string) : option Z := option_map (low 32) (sum_value 3 a t).

(** ** The trace of a run, up to the texts in the middle of the lines.  Each call of RME_RunOne prints: from level 2 on a register
    dump; then nothing at a callback entry, and otherwise one line with the number of the instruction and its place.  An instruction that
    may raise a divide fault prints the whole line or a fault line. *)

Definition level2 (s : st) : string := if 2 <=? dbg s then dump_regs (ar s) else "".
Inductive traced (E : env) : st -> string -> st -> Prop :=
| traced_end s : traced E s "" s
| traced_callback s s1 s' u : hle_entry_pc (ar s) -> run_one E s = Ok tt s1 -> traced E s1 u s' -> traced E s (append (level2 s) u) s'
| traced_line s s1 s' num lin cs ip txt bytes u : at_instruction (ar s) -> run_one E s = Ok tt s1 ->
    names_place (icount s1) (r_cs (ar s)) (r_ip (ar s)) num lin cs ip -> plain txt = true -> plain bytes = true -> traced E s1 u s' ->
    traced E s (append (level2 s) (append (line num lin cs ip txt bytes) u)) s'
| traced_fault s s1 s' num lin cs ip u : at_instruction (ar s) -> run_one E s = Ok tt s1 -> opcode_at (ar s) divides ->
    names_place (icount s1) (r_cs (ar s)) (r_ip (ar s)) num lin cs ip -> traced E s1 u s' ->
    traced E s (append (level2 s) (append (fault_line num lin cs ip) u)) s'.
