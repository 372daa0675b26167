(** Specification vocabulary for register dumps: hexadecimal text. *)
From Coq Require Import String Ascii.
From Verif Require Import Base.

(** The value of a hexadecimal digit 0-9 a-f. *)
Definition digit_value (c : ascii) : option Z :=
  let n := Z.of_nat (nat_of_ascii c) in
  if (48 <=? n) && (n <=? 57) then Some (n - 48) else if (97 <=? n) && (n <=? 102) then Some (n - 87) else None.
Fixpoint hex_number (acc : Z) (t : string) : option Z :=
  match t with
  | EmptyString => Some acc
  | String c r => match digit_value c with Some d => hex_number (16 * acc + d) r | None => None end
  end.
(** t is v in exactly w hexadecimal digits. *)
Definition hex_text (w : nat) (v : Z) (t : string) : Prop := String.length t = w /\ hex_number 0 t = Some v.
(** The names of the flags that are set, each behind a space, in this order. *)
Fixpoint joined (l : list string) : string := match l with [] => EmptyString | t :: r => append t (joined r) end.
Definition flag_names (f : Z) : string :=
  joined (map (fun p => if Z.testbit f (fst p) then append " "%string (snd p) else EmptyString)
    [(11, "OF"); (10, "DF"); (9, "IF"); (8, "TF"); (7, "SF"); (6, "ZF"); (4, "AF"); (2, "PF"); (0, "CF")]%string).
Definition end_of_line : string := String (ascii_of_nat 10) EmptyString.
(** A dump names its registers in this layout: the eight 32-bit registers, SS DS ES, CS:IP, and the flags. *)
Definition dump_layout (ax cx dx bx sp bp si di ss ds es cs ip fl names : string) : string :=
  joined [end_of_line; "EAX "; ax; "  ECX "; cx; "  EDX "; dx; "  EBX "; bx; end_of_line;
    "ESP "; sp; "  EBP "; bp; "  ESI "; si; "  EDI "; di; end_of_line;
    "SS "; ss; "  DS "; ds; "  ES "; es; end_of_line;
    "CS:IP = 0x"; cs; ":"; ip; end_of_line; "Flags = "; fl; names; end_of_line]%string.
