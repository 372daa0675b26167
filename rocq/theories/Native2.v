(** Model of the rest of nativetest and of mini_test.c: the DOS EXE loader, the change report, BIOS image
    start-up, exit codes, and the memory comparison tools. *)
From Coq Require Import String.
From Verif Require Import Base Cpu Machine Native.

(** A file: length and content. *)
Definition file : Type := (Z * (Z -> Z))%type.
(** fread of a little-endian uint16_t at file offset i (the caller checks the length). *)
Definition fword (f : Z -> Z) (i : Z) : Z := f i + 256 * f (i + 1).

(** ** LoadDosExe: nativetest/src/dosexe.c:18-114 *)
(** The returned far pointers and the new contents of gaMemory; failure (0:0); exit(); undefined. *)
Inductive exe_res : Type := EFail | EExit (code : Z) | EUB | ELoad (cs ip ss sp : Z) (m : Z -> Z).
Definition DEST_SEG : Z := 0x100.
(* dosexe.c:66-79: [d] = the malloc'd buffer of [size] bytes.  Inl = goto _error / undefined *)
Inductive reloc_res : Type := RFail | RUB | ROk (d : Z -> Z).
Definition put16 (x v : Z) (d : Z -> Z) : Z -> Z := fun y => if y =? x then v mod 256 else if y =? x + 1 then v / 256 mod 256 else d y.
Fixpoint relocs (n : nat) (at_ len : Z) (f : Z -> Z) (size : Z) (d : Z -> Z) : reloc_res :=
  match n with
  | O => ROk d
  | S n' =>
    if len <? at_ + 4 then RFail
    else
      let x := fword f (at_ + 2) * 16 + fword f at_ in
      if size <? x + 2 then RUB
      else relocs n' (at_ + 4) len f size (put16 x (wrap 16 (fword d x + DEST_SEG)) d)
  end.
(* dosexe.c:81-99: base = 1 and the partial copy is dead code, since 0x100*16 is a multiple of the block size;
   Memory[1+i] points at gaMemory[(1+i)*4096] and has 272 elements *)
Fixpoint copy_blocks (n : nat) (i size : Z) (d : Z -> Z) (m : Z -> Z) : option (Z -> Z) :=
  match n with
  | O => Some m
  | S n' =>
    if 272 <=? 1 + i then None
    else
      let c := Z.min 4096 (size - i * 4096) in
      copy_blocks n' (i + 1) size d
        (fun y => if ((1 + i) * 4096 <=? y) && (y <? (1 + i) * 4096 + c) then d (i * 4096 + (y - (1 + i) * 4096)) else m y)
  end.
Definition load_exe (fl : option file) (m : Z -> Z) : exe_res :=
  match fl with
  | None => EFail                                            (* no such file *)
  | Some (len, f) =>
    if len <? 28 then EExit (-1)
    else if negb (fword f 0 =? 0x5A4D) then EFail
    else
      let start := fword f 8 * 16 in
      let size := fword f 4 * 512 - Z.rem (512 - fword f 2) 512 - start in
      if size <? 0 then EExit 1                              (* malloc of a huge size_t *)
      else if len <? start + size then EFail                 (* short read; dosexe.c:56-63 *)
      else
        match relocs (Z.to_nat (fword f 6)) (fword f 24) len f size (fun k => f (start + k)) with
        | RFail => EFail
        | RUB => EUB
        | ROk d =>
          match copy_blocks (Z.to_nat ((size + 4095) / 4096)) 0 size d m with
          | None => EUB
          | Some m' => ELoad (wrap 16 (DEST_SEG + fword f 22)) (fword f 20) (wrap 16 (DEST_SEG + fword f 14)) (fword f 16) m'
          end
        end
  end.
(** main.c:177-193, 255-271: start-up with -d.  [SP.W = 0xFFFE] at main.c:270 is executed on every path. *)
Inductive boot_res : Type := BExit (code : Z) | BUB | BRun (s : st).
Section Boot.
Context (GM : Z).
Definition nt_boot_exe (debug cpu : Z) (fl : option file) : boot_res :=
  match load_exe fl bios_memory with
  | EFail => BExit (-1)
  | EExit c => BExit c
  | EUB => BUB
  | ELoad cs ip ss sp m =>
    if (cs =? 0) && (ip =? 0) then BExit (-1)
    else BRun (nt_state GM debug cpu cs ip ss (last_word m))
  end.

(** ** mini_test.c:36-139: start-up with a BIOS image. *)
(* mini_test.c:47-62 *)
Definition mini_bios : Z -> Z := ivt 256 (mput 0xF0000 [0x67; 201] (fun _ => 0xF1)).
Definition mini_host (m : Z -> Z) (x : Z) : option Z := if (GM <=? x) && (x <? GM + GSIZE) then Some (m (x - GM)) else None.
(* mini_test.c:65-77, 123 *)
Definition mini_state (debug cpu : Z) (m : Z -> Z) : st :=
  mkSt (mkArch (setf P_SP 16 0xFFFE 0) 0 0 0 0 0 0xF000 0xFFF0 2 cpu (fun b => GM + 4096 * b) (fun _ => 0) (mini_host m) [])
       (mkDec 0 0 false false false 0) debug 0 false.
(* no callback is installed (mini_test.c:69-75 are comments); [ports]: whatever inb/inw/ind return *)
Definition mini_env (nullc : bool) (ports : list ioev -> Z -> Z -> Z) : env := mkEnv nullc false ports (fun _ _ s => s).
(* mini_test.c:107-121 *)
Definition cpu_of (name : option string) : option Z :=
  match name with
  | None => Some 0
  | Some n => if String.eqb n "i8086" then Some 0 else if String.eqb n "80286" then Some 1 else if String.eqb n "386" then Some 2 else None
  end.
(* mini_test.c:79-105; the file is assumed to open *)
Definition mini_load (bin : option file) : option (Z -> Z) :=
  match bin with
  | None => Some mini_bios
  | Some (len, f) =>
    let m := mfill 0 0x400 0 mini_bios in
    if negb (Z.land len 15 =? 0) then None
    else if 0x10000 <? len then Some m
    else Some (fun y => if (0x100000 - len <=? y) && (y <? 0x100000) then f (y - (0x100000 - len)) else m y)
  end.
Definition mini_boot (debug : Z) (cpu : option string) (bin : option file) : boot_res :=
  match mini_load bin with
  | None => BExit (-1)
  | Some m => match cpu_of cpu with None => BExit 0 | Some c => BRun (mini_state debug c (last_word m)) end
  end.
(** ** The main loop and the exit code: mini_test.c:142-224, main.c:275-384. *)
Inductive main_res : Type := MRunning | MUB (u : ub) | MExit (code : Z) (s : st).
Definition exit_code (c : Z) : Z :=
  if (c =? E_BREAK) || (c =? E_HALT) then 0 else 1.
Fixpoint main_loop (E : env) (fuel : nat) (s : st) : main_res :=
  match fuel with
  | O => MRunning
  | S k => match run_one E s with
           | Ok _ s' => main_loop E k s'
           | Err c s' => MExit (exit_code c) s'
           | UB u => MUB u
           | Fuel => MRunning
           end
  end.
(* -O: mini_test.c:180-187 *)
Definition dump (s : st) : file := (0x100000, fun k => match hmem (ar s) (GM + k) with Some b => b | None => 0 end).
End Boot.

(** ** The change report: main.c:278-318, mini_test.c:145-177 *)
(** One line of the report: index, old word, new word.  None = memcpy outside the arrays. *)
Definition word_at (m : Z -> Z) (i : Z) : Z := m i + 256 * m (i + 1).
Fixpoint report (n : nat) (i : Z) (prev cur : Z -> Z) : option (list (Z * Z * Z) * (Z -> Z)) :=
  match n with
  | O => Some ([], prev)
  | S n' =>
    if (prev i =? cur i) && (prev (i + 1) =? cur (i + 1)) then report n' (i + 2) prev cur
    else if GSIZE <? i + 4 then None
    else
      match report n' (i + 2) (fun y => if (i <=? y) && (y <? i + 4) then cur y else prev y) cur with
      | Some (l, p) => Some ((i, word_at prev i, word_at cur i) :: l, p)
      | None => None
      end
  end.
Definition mem_report (prev cur : Z -> Z) : option (list (Z * Z * Z) * (Z -> Z)) := report (Z.to_nat (GSIZE / 2)) 0 prev cur.

(** ** cmpmembin.c:8-51 *)
Fixpoint cmpbin (n : nat) (i : Z) (tpl have : file) (failed : bool) : bool :=
  match n with
  | O => failed
  | S n' => if fst tpl <=? i then failed                     (* feof *)
            else cmpbin n' (i + 1) tpl have (failed || negb (snd tpl i =? snd have i))
  end.
Definition cmpmembin (tpl have : file) : bool := cmpbin (Z.to_nat (fst have)) 0 tpl have false.

(** ** Text: characters are list Z. *)
(* isspace, isxdigit in the C locale *)
Definition isspace (c : Z) : bool := (c =? 32) || ((9 <=? c) && (c <=? 13)).
Definition xdigit (c : Z) : option Z :=
  if (48 <=? c) && (c <=? 57) then Some (c - 48)
  else if (65 <=? c) && (c <=? 70) then Some (c - 55)
  else if (97 <=? c) && (c <=? 102) then Some (c - 87)
  else None.
Fixpoint skip_space (t : list Z) : list Z := match t with c :: r => if isspace c then skip_space r else t | [] => [] end.

(** ** cmpmem.c:8-59.  Result None: the template is not in the expected format (conversion fails or is
    signed/prefixed, tplbyte unspecified); not modelled further. *)
(* fscanf "%2x" on input whose first character is not a space *)
Definition scan2x (t : list Z) : option (Z * list Z) :=
  match t with
  | a :: r =>
    match xdigit a with
    | None => None
    | Some x =>
      match r with
      | b :: r' => if (a =? 48) && ((b =? 88) || (b =? 120)) then None        (* "0x" *)
                   else match xdigit b with Some y => Some (16 * x + y, r') | None => Some (x, r) end
      | [] => Some (x, [])
      end
    end
  | [] => None
  end.
Fixpoint cmptext (have : list Z) (t : list Z) (failed : bool) : option bool :=
  match have with
  | [] => Some failed
  | b :: have' =>
    match skip_space t with
    | [] => Some failed
    | c :: r =>
      if c =? 88 then cmptext have' (tl r) failed            (* 'X' *)
      else match scan2x (c :: r) with
           | None => None
           | Some (v, r') => cmptext have' r' (failed || negb (v =? b))
           end
    end
  end.
Definition cmpmem (tpl have : list Z) : option bool := cmptext have tpl false.

(** ** cmpmemhex.c:9-131 *)
(* strtol(., NULL, 16) without sign or prefix *)
Fixpoint strtol16 (v : Z) (t : list Z) : Z :=
  match t with c :: r => match xdigit c with Some x => strtol16 (16 * v + x) r | None => v end | [] => v end.
(* the item loop, cmpmemhex.c:58-75, on the rest of the line (the 0 terminator is the end of the list);
   None: outside the expected format (item reaching past the end of the line, sign, 0x) *)
Fixpoint hex_items (n : nat) (t : list Z) : option (list (option Z)) :=
  match n with
  | O => Some []
  | S n' =>
    match skip_space t with
    | [] => match hex_items n' [] with Some l => Some (None :: l) | None => None end
    | [_] => None
    | c :: d :: r =>
      if c =? 88 then match hex_items n' r with Some l => Some (None :: l) | None => None end
      else if (c =? 45) || (c =? 43) || ((c =? 48) && ((d =? 88) || (d =? 120))) then None
      else match hex_items n' r with Some l => Some (Some (wrap 8 (strtol16 0 (c :: d :: r))) :: l) | None => None end
    end
  end.
(* one line, cmpmemhex.c:44-84; [have] = fgetc from position pos, 255 at the end of the file *)
Inductive line_res : Type := LStop | LBad | LItems (l : list (option Z)).
Definition hex_line (t : list Z) : line_res :=
  match t with
  | c :: r =>
    if negb (c =? 59) || (hd 0 r =? 32) then LStop
    else match r with
         | d1 :: d2 :: r2 =>
           match xdigit d1, xdigit d2 with
           | Some _, Some _ =>
             match (if hd 0 r2 =? 104 then tl r2 else r2) with
             | 58 :: r3 => match hex_items 16 r3 with Some l => LItems l | None => LBad end
             | _ => LBad
             end
           | _, _ => LBad
           end
         | _ => LBad
         end
  | [] => LStop
  end.
Definition fgetc (h : file) (i : Z) : Z := if (0 <=? i) && (i <? fst h) then snd h i else 255.
Fixpoint mismatch (l : list (option Z)) (pos : Z) (have : file) : bool :=
  match l with
  | [] => false
  | o :: r => (match o with Some b => negb (fgetc have pos =? b) | None => false end) || mismatch r (pos + 1) have
  end.
(* fgets with a 511 byte buffer: lines of up to 510 characters; the caller splits the text into lines *)
Fixpoint cmplines (ls : list (list Z)) (pos : Z) (have : file) (failed : bool) : option bool :=
  match ls with
  | [] => Some failed
  | t :: r => match hex_line t with
              | LStop => Some failed
              | LBad => None
              | LItems l => cmplines r (pos + 16) have (failed || mismatch l pos have)
              end
  end.
(* lines as fgets(line, 511, f) returns them: up to and including '\n', at most 510 characters *)
Fixpoint fgets (n : nat) (t : list Z) : list Z * list Z :=
  match n, t with
  | S n', c :: r => if c =? 10 then ([c], r) else let (a, b) := fgets n' r in (c :: a, b)
  | _, _ => ([], t)
  end.
Fixpoint split_lines (fuel : nat) (t : list Z) : list (list Z) :=
  match fuel, t with
  | S k, _ :: _ => let (l, r) := fgets 510 t in l :: split_lines k r
  | _, _ => []
  end.
Definition cmpmemhex (tpl : list Z) (have : file) : option bool := cmplines (split_lines (length tpl) tpl) 0 have false.
