(** Model of what is left of nativetest/src/main.c: the command lines (also mini_test.c's), the choice of what to
    boot, the graphical window, and the register part of the change report. *)
From Coq Require Import String Ascii.
From Verif Require Import Base Cpu Machine Native Native2.

(** ** strtol(text, NULL, 10): main.c:444, mini_test.c:276 *)
Definition chr (c : ascii) : Z := Z.of_nat (nat_of_ascii c).
Fixpoint digits10 (v : Z) (t : string) : Z :=
  match t with
  | EmptyString => v
  | String c r => if (48 <=? chr c) && (chr c <=? 57) then digits10 (10 * v + (chr c - 48)) r else v
  end.
Fixpoint skip_blanks (t : string) : string :=
  match t with String c r => if isspace (chr c) then skip_blanks r else t | EmptyString => t end.
(* a long has 64 bits; out of range gives LONG_MIN or LONG_MAX *)
Definition clamp64 (v : Z) : Z := Z.max (- 2 ^ 63) (Z.min (2 ^ 63 - 1) v).
Definition strtol10 (t : string) : Z :=
  match skip_blanks t with
  | String c r => if chr c =? 45 then clamp64 (- digits10 0 r) else if chr c =? 43 then clamp64 (digits10 0 r) else clamp64 (digits10 0 (String c r))
  | EmptyString => 0
  end.
(* the assignment to an int keeps the low 32 bits *)
Definition to_int (v : Z) : Z := sgn 32 (wrap 32 v).

(** ** ParseArgs of the native tester: main.c:381-458 *)
(** main.c:56-62, 78.  [fdds]: the names stored in gasFDDs so far (slot 0 holds "fdd.img" until then); a name
    option is NULL until set, and is set to argv[argc] = NULL by an option that is the last argument. *)
Record settings : Type := mkSettings {
  fdds : list string; bin_name : option string; dump_name : option string; exe_name : option string;
  nogui : bool; cpu_name : string; dbg_level : Z }.
Definition settings0 : settings := mkSettings [] None None None false "80286" 1.
Definition add_fdd (n : string) (s : settings) := mkSettings (fdds s ++ [n]) (bin_name s) (dump_name s) (exe_name s) (nogui s) (cpu_name s) (dbg_level s).
Definition set_bin (v : option string) (s : settings) := mkSettings (fdds s) v (dump_name s) (exe_name s) (nogui s) (cpu_name s) (dbg_level s).
Definition set_dump (v : option string) (s : settings) := mkSettings (fdds s) (bin_name s) v (exe_name s) (nogui s) (cpu_name s) (dbg_level s).
Definition set_exe (v : option string) (s : settings) := mkSettings (fdds s) (bin_name s) (dump_name s) v (nogui s) (cpu_name s) (dbg_level s).
Definition set_nogui (s : settings) := mkSettings (fdds s) (bin_name s) (dump_name s) (exe_name s) true (cpu_name s) (dbg_level s).
Definition set_cpu (n : string) (s : settings) := mkSettings (fdds s) (bin_name s) (dump_name s) (exe_name s) (nogui s) n (dbg_level s).
Definition set_level (v : Z) (s : settings) := mkSettings (fdds s) (bin_name s) (dump_name s) (exe_name s) (nogui s) (cpu_name s) v.
(** Settings; exit(code); a failed assertion. *)
Inductive args_res (A : Type) : Type := AGo (s : A) | AExit (code : Z) | AAbort.
Arguments AGo {A}. Arguments AExit {A}. Arguments AAbort {A}.
Definition nth_is (n : nat) (t : string) (c : ascii) : bool := match String.get n t with Some d => Ascii.eqb d c | None => false end.
Fixpoint parse_args (args : list string) (all_free : bool) (s : settings) : args_res settings :=
  match args with
  | [] => AGo s
  | arg :: rest =>
    if negb (nth_is 0 arg "-") || all_free then                                     (* main.c:388-397 *)
      if (length (fdds s) <? 4)%nat then parse_args rest all_free (add_fdd arg s) else AExit 1
    else match String.get 1 arg with
    | None => AExit 1                                                               (* main.c:398-401 *)
    | Some c =>
      if negb (Ascii.eqb c "-") then                                                (* main.c:403-423 *)
        if Ascii.eqb c "h" then AExit 0
        else if Ascii.eqb c "b" then match rest with [] => AGo (set_bin None s) | v :: rest' => parse_args rest' all_free (set_bin (Some v) s) end
        else if Ascii.eqb c "O" then match rest with [] => AGo (set_dump None s) | v :: rest' => parse_args rest' all_free (set_dump (Some v) s) end
        else if Ascii.eqb c "d" then match rest with [] => AGo (set_exe None s) | v :: rest' => parse_args rest' all_free (set_exe (Some v) s) end
        else AExit 1
      else match String.get 2 arg with
      | None => parse_args rest true s                                              (* main.c:425-427 *)
      | Some _ =>                                                                   (* main.c:429-451 *)
        if String.eqb arg "--help" then AExit 0
        else if String.eqb arg "--nogui" then parse_args rest all_free (set_nogui s)
        else if String.eqb arg "--cpu" then match rest with [] => AAbort | v :: rest' => parse_args rest' all_free (set_cpu v s) end
        else if String.eqb arg "--debug-level" then
          match rest with [] => AAbort | v :: rest' => parse_args rest' all_free (set_level (to_int (strtol10 v)) s) end
        else AExit 1
      end
    end
  end.
Definition nt_args (args : list string) : args_res settings := parse_args args false settings0.

(** ** ParseArgs of mini_test: mini_test.c:12-17, 42, 224-285 *)
Record msettings : Type := mkMs { m_level : Z; m_bin : option string; m_dump : option string; m_cpu : option string }.
Definition msettings0 : msettings := mkMs 0 None None None.
Fixpoint mini_parse (args : list string) (all_free : bool) (s : msettings) : args_res msettings :=
  match args with
  | [] => AGo s
  | arg :: rest =>
    if negb (nth_is 0 arg "-") || all_free then
      match m_bin s with
      | None => mini_parse rest all_free (mkMs (m_level s) (Some arg) (m_dump s) (m_cpu s))
      | Some _ => AExit 1
      end
    else match String.get 1 arg with
    | None => AExit 1
    | Some c =>
      if negb (Ascii.eqb c "-") then
        if Ascii.eqb c "h" then AExit 0
        else if Ascii.eqb c "O" then
          match rest with
          | [] => AGo (mkMs (m_level s) (m_bin s) None (m_cpu s))
          | v :: rest' => mini_parse rest' all_free (mkMs (m_level s) (m_bin s) (Some v) (m_cpu s))
          end
        else AExit 1
      else match String.get 2 arg with
      | None => mini_parse rest true s
      | Some _ =>
        if String.eqb arg "--help" then AExit 0
        else if String.eqb arg "--cpu" then
          match rest with [] => AAbort | v :: rest' => mini_parse rest' all_free (mkMs (m_level s) (m_bin s) (m_dump s) (Some v)) end
        else if String.eqb arg "--debug-level" then
          match rest with
          | [] => AAbort
          | v :: rest' => mini_parse rest' all_free (mkMs (to_int (strtol10 v)) (m_bin s) (m_dump s) (m_cpu s))
          end
        else AExit 1
      end
    end
  end.
Definition mini_args (args : list string) : args_res msettings := mini_parse args false msettings0.

(** ** What main boots: main.c:97-273 *)
Section Main.
Context (GM : Z).
(** The files of the host: None = fopen fails. *)
Context (open : string -> option file).
(* main.c:113: PutString("RME NativeTest\r\n", 0x0F) in a build with a window *)
Definition banner_text : list Z := [82; 77; 69; 32; 78; 97; 116; 105; 118; 101; 84; 101; 115; 116].
Definition banner (m : Z -> Z) : Z -> Z := mput 0xB8000 (flat_map (fun c => [c; 0x0F]) banner_text) m.
(* main.c:102-161; [gui]: built with ENABLE_GUI and --nogui not given *)
Definition start_memory (gui : bool) : Z -> Z :=
  if gui then disk_block (ivt 256 (mput 0xF0000 [0x67; 201] (banner (mfill 0xB8000 4000 0 (fun _ => 0xF1))))) else bios_memory.
(* main.c:119-127 *)
Definition slot0 (s : settings) : string := match fdds s with [] => "fdd.img"%string | n :: _ => n end.
Definition open_fdd (s : settings) : option file := if String.eqb (slot0 s) "" then None else open (slot0 s).
(* what the three ways to load leave: the tester returns, or CS, IP, SS and memory.  fopen of the -b file is not checked
   (main.c:196): fseek and ftell on NULL are undefined.  An oversized image is not read (main.c:212-215). *)
Inductive media : Type := MedRet (r : boot_res) | MedGo (cs ip ss : Z) (m : Z -> Z).
Definition load_media (gui : bool) (s : settings) : media :=
  match exe_name s with
  | Some n =>                                                   (* main.c:177-192 *)
    match load_exe (open n) (start_memory gui) with
    | EFail => MedRet (BExit (-1)) | EExit c => MedRet (BExit c) | EUB => MedRet BUB
    | ELoad cs ip ss sp m => if (cs =? 0) && (ip =? 0) then MedRet (BExit (-1)) else MedGo cs ip ss m
    end
  | None =>
  match bin_name s with
  | Some n =>                                                   (* main.c:195-229 *)
    match open n with
    | None => MedRet BUB
    | Some (len, f) =>
      let m := mfill 0 0x400 0 (start_memory gui) in
      if negb (Z.land len 15 =? 0) then MedRet (BExit (-1))
      else if 0x10000 <? len then MedGo 0xF000 0xFFF0 0 m
      else MedGo 0xF000 0xFFF0 0 (fun y => if (0x100000 - len <=? y) && (y <? 0x100000) then f (y - (0x100000 - len)) else m y)
    end
  | None =>
  match open_fdd s with
  | Some (len, img) =>                                          (* main.c:230-248 *)
    if len <? 512 then MedRet (BExit 0)
    else
      let m := fun y => if (0x7C00 <=? y) && (y <? 0x7E00) then img (y - 0x7C00) else start_memory gui y in
      if (m 0x7DFE =? 0x55) && (m 0x7DFF =? 0xAA) then MedGo 0x07C0 0 0 m else MedRet (BExit 0)
  | None => MedGo 0xF000 0xFFF0 0 (start_memory gui)            (* main.c:249-251; CS:IP from RME_CreateState *)
  end end end.
(* the banner leaves the cursor at the start of the second line *)
Definition with_cursor (gui : bool) (s : st) : st :=
  if gui then mkSt (set_gint (G_CY GM) 1 (ar s)) (dc s) (dbg s) (icount s) (lastnull s) else s.
Definition nt_start (gui : bool) (s : settings) : boot_res :=
  match load_media gui s with
  | MedRet r => r
  | MedGo cs ip ss m =>
    match cpu_of (Some (cpu_name s)) with
    | None => BExit 0                                           (* main.c:264-267 *)
    | Some c => BRun (with_cursor gui (nt_state GM (dbg_level s) c cs ip ss (last_word m)))
    end
  end.
(** The whole of main up to the first instruction.  [built]: compiled with ENABLE_GUI. *)
Inductive start_res : Type := SAbort | SExit (code : Z) | SUB | SRun (s : st).
Definition of_boot (r : boot_res) : start_res := match r with BExit c => SExit c | BUB => SUB | BRun s => SRun s end.
Definition nt_main (built : bool) (args : list string) : start_res :=
  match nt_args args with
  | AAbort => SAbort
  | AExit c => SExit c
  | AGo s => of_boot (nt_start (built && negb (nogui s)) s)
  end.
(* mini_test.c:39-139 *)
Definition mini_main (args : list string) : start_res :=
  match mini_args args with
  | AAbort => SAbort
  | AExit c => SExit c
  | AGo s =>
    match m_bin s with
    | None => of_boot (mini_boot GM (m_level s) (m_cpu s) None)
    | Some n => match open n with None => SUB | Some f => of_boot (mini_boot GM (m_level s) (m_cpu s) (Some f)) end
    end
  end.
End Main.

(** ** The window: DrawChar and Video_Redraw, main.c:530-592 *)
(** A surface: the colour of each pixel (column, row). *)
Definition surface : Type := Z -> Z -> Z.
(* SDL_FillRect with a 1x1 rectangle; the surface is 640x400 and SDL clips *)
Definition fill1 (x y c : Z) (p : surface) : surface :=
  fun x' y' => if (x' =? x) && (y' =? y) && (0 <=? x) && (x <? 640) && (0 <=? y) && (y <? 400) then c else p x' y'.
(* font.h:7-265: VTermFont *)
Definition font_table : list Z :=
  [0; 0; 0; 0; 0; 0; 0; 0; 0; 0; 0; 0; 0; 0; 0; 0;
   0; 0; 126; 129; 165; 129; 129; 189; 153; 129; 129; 126; 0; 0; 0; 0;
   0; 0; 126; 255; 219; 255; 255; 195; 231; 255; 255; 126; 0; 0; 0; 0;
   0; 0; 0; 0; 108; 254; 254; 254; 254; 124; 56; 16; 0; 0; 0; 0;
   0; 0; 0; 0; 16; 56; 124; 254; 124; 56; 16; 0; 0; 0; 0; 0;
   0; 0; 0; 24; 60; 60; 231; 231; 231; 24; 24; 60; 0; 0; 0; 0;
   0; 0; 0; 24; 60; 126; 255; 255; 126; 24; 24; 60; 0; 0; 0; 0;
   0; 0; 0; 0; 0; 0; 24; 60; 60; 24; 0; 0; 0; 0; 0; 0;
   255; 255; 255; 255; 255; 255; 231; 195; 195; 231; 255; 255; 255; 255; 255; 255;
   0; 0; 0; 0; 0; 60; 102; 66; 66; 102; 60; 0; 0; 0; 0; 0;
   255; 255; 255; 255; 255; 195; 153; 189; 189; 153; 195; 255; 255; 255; 255; 255;
   0; 0; 30; 14; 26; 50; 120; 204; 204; 204; 204; 120; 0; 0; 0; 0;
   0; 0; 60; 102; 102; 102; 102; 60; 24; 126; 24; 24; 0; 0; 0; 0;
   0; 0; 63; 51; 63; 48; 48; 48; 48; 112; 240; 224; 0; 0; 0; 0;
   0; 0; 127; 99; 127; 99; 99; 99; 99; 103; 231; 230; 192; 0; 0; 0;
   0; 0; 0; 24; 24; 219; 60; 231; 60; 219; 24; 24; 0; 0; 0; 0;
   0; 128; 192; 224; 240; 248; 254; 248; 240; 224; 192; 128; 0; 0; 0; 0;
   0; 2; 6; 14; 30; 62; 254; 62; 30; 14; 6; 2; 0; 0; 0; 0;
   0; 0; 24; 60; 126; 24; 24; 24; 126; 60; 24; 0; 0; 0; 0; 0;
   0; 0; 102; 102; 102; 102; 102; 102; 102; 0; 102; 102; 0; 0; 0; 0;
   0; 0; 127; 219; 219; 219; 123; 27; 27; 27; 27; 27; 0; 0; 0; 0;
   0; 124; 198; 96; 56; 108; 198; 198; 108; 56; 12; 198; 124; 0; 0; 0;
   0; 0; 0; 0; 0; 0; 0; 0; 254; 254; 254; 254; 0; 0; 0; 0;
   0; 0; 24; 60; 126; 24; 24; 24; 126; 60; 24; 126; 0; 0; 0; 0;
   0; 0; 24; 60; 126; 24; 24; 24; 24; 24; 24; 24; 0; 0; 0; 0;
   0; 0; 24; 24; 24; 24; 24; 24; 24; 126; 60; 24; 0; 0; 0; 0;
   0; 0; 0; 0; 0; 24; 12; 254; 12; 24; 0; 0; 0; 0; 0; 0;
   0; 0; 0; 0; 0; 48; 96; 254; 96; 48; 0; 0; 0; 0; 0; 0;
   0; 0; 0; 0; 0; 0; 192; 192; 192; 254; 0; 0; 0; 0; 0; 0;
   0; 0; 0; 0; 0; 36; 102; 255; 102; 36; 0; 0; 0; 0; 0; 0;
   0; 0; 0; 0; 16; 56; 56; 124; 124; 254; 254; 0; 0; 0; 0; 0;
   0; 0; 0; 0; 254; 254; 124; 124; 56; 56; 16; 0; 0; 0; 0; 0;
   0; 0; 0; 0; 0; 0; 0; 0; 0; 0; 0; 0; 0; 0; 0; 0;
   0; 0; 24; 60; 60; 60; 24; 24; 24; 0; 24; 24; 0; 0; 0; 0;
   0; 102; 102; 102; 36; 0; 0; 0; 0; 0; 0; 0; 0; 0; 0; 0;
   0; 0; 0; 108; 108; 254; 108; 108; 108; 254; 108; 108; 0; 0; 0; 0;
   24; 24; 124; 198; 194; 192; 124; 6; 6; 134; 198; 124; 24; 24; 0; 0;
   0; 0; 0; 0; 194; 198; 12; 24; 48; 96; 198; 134; 0; 0; 0; 0;
   0; 0; 56; 108; 108; 56; 118; 220; 204; 204; 204; 118; 0; 0; 0; 0;
   0; 48; 48; 48; 96; 0; 0; 0; 0; 0; 0; 0; 0; 0; 0; 0;
   0; 0; 12; 24; 48; 48; 48; 48; 48; 48; 24; 12; 0; 0; 0; 0;
   0; 0; 48; 24; 12; 12; 12; 12; 12; 12; 24; 48; 0; 0; 0; 0;
   0; 0; 0; 0; 0; 102; 60; 255; 60; 102; 0; 0; 0; 0; 0; 0;
   0; 0; 0; 0; 0; 24; 24; 126; 24; 24; 0; 0; 0; 0; 0; 0;
   0; 0; 0; 0; 0; 0; 0; 0; 0; 24; 24; 24; 48; 0; 0; 0;
   0; 0; 0; 0; 0; 0; 0; 254; 0; 0; 0; 0; 0; 0; 0; 0;
   0; 0; 0; 0; 0; 0; 0; 0; 0; 0; 24; 24; 0; 0; 0; 0;
   0; 0; 0; 0; 2; 6; 12; 24; 48; 96; 192; 128; 0; 0; 0; 0;
   0; 0; 60; 102; 195; 195; 219; 219; 195; 195; 102; 60; 0; 0; 0; 0;
   0; 0; 24; 56; 120; 24; 24; 24; 24; 24; 24; 126; 0; 0; 0; 0;
   0; 0; 124; 198; 6; 12; 24; 48; 96; 192; 198; 254; 0; 0; 0; 0;
   0; 0; 124; 198; 6; 6; 60; 6; 6; 6; 198; 124; 0; 0; 0; 0;
   0; 0; 12; 28; 60; 108; 204; 254; 12; 12; 12; 30; 0; 0; 0; 0;
   0; 0; 254; 192; 192; 192; 252; 6; 6; 6; 198; 124; 0; 0; 0; 0;
   0; 0; 56; 96; 192; 192; 252; 198; 198; 198; 198; 124; 0; 0; 0; 0;
   0; 0; 254; 198; 6; 6; 12; 24; 48; 48; 48; 48; 0; 0; 0; 0;
   0; 0; 124; 198; 198; 198; 124; 198; 198; 198; 198; 124; 0; 0; 0; 0;
   0; 0; 124; 198; 198; 198; 126; 6; 6; 6; 12; 120; 0; 0; 0; 0;
   0; 0; 0; 0; 24; 24; 0; 0; 0; 24; 24; 0; 0; 0; 0; 0;
   0; 0; 0; 0; 24; 24; 0; 0; 0; 24; 24; 48; 0; 0; 0; 0;
   0; 0; 0; 6; 12; 24; 48; 96; 48; 24; 12; 6; 0; 0; 0; 0;
   0; 0; 0; 0; 0; 126; 0; 0; 126; 0; 0; 0; 0; 0; 0; 0;
   0; 0; 0; 96; 48; 24; 12; 6; 12; 24; 48; 96; 0; 0; 0; 0;
   0; 0; 124; 198; 198; 12; 24; 24; 24; 0; 24; 24; 0; 0; 0; 0;
   0; 0; 0; 124; 198; 198; 222; 222; 222; 220; 192; 124; 0; 0; 0; 0;
   0; 0; 16; 56; 108; 198; 198; 254; 198; 198; 198; 198; 0; 0; 0; 0;
   0; 0; 252; 102; 102; 102; 124; 102; 102; 102; 102; 252; 0; 0; 0; 0;
   0; 0; 60; 102; 194; 192; 192; 192; 192; 194; 102; 60; 0; 0; 0; 0;
   0; 0; 248; 108; 102; 102; 102; 102; 102; 102; 108; 248; 0; 0; 0; 0;
   0; 0; 254; 102; 98; 104; 120; 104; 96; 98; 102; 254; 0; 0; 0; 0;
   0; 0; 254; 102; 98; 104; 120; 104; 96; 96; 96; 240; 0; 0; 0; 0;
   0; 0; 60; 102; 194; 192; 192; 222; 198; 198; 102; 58; 0; 0; 0; 0;
   0; 0; 198; 198; 198; 198; 254; 198; 198; 198; 198; 198; 0; 0; 0; 0;
   0; 0; 60; 24; 24; 24; 24; 24; 24; 24; 24; 60; 0; 0; 0; 0;
   0; 0; 30; 12; 12; 12; 12; 12; 204; 204; 204; 120; 0; 0; 0; 0;
   0; 0; 230; 102; 102; 108; 120; 120; 108; 102; 102; 230; 0; 0; 0; 0;
   0; 0; 240; 96; 96; 96; 96; 96; 96; 98; 102; 254; 0; 0; 0; 0;
   0; 0; 195; 231; 255; 255; 219; 195; 195; 195; 195; 195; 0; 0; 0; 0;
   0; 0; 198; 230; 246; 254; 222; 206; 198; 198; 198; 198; 0; 0; 0; 0;
   0; 0; 124; 198; 198; 198; 198; 198; 198; 198; 198; 124; 0; 0; 0; 0;
   0; 0; 252; 102; 102; 102; 124; 96; 96; 96; 96; 240; 0; 0; 0; 0;
   0; 0; 124; 198; 198; 198; 198; 198; 198; 214; 222; 124; 12; 14; 0; 0;
   0; 0; 252; 102; 102; 102; 124; 108; 102; 102; 102; 230; 0; 0; 0; 0;
   0; 0; 124; 198; 198; 96; 56; 12; 6; 198; 198; 124; 0; 0; 0; 0;
   0; 0; 255; 219; 153; 24; 24; 24; 24; 24; 24; 60; 0; 0; 0; 0;
   0; 0; 198; 198; 198; 198; 198; 198; 198; 198; 198; 124; 0; 0; 0; 0;
   0; 0; 195; 195; 195; 195; 195; 195; 195; 102; 60; 24; 0; 0; 0; 0;
   0; 0; 195; 195; 195; 195; 195; 219; 219; 255; 102; 102; 0; 0; 0; 0;
   0; 0; 195; 195; 102; 60; 24; 24; 60; 102; 195; 195; 0; 0; 0; 0;
   0; 0; 195; 195; 195; 102; 60; 24; 24; 24; 24; 60; 0; 0; 0; 0;
   0; 0; 255; 195; 134; 12; 24; 48; 96; 193; 195; 255; 0; 0; 0; 0;
   0; 0; 60; 48; 48; 48; 48; 48; 48; 48; 48; 60; 0; 0; 0; 0;
   0; 0; 0; 128; 192; 224; 112; 56; 28; 14; 6; 2; 0; 0; 0; 0;
   0; 0; 60; 12; 12; 12; 12; 12; 12; 12; 12; 60; 0; 0; 0; 0;
   16; 56; 108; 198; 0; 0; 0; 0; 0; 0; 0; 0; 0; 0; 0; 0;
   0; 0; 0; 0; 0; 0; 0; 0; 0; 0; 0; 0; 0; 255; 0; 0;
   48; 48; 24; 0; 0; 0; 0; 0; 0; 0; 0; 0; 0; 0; 0; 0;
   0; 0; 0; 0; 0; 120; 12; 124; 204; 204; 204; 118; 0; 0; 0; 0;
   0; 0; 224; 96; 96; 120; 108; 102; 102; 102; 102; 124; 0; 0; 0; 0;
   0; 0; 0; 0; 0; 124; 198; 192; 192; 192; 198; 124; 0; 0; 0; 0;
   0; 0; 28; 12; 12; 60; 108; 204; 204; 204; 204; 118; 0; 0; 0; 0;
   0; 0; 0; 0; 0; 124; 198; 254; 192; 192; 198; 124; 0; 0; 0; 0;
   0; 0; 56; 108; 100; 96; 240; 96; 96; 96; 96; 240; 0; 0; 0; 0;
   0; 0; 0; 0; 0; 118; 204; 204; 204; 204; 204; 124; 12; 204; 120; 0;
   0; 0; 224; 96; 96; 108; 118; 102; 102; 102; 102; 230; 0; 0; 0; 0;
   0; 0; 24; 24; 0; 56; 24; 24; 24; 24; 24; 60; 0; 0; 0; 0;
   0; 0; 6; 6; 0; 14; 6; 6; 6; 6; 6; 6; 102; 102; 60; 0;
   0; 0; 224; 96; 96; 102; 108; 120; 120; 108; 102; 230; 0; 0; 0; 0;
   0; 0; 56; 24; 24; 24; 24; 24; 24; 24; 24; 60; 0; 0; 0; 0;
   0; 0; 0; 0; 0; 230; 255; 219; 219; 219; 219; 219; 0; 0; 0; 0;
   0; 0; 0; 0; 0; 220; 102; 102; 102; 102; 102; 102; 0; 0; 0; 0;
   0; 0; 0; 0; 0; 124; 198; 198; 198; 198; 198; 124; 0; 0; 0; 0;
   0; 0; 0; 0; 0; 220; 102; 102; 102; 102; 102; 124; 96; 96; 240; 0;
   0; 0; 0; 0; 0; 118; 204; 204; 204; 204; 204; 124; 12; 12; 30; 0;
   0; 0; 0; 0; 0; 220; 118; 102; 96; 96; 96; 240; 0; 0; 0; 0;
   0; 0; 0; 0; 0; 124; 198; 96; 56; 12; 198; 124; 0; 0; 0; 0;
   0; 0; 16; 48; 48; 252; 48; 48; 48; 48; 54; 28; 0; 0; 0; 0;
   0; 0; 0; 0; 0; 204; 204; 204; 204; 204; 204; 118; 0; 0; 0; 0;
   0; 0; 0; 0; 0; 195; 195; 195; 195; 102; 60; 24; 0; 0; 0; 0;
   0; 0; 0; 0; 0; 195; 195; 195; 219; 219; 255; 102; 0; 0; 0; 0;
   0; 0; 0; 0; 0; 195; 102; 60; 24; 60; 102; 195; 0; 0; 0; 0;
   0; 0; 0; 0; 0; 198; 198; 198; 198; 198; 198; 126; 6; 12; 248; 0;
   0; 0; 0; 0; 0; 254; 204; 24; 48; 96; 198; 254; 0; 0; 0; 0;
   0; 0; 14; 24; 24; 24; 112; 24; 24; 24; 24; 14; 0; 0; 0; 0;
   0; 0; 24; 24; 24; 24; 0; 24; 24; 24; 24; 24; 0; 0; 0; 0;
   0; 0; 112; 24; 24; 24; 14; 24; 24; 24; 24; 112; 0; 0; 0; 0;
   0; 0; 118; 220; 0; 0; 0; 0; 0; 0; 0; 0; 0; 0; 0; 0;
   0; 0; 0; 0; 16; 56; 108; 198; 198; 198; 254; 0; 0; 0; 0; 0;
   0; 0; 60; 102; 194; 192; 192; 192; 194; 102; 60; 12; 6; 124; 0; 0;
   0; 0; 204; 0; 0; 204; 204; 204; 204; 204; 204; 118; 0; 0; 0; 0;
   0; 12; 24; 48; 0; 124; 198; 254; 192; 192; 198; 124; 0; 0; 0; 0;
   0; 16; 56; 108; 0; 120; 12; 124; 204; 204; 204; 118; 0; 0; 0; 0;
   0; 0; 204; 0; 0; 120; 12; 124; 204; 204; 204; 118; 0; 0; 0; 0;
   0; 96; 48; 24; 0; 120; 12; 124; 204; 204; 204; 118; 0; 0; 0; 0;
   0; 56; 108; 56; 0; 120; 12; 124; 204; 204; 204; 118; 0; 0; 0; 0;
   0; 0; 0; 0; 60; 102; 96; 96; 102; 60; 12; 6; 60; 0; 0; 0;
   0; 16; 56; 108; 0; 124; 198; 254; 192; 192; 198; 124; 0; 0; 0; 0;
   0; 0; 198; 0; 0; 124; 198; 254; 192; 192; 198; 124; 0; 0; 0; 0;
   0; 96; 48; 24; 0; 124; 198; 254; 192; 192; 198; 124; 0; 0; 0; 0;
   0; 0; 102; 0; 0; 56; 24; 24; 24; 24; 24; 60; 0; 0; 0; 0;
   0; 24; 60; 102; 0; 56; 24; 24; 24; 24; 24; 60; 0; 0; 0; 0;
   0; 96; 48; 24; 0; 56; 24; 24; 24; 24; 24; 60; 0; 0; 0; 0;
   0; 198; 0; 16; 56; 108; 198; 198; 254; 198; 198; 198; 0; 0; 0; 0;
   56; 108; 56; 0; 56; 108; 198; 198; 254; 198; 198; 198; 0; 0; 0; 0;
   24; 48; 96; 0; 254; 102; 96; 124; 96; 96; 102; 254; 0; 0; 0; 0;
   0; 0; 0; 0; 0; 110; 59; 27; 126; 216; 220; 119; 0; 0; 0; 0;
   0; 0; 62; 108; 204; 204; 254; 204; 204; 204; 204; 206; 0; 0; 0; 0;
   0; 16; 56; 108; 0; 124; 198; 198; 198; 198; 198; 124; 0; 0; 0; 0;
   0; 0; 198; 0; 0; 124; 198; 198; 198; 198; 198; 124; 0; 0; 0; 0;
   0; 96; 48; 24; 0; 124; 198; 198; 198; 198; 198; 124; 0; 0; 0; 0;
   0; 48; 120; 204; 0; 204; 204; 204; 204; 204; 204; 118; 0; 0; 0; 0;
   0; 96; 48; 24; 0; 204; 204; 204; 204; 204; 204; 118; 0; 0; 0; 0;
   0; 0; 198; 0; 0; 198; 198; 198; 198; 198; 198; 126; 6; 12; 120; 0;
   0; 198; 0; 124; 198; 198; 198; 198; 198; 198; 198; 124; 0; 0; 0; 0;
   0; 198; 0; 198; 198; 198; 198; 198; 198; 198; 198; 124; 0; 0; 0; 0;
   0; 24; 24; 126; 195; 192; 192; 192; 195; 126; 24; 24; 0; 0; 0; 0;
   0; 56; 108; 100; 96; 240; 96; 96; 96; 96; 230; 252; 0; 0; 0; 0;
   0; 0; 195; 102; 60; 24; 255; 24; 255; 24; 24; 24; 0; 0; 0; 0;
   0; 252; 102; 102; 124; 98; 102; 111; 102; 102; 102; 243; 0; 0; 0; 0;
   0; 14; 27; 24; 24; 24; 126; 24; 24; 24; 24; 24; 216; 112; 0; 0;
   0; 24; 48; 96; 0; 120; 12; 124; 204; 204; 204; 118; 0; 0; 0; 0;
   0; 12; 24; 48; 0; 56; 24; 24; 24; 24; 24; 60; 0; 0; 0; 0;
   0; 24; 48; 96; 0; 124; 198; 198; 198; 198; 198; 124; 0; 0; 0; 0;
   0; 24; 48; 96; 0; 204; 204; 204; 204; 204; 204; 118; 0; 0; 0; 0;
   0; 0; 118; 220; 0; 220; 102; 102; 102; 102; 102; 102; 0; 0; 0; 0;
   118; 220; 0; 198; 230; 246; 254; 222; 206; 198; 198; 198; 0; 0; 0; 0;
   0; 60; 108; 108; 62; 0; 126; 0; 0; 0; 0; 0; 0; 0; 0; 0;
   0; 56; 108; 108; 56; 0; 124; 0; 0; 0; 0; 0; 0; 0; 0; 0;
   0; 0; 48; 48; 0; 48; 48; 96; 192; 198; 198; 124; 0; 0; 0; 0;
   0; 0; 0; 0; 0; 0; 254; 192; 192; 192; 192; 0; 0; 0; 0; 0;
   0; 0; 0; 0; 0; 0; 254; 6; 6; 6; 6; 0; 0; 0; 0; 0;
   0; 192; 192; 194; 198; 204; 24; 48; 96; 206; 155; 6; 12; 31; 0; 0;
   0; 192; 192; 194; 198; 204; 24; 48; 102; 206; 150; 62; 6; 6; 0; 0;
   0; 0; 24; 24; 0; 24; 24; 24; 60; 60; 60; 24; 0; 0; 0; 0;
   0; 0; 0; 0; 0; 54; 108; 216; 108; 54; 0; 0; 0; 0; 0; 0;
   0; 0; 0; 0; 0; 216; 108; 54; 108; 216; 0; 0; 0; 0; 0; 0;
   17; 68; 17; 68; 17; 68; 17; 68; 17; 68; 17; 68; 17; 68; 17; 68;
   85; 170; 85; 170; 85; 170; 85; 170; 85; 170; 85; 170; 85; 170; 85; 170;
   221; 119; 221; 119; 221; 119; 221; 119; 221; 119; 221; 119; 221; 119; 221; 119;
   24; 24; 24; 24; 24; 24; 24; 24; 24; 24; 24; 24; 24; 24; 24; 24;
   24; 24; 24; 24; 24; 24; 24; 248; 24; 24; 24; 24; 24; 24; 24; 24;
   24; 24; 24; 24; 24; 248; 24; 248; 24; 24; 24; 24; 24; 24; 24; 24;
   54; 54; 54; 54; 54; 54; 54; 246; 54; 54; 54; 54; 54; 54; 54; 54;
   0; 0; 0; 0; 0; 0; 0; 254; 54; 54; 54; 54; 54; 54; 54; 54;
   0; 0; 0; 0; 0; 248; 24; 248; 24; 24; 24; 24; 24; 24; 24; 24;
   54; 54; 54; 54; 54; 246; 6; 246; 54; 54; 54; 54; 54; 54; 54; 54;
   54; 54; 54; 54; 54; 54; 54; 54; 54; 54; 54; 54; 54; 54; 54; 54;
   0; 0; 0; 0; 0; 254; 6; 246; 54; 54; 54; 54; 54; 54; 54; 54;
   54; 54; 54; 54; 54; 246; 6; 254; 0; 0; 0; 0; 0; 0; 0; 0;
   54; 54; 54; 54; 54; 54; 54; 254; 0; 0; 0; 0; 0; 0; 0; 0;
   24; 24; 24; 24; 24; 248; 24; 248; 0; 0; 0; 0; 0; 0; 0; 0;
   0; 0; 0; 0; 0; 0; 0; 248; 24; 24; 24; 24; 24; 24; 24; 24;
   24; 24; 24; 24; 24; 24; 24; 31; 0; 0; 0; 0; 0; 0; 0; 0;
   24; 24; 24; 24; 24; 24; 24; 255; 0; 0; 0; 0; 0; 0; 0; 0;
   0; 0; 0; 0; 0; 0; 0; 255; 24; 24; 24; 24; 24; 24; 24; 24;
   24; 24; 24; 24; 24; 24; 24; 31; 24; 24; 24; 24; 24; 24; 24; 24;
   0; 0; 0; 0; 0; 0; 0; 255; 0; 0; 0; 0; 0; 0; 0; 0;
   24; 24; 24; 24; 24; 24; 24; 255; 24; 24; 24; 24; 24; 24; 24; 24;
   24; 24; 24; 24; 24; 31; 24; 31; 24; 24; 24; 24; 24; 24; 24; 24;
   54; 54; 54; 54; 54; 54; 54; 55; 54; 54; 54; 54; 54; 54; 54; 54;
   54; 54; 54; 54; 54; 55; 48; 63; 0; 0; 0; 0; 0; 0; 0; 0;
   0; 0; 0; 0; 0; 63; 48; 55; 54; 54; 54; 54; 54; 54; 54; 54;
   54; 54; 54; 54; 54; 247; 0; 255; 0; 0; 0; 0; 0; 0; 0; 0;
   0; 0; 0; 0; 0; 255; 0; 247; 54; 54; 54; 54; 54; 54; 54; 54;
   54; 54; 54; 54; 54; 55; 48; 55; 54; 54; 54; 54; 54; 54; 54; 54;
   0; 0; 0; 0; 0; 255; 0; 255; 0; 0; 0; 0; 0; 0; 0; 0;
   54; 54; 54; 54; 54; 247; 0; 247; 54; 54; 54; 54; 54; 54; 54; 54;
   24; 24; 24; 24; 24; 255; 0; 255; 0; 0; 0; 0; 0; 0; 0; 0;
   54; 54; 54; 54; 54; 54; 54; 255; 0; 0; 0; 0; 0; 0; 0; 0;
   0; 0; 0; 0; 0; 255; 0; 255; 24; 24; 24; 24; 24; 24; 24; 24;
   0; 0; 0; 0; 0; 0; 0; 255; 54; 54; 54; 54; 54; 54; 54; 54;
   54; 54; 54; 54; 54; 54; 54; 63; 0; 0; 0; 0; 0; 0; 0; 0;
   24; 24; 24; 24; 24; 31; 24; 31; 0; 0; 0; 0; 0; 0; 0; 0;
   0; 0; 0; 0; 0; 31; 24; 31; 24; 24; 24; 24; 24; 24; 24; 24;
   0; 0; 0; 0; 0; 0; 0; 63; 54; 54; 54; 54; 54; 54; 54; 54;
   54; 54; 54; 54; 54; 54; 54; 255; 54; 54; 54; 54; 54; 54; 54; 54;
   24; 24; 24; 24; 24; 255; 24; 255; 24; 24; 24; 24; 24; 24; 24; 24;
   24; 24; 24; 24; 24; 24; 24; 248; 0; 0; 0; 0; 0; 0; 0; 0;
   0; 0; 0; 0; 0; 0; 0; 31; 24; 24; 24; 24; 24; 24; 24; 24;
   255; 255; 255; 255; 255; 255; 255; 255; 255; 255; 255; 255; 255; 255; 255; 255;
   0; 0; 0; 0; 0; 0; 0; 255; 255; 255; 255; 255; 255; 255; 255; 255;
   240; 240; 240; 240; 240; 240; 240; 240; 240; 240; 240; 240; 240; 240; 240; 240;
   15; 15; 15; 15; 15; 15; 15; 15; 15; 15; 15; 15; 15; 15; 15; 15;
   255; 255; 255; 255; 255; 255; 255; 0; 0; 0; 0; 0; 0; 0; 0; 0;
   0; 0; 0; 0; 0; 118; 220; 216; 216; 216; 220; 118; 0; 0; 0; 0;
   0; 0; 120; 204; 204; 204; 216; 204; 198; 198; 198; 204; 0; 0; 0; 0;
   0; 0; 254; 198; 198; 192; 192; 192; 192; 192; 192; 192; 0; 0; 0; 0;
   0; 0; 0; 0; 254; 108; 108; 108; 108; 108; 108; 108; 0; 0; 0; 0;
   0; 0; 0; 254; 198; 96; 48; 24; 48; 96; 198; 254; 0; 0; 0; 0;
   0; 0; 0; 0; 0; 126; 216; 216; 216; 216; 216; 112; 0; 0; 0; 0;
   0; 0; 0; 0; 102; 102; 102; 102; 102; 124; 96; 96; 192; 0; 0; 0;
   0; 0; 0; 0; 118; 220; 24; 24; 24; 24; 24; 24; 0; 0; 0; 0;
   0; 0; 0; 126; 24; 60; 102; 102; 102; 60; 24; 126; 0; 0; 0; 0;
   0; 0; 0; 56; 108; 198; 198; 254; 198; 198; 108; 56; 0; 0; 0; 0;
   0; 0; 56; 108; 198; 198; 198; 108; 108; 108; 108; 238; 0; 0; 0; 0;
   0; 0; 30; 48; 24; 12; 62; 102; 102; 102; 102; 60; 0; 0; 0; 0;
   0; 0; 0; 0; 0; 126; 219; 219; 219; 126; 0; 0; 0; 0; 0; 0;
   0; 0; 0; 3; 6; 126; 219; 219; 243; 126; 96; 192; 0; 0; 0; 0;
   0; 0; 28; 48; 96; 96; 124; 96; 96; 96; 48; 28; 0; 0; 0; 0;
   0; 0; 0; 124; 198; 198; 198; 198; 198; 198; 198; 198; 0; 0; 0; 0;
   0; 0; 0; 0; 254; 0; 0; 254; 0; 0; 254; 0; 0; 0; 0; 0;
   0; 0; 0; 0; 24; 24; 126; 24; 24; 0; 0; 255; 0; 0; 0; 0;
   0; 0; 0; 48; 24; 12; 6; 12; 24; 48; 0; 126; 0; 0; 0; 0;
   0; 0; 0; 12; 24; 48; 96; 48; 24; 12; 0; 126; 0; 0; 0; 0;
   0; 0; 14; 27; 27; 24; 24; 24; 24; 24; 24; 24; 24; 24; 24; 24;
   24; 24; 24; 24; 24; 24; 24; 24; 216; 216; 216; 112; 0; 0; 0; 0;
   0; 0; 0; 0; 24; 24; 0; 126; 0; 24; 24; 0; 0; 0; 0; 0;
   0; 0; 0; 0; 0; 118; 220; 0; 118; 220; 0; 0; 0; 0; 0; 0;
   0; 56; 108; 108; 56; 0; 0; 0; 0; 0; 0; 0; 0; 0; 0; 0;
   0; 0; 0; 0; 0; 0; 0; 24; 24; 0; 0; 0; 0; 0; 0; 0;
   0; 0; 0; 0; 0; 0; 0; 0; 24; 0; 0; 0; 0; 0; 0; 0;
   0; 15; 12; 12; 12; 12; 12; 236; 108; 108; 60; 28; 0; 0; 0; 0;
   0; 216; 108; 108; 108; 108; 108; 0; 0; 0; 0; 0; 0; 0; 0; 0;
   0; 112; 216; 48; 96; 200; 248; 0; 0; 0; 0; 0; 0; 0; 0; 0;
   0; 0; 0; 0; 124; 124; 124; 124; 124; 124; 124; 0; 0; 0; 0; 0;
   0; 0; 0; 0; 0; 0; 0; 0; 0; 0; 0; 0; 0; 0; 0; 0].
Definition font (i : Z) : option Z := if i <? 0 then None else nth_error font_table (Z.to_nat i).
(* the inner loop, main.c:549-555: n columns left, x = 8 - n; rc.x is moved back afterwards (line 556) *)
Fixpoint draw_row (n : nat) (x rx ry row bg fg : Z) (p : surface) : surface :=
  match n with
  | O => p
  | S n' => draw_row n' (x + 1) (rx + 1) ry row bg fg (fill1 rx ry (if Z.testbit row (8 - x - 1) then fg else bg) p)
  end.
(* the outer loop, main.c:547-559; [k]: index in VTermFont.  The arithmetic on the uninitialised [buf] (main.c:557), whose
   value is never used, is left out.  None = outside VTermFont *)
Fixpoint draw_rows (n : nat) (rx ry k bg fg : Z) (p : surface) : option surface :=
  match n with
  | O => Some p
  | S n' => match font k with None => None | Some row => draw_rows n' rx (ry + 1) (k + 1) bg fg (draw_row 8 0 rx ry row bg fg p) end
  end.
Definition draw_char (gui : bool) (X Y ch bg fg : Z) (p : surface) : option surface :=
  if gui then draw_rows 16 (X * 8) (Y * 16) (ch * 16) bg fg p else Some p.
(* main.c:570-573 *)
Definition colours : list Z :=
  [0x000000; 0x0000FF; 0x00FF00; 0xFFFF00; 0xFF0000; 0xFF00FF; 0x884400; 0xCCCCCC;
   0x444444; 0x4444FF; 0x44FF44; 0xFFFF44; 0xFF4444; 0xFF44FF; 0xFF8800; 0xFFFFFF].
Definition colour (i : Z) : option Z := if i <? 0 then None else nth_error colours (Z.to_nat i).
(* main.c:576-585; [vid]: gaMemory from B8000 *)
Fixpoint redraw_cols (gui : bool) (n : nat) (row col : Z) (vid : Z -> Z) (p : surface) : option surface :=
  match n with
  | O => Some p
  | S n' =>
    let ch := vid ((row * 80 + col) * 2 + 0) in
    let at_ := vid ((row * 80 + col) * 2 + 1) in
    match colour (Z.shiftr at_ 4), colour (Z.land at_ 15) with
    | Some bg, Some fg =>
      match draw_char gui col row ch bg fg p with Some p' => redraw_cols gui n' row (col + 1) vid p' | None => None end
    | _, _ => None
    end
  end.
Fixpoint redraw_rows (gui : bool) (n : nat) (row : Z) (vid : Z -> Z) (p : surface) : option surface :=
  match n with
  | O => Some p
  | S n' => match redraw_cols gui 80 row 0 vid p with Some p' => redraw_rows gui n' (row + 1) vid p' | None => None end
  end.
Definition video_redraw (gui : bool) (vid : Z -> Z) (p : surface) : option surface := redraw_rows gui 25 0 vid p.
(* vidmem[i] of the running tester *)
Definition vidmem (GM : Z) (a : arch) (i : Z) : Z := gbyte (GM + 0xB8000 + i) a.

(** ** The redraw timer and the event loop: main.c:513-524, 317-323, 480-508 *)
(** The timer runs in its own thread, and each line of it is one step; so is each line of the handler.
    [queued]: redraw requests in SDL's queue.  Other events may fill the queue, and then SDL_PushEvent
    fails, which the code does not check.  Memory is sequentially consistent. *)
Inductive timer_pc : Type := TIdle | TSeen | TMarked.             (* before line 515, before 517, before 520 *)
Inductive main_pc : Type := PIdle | PRedraw | PClear.              (* in the loop, before line 507, before 508 *)
Record gui_st : Type := mkGui { busy : bool; queued : nat; tpc : timer_pc; mpc : main_pc; redraws : nat }.
Definition gui0 : gui_st := mkGui false 0 TIdle PIdle 0.
(** [full]: the queue may be full. *)
Inductive gui_step (full : bool) : gui_st -> gui_st -> Prop :=
| gs_skip g : tpc g = TIdle -> busy g = true -> gui_step full g g                                                       (* line 515: a request is pending *)
| gs_see g : tpc g = TIdle -> busy g = false -> gui_step full g (mkGui (busy g) (queued g) TSeen (mpc g) (redraws g))   (* line 515 *)
| gs_mark g : tpc g = TSeen -> gui_step full g (mkGui true (queued g) TMarked (mpc g) (redraws g))                      (* line 517 *)
| gs_push g : tpc g = TMarked -> gui_step full g (mkGui (busy g) (S (queued g)) TIdle (mpc g) (redraws g))              (* line 520: accepted *)
| gs_lost g : full = true -> tpc g = TMarked -> gui_step full g (mkGui (busy g) (queued g) TIdle (mpc g) (redraws g))   (* line 520: refused *)
| gs_take g n : mpc g = PIdle -> queued g = S n -> gui_step full g (mkGui (busy g) n (tpc g) PRedraw (redraws g))       (* line 319 *)
| gs_draw g : mpc g = PRedraw -> gui_step full g (mkGui (busy g) (queued g) (tpc g) PClear (S (redraws g)))             (* line 507 *)
| gs_clear g : mpc g = PClear -> gui_step full g (mkGui false (queued g) (tpc g) PIdle (redraws g)).                    (* line 508 *)
(** Reachable in some schedule. *)
Inductive gui_runs (full : bool) : gui_st -> gui_st -> Prop :=
| gr_refl g : gui_runs full g g
| gr_step g g1 g2 : gui_runs full g g1 -> gui_step full g1 g2 -> gui_runs full g g2.

(** ** The register part of the change report: main.c:276-298, mini_test.c:144-165 *)
(** gPrevRegisters (all zero at first): 8 general registers, SS, DS, ES, FS, GS, Flags. *)
Definition regs_of (a : arch) : list Z :=
  [getf 0 32 (gprs a); getf 32 32 (gprs a); getf 64 32 (gprs a); getf 96 32 (gprs a); getf 128 32 (gprs a); getf 160 32 (gprs a);
   getf 192 32 (gprs a); getf 224 32 (gprs a); r_ss a; r_ds a; r_es a; r_fs a; r_gs a; r_flags a].
Definition reg_names : list string := ["AX"; "CX"; "DX"; "BX"; "SP"; "BP"; "SI"; "DI"; "SS"; "DS"; "ES"; "FS"; "GS"; "Flags"]%string.
Definition prev0 : list Z := repeat 0 14.
(* CHECK_REG in order: what is printed (name, old, new) and the new contents of gPrevRegisters *)
Fixpoint check_regs (names : list string) (prev cur : list Z) : list (string * Z * Z) * list Z :=
  match names, prev, cur with
  | n :: ns, p :: ps, c :: cs =>
    let '(l, q) := check_regs ns ps cs in
    if p =? c then (l, p :: q) else ((n, p, c) :: l, c :: q)
  | _, _, _ => ([], prev)
  end.
(** The reports of a run: one per successful instruction when DebugLevel >= 1. *)
Fixpoint reg_reports (E : env) (fuel : nat) (prev : list Z) (s : st) : list (list (string * Z * Z)) :=
  match fuel with
  | O => []
  | S k => match run_one E s with
           | Ok _ s' =>
             if 1 <=? dbg s' then let '(l, q) := check_regs reg_names prev (regs_of (ar s')) in l :: reg_reports E k q s'
             else reg_reports E k prev s'
           | _ => []
           end
  end.
