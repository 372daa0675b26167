(** Model of the native tester: nativetest/src/main.c and dosexe.c (ENABLE_GUI = 0, the default,
    except where noted).  gaMemory and the other globals are host memory. *)
From Verif Require Import Base Cpu Machine.

(** How a host callback ends: it returns, calls exit(), waits for input, or is undefined. *)
Inductive nres : Type := NRet (a : arch) | NExit (code : Z) (a : arch) | NWait | NUB.

(** size of gaMemory: main.c:63. *)
Definition GSIZE : Z := 1114112.
Definition hput (x v : Z) (h : Z -> option Z) : Z -> option Z := fun y => if y =? x then Some (wrap 8 v) else h y.

Section Native.
(** Address of gaMemory.  The other globals are at fixed places well after it (the real layout is
    the linker's; all that matters is that they are disjoint). *)
Context (GM : Z).
Definition G_CX := GM + 0x200000.       (* giCursorX *)
Definition G_CY := GM + 0x200004.       (* giCursorY *)
Definition G_ATTR := GM + 0x200008.     (* gCurAttributes *)
Definition G_KPOS := GM + 0x20000C.     (* gKeyBufferPos *)
Definition G_KEYS := GM + 0x200010.     (* gKeyBuffer: 16 entries of 2 bytes *)
(** gaFDDs[0]: None = NULL; otherwise the length and content of the image (opened read only). *)
Context (fdd : option (Z * (Z -> Z))).

(** An int global. *)
Definition gint (p : Z) (a : arch) : Z := match load_bytes 4 (hmem a) p with Some v => sgn 32 v | None => 0 end.
Definition set_gint (p v : Z) (a : arch) : arch := a_hmem (store_bytes 4 p v (hmem a)) a.
(** A byte global. *)
Definition gbyte (p : Z) (a : arch) : Z := match hmem a p with Some v => v | None => 0 end.
Definition set_gbyte (p v : Z) (a : arch) : arch := a_hmem (hput p v (hmem a)) a.
(** gaMemory[i] as an rvalue and an lvalue; None = out of bounds. *)
Definition gget (i : Z) (a : arch) : option Z := if (0 <=? i) && (i <? GSIZE) then hmem a (GM + i) else None.
Definition gput (i v : Z) (a : arch) : option arch :=
  if (0 <=? i) && (i <? GSIZE) then Some (a_hmem (hput (GM + i) v (hmem a)) a) else None.
(** memset/fread of n bytes at &gaMemory[i]; byte k is f k. *)
Definition gfill (i n : Z) (f : Z -> Z) (a : arch) : option arch :=
  if n <=? 0 then Some a
  else if (0 <=? i) && (i + n <=? GSIZE)
       then Some (a_hmem (fun x => if (GM + i <=? x) && (x <? GM + i + n) then Some (wrap 8 (f (x - (GM + i)))) else hmem a x) a)
       else None.
Fixpoint gword (n : nat) (i : Z) (a : arch) : option Z :=
  match n with
  | O => Some 0
  | S n' => match gget i a, gword n' (i + 1) a with Some b, Some r => Some (b + 256 * r) | _, _ => None end
  end.

(** State->xX.B.L, .B.H, .W (positions as in Base.v). *)
Definition P_AX := 0. Definition P_CX := 32. Definition P_DX := 64. Definition P_BX := 96.
Definition P_SP := 128. Definition P_SI := 192. Definition P_DI := 224.
Definition bl (p : Z) (a : arch) : Z := getf p 8 (gprs a).
Definition bh (p : Z) (a : arch) : Z := getf (p + 8) 8 (gprs a).
Definition bw (p : Z) (a : arch) : Z := getf p 16 (gprs a).
Definition set_bl (p v : Z) (a : arch) : arch := a_gprs (setf p 8 v (gprs a)) a.
Definition set_bh (p v : Z) (a : arch) : arch := a_gprs (setf (p + 8) 8 v (gprs a)) a.
Definition set_bw (p v : Z) (a : arch) : arch := a_gprs (setf p 16 v (gprs a)) a.
Definition set_fl (m : Z) (a : arch) : arch := a_flags (Z.lor (r_flags a) m) a.
Definition clr_fl (m : Z) (a : arch) : arch := a_flags (Z.ldiff (r_flags a) m) a.

(** PutChar: main.c:594-625. *)
Definition cell (a : arch) : Z := 0xB8000 + (gint G_CY a * 80 + gint G_CX a) * 2.
Definition put_cell (ch attr : Z) (a : arch) : option arch :=
  match gput (cell a) ch a with
  | Some a1 => gput (cell a1 + 1) attr a1
  | None => None
  end.
Definition put_char (ch attr : Z) (a : arch) : nres :=
  let x := gint G_CX a in let y := gint G_CY a in
  if ch =? 10 then
    if y =? 2147483647 then NUB else NRet (set_gint G_CY (if y + 1 =? 25 then 0 else y + 1) a)
  else if ch =? 13 then NRet (set_gint G_CX 0 a)
  else if ch =? 8 then NRet (if 0 <? x then set_gint G_CX (x - 1) a else a)
  else
    match put_cell ch attr a with
    | None => NUB
    | Some a1 =>
      if x + 1 =? 80
      then NRet (set_gint G_CY (if y + 1 =? 25 then y + 1 - 1 else y + 1) (set_gint G_CX 0 a1))
      else NRet (set_gint G_CX (x + 1) a1)
    end.
(** PutString: main.c:627-632 (Video_Redraw draws nothing without the GUI). *)
Fixpoint put_string (s : list Z) (attr : Z) (a : arch) : nres :=
  match s with
  | [] => NRet a
  | c :: t => match put_char c attr a with NRet a' => put_string t attr a' | r => r end
  end.

(** GetDiskParams: main.c:636-648. *)
Definition disk_params (disk : Z) : option (Z * Z * Z * Z) := if disk =? 0 then Some (4, 80, 2, 18) else None.
(** ReadDiskLBA: main.c:650-678.  Result: return value and state; None = undefined. *)
Definition read_lba (disk lba count i : Z) (a : arch) : option (Z * arch) :=
  if disk =? 0 then
    match fdd with
    | None => None                                         (* fseek(NULL, ...) *)
    | Some (len, img) =>
      if (lba * 512 <? -2147483648) || (2147483647 <? lba * 512) then None   (* int overflow *)
      else if lba * 512 <? 0 then
        match gfill i (512 * count) (fun _ => 0) a with Some a' => Some (0, a') | None => None end
      else
        let n := Z.min (512 * count) (Z.max 0 (len - lba * 512)) in
        match gfill i n (fun k => img (lba * 512 + k)) a with Some a' => Some (n / 512, a') | None => None end
    end
  else Some (0, a).
(** ReadDiskCHS: main.c:680-713. *)
Definition read_chs (disk cyl head sect count i : Z) (a : arch) : option (Z * arch) :=
  match disk_params disk with
  | None => Some (-1, a)
  | Some (_, nc, nh, spt) =>
    if nc <=? cyl then Some (-1, a)
    else if nh <=? head then Some (-1, a)
    else if spt <? sect then Some (-1, a)
    else read_lba disk (cyl * nh * spt + head * spt + sect - 1) count i a
  end.

(** HLECall10: main.c:718-825. *)
(* AL = 0 branch of AH = 06, main.c:755-759 *)
Fixpoint clear_cells (n : nat) (i attr : Z) (a : arch) : option arch :=
  match n with
  | O => Some a
  | S n' => match gput (0xB8000 + i * 2) 0 a with
            | Some a1 => match gput (0xB8000 + i * 2 + 1) attr a1 with Some a2 => clear_cells n' (i + 1) attr a2 | None => None end
            | None => None end
  end.
(* the loop of AH = 09, main.c:777-786 *)
Fixpoint repeat_char (n : nat) (ch attr : Z) (a : arch) : nres :=
  match n with
  | O => NRet a
  | S n' => match put_cell ch attr a with
            | None => NUB
            | Some a1 =>
              if gint G_CX a + 1 =? 25 then NRet a1        (* compares with VIDEO_ROWS; X++ then X-- *)
              else repeat_char n' ch attr (set_gint G_CX (gint G_CX a + 1) a1)
            end
  end.
Definition of_opt (o : option arch) : nres := match o with Some a => NRet a | None => NUB end.
Definition hle10 (a : arch) : nres :=
  let ah := bh P_AX a in let al := bl P_AX a in
  if ah =? 0x00 then if al =? 3 then NRet (set_bl P_AX 0x30 a) else NExit 1 a
  else if ah =? 0x01 then NRet a
  else if ah =? 0x02 then NRet (set_gint G_CY (bh P_DX a) (set_gint G_CX (bl P_DX a) a))
  else if ah =? 0x05 then NRet a
  else if ah =? 0x06 then
    if al =? 0 then of_opt (clear_cells 2000 0 (wrap 8 (bh P_BX a * 256)) a)
    else NRet a                                            (* Video_ScrollUp does nothing *)
  else if ah =? 0x08 then
    match gget (cell a) a, gget (cell a + 1) a with
    | Some c, Some t => NRet (set_bh P_AX t (set_bl P_AX c a))
    | _, _ => NUB
    end
  else if ah =? 0x09 then repeat_char (Z.to_nat (bw P_CX a)) al (bl P_BX a) a
  else if ah =? 0x0E then put_char al (gbyte G_ATTR a) a
  else if ah =? 0x0F then NRet (set_bl P_BX 0 (set_bl P_AX 3 (set_bh P_AX 80 a)))
  else if ah =? 0x10 then
    if bw P_AX a =? 0x1003 then NRet (set_gbyte G_ATTR (Z.lxor (gbyte G_ATTR a) 0x80) a) else NExit 1 a
  else if ah =? 0x12 then NRet (set_bh P_BX 0 a)
  else NExit 1 a.
(** HLECall12: main.c:831-835. *)
Definition hle12 (a : arch) : nres := NRet (set_bw P_AX (0xA0000 / 1024 - 1) a).
(** HLECall13: main.c:840-986 (falls off the end without a return value; the caller ignores it). *)
Definition hle13_read (a : arch) : nres :=
  if Z.land (bl P_AX a) 0x3F =? 0 then NRet (set_fl 1 a)
  else
    let cyl := Z.lor (bh P_CX a) (Z.land (bl P_CX a) 0xC0 * 4) in
    match read_chs (bl P_DX a) cyl (bh P_DX a) (Z.land (bl P_CX a) 0x3F) (bl P_AX a) (r_es a * 16 + bw P_BX a) a with
    | None => NUB
    | Some (r, a1) =>
      if r <? 0 then NRet (set_fl 1 (set_bh P_AX (- r) a1))
      else if negb (r =? bl P_AX a1) then NRet (set_fl 1 (set_bl P_AX r a1))
      else NRet (clr_fl 1 (set_bh P_AX 0 a1))
    end.
Definition hle13_params (a : arch) : nres :=
  let a := clr_fl 1 a in
  match disk_params (bl P_DX a) with
  | None => NRet (set_fl 1 a)
  | Some (type, cyl, heads, sec) =>
    let cyl := cyl - 1 in let heads := heads - 1 in
    let a := set_bw P_AX 0 a in
    let a := set_bl P_BX type a in
    let a := set_bl P_CX (Z.lor sec (cyl / 256 * 64)) a in
    let a := set_bh P_CX (Z.land cyl 255) a in
    let a := set_bl P_DX 1 a in
    let a := set_bh P_DX heads a in
    NRet (set_bw P_DI 0 (a_es 0xF100 a))
  end.
Definition hle13_type (a : arch) : nres :=
  let a := clr_fl 1 a in
  match disk_params (bl P_DX a) with
  | Some (4, cyl, heads, sec) => NRet (set_bw P_DX 0 (set_bw P_CX (sec * heads * cyl) (set_bh P_AX 2 a)))
  | _ => NRet (set_fl 1 (set_bh P_AX 0 a))
  end.
Definition hle13_ext (a : arch) : nres :=
  let p := r_ds a * 16 + bw P_SI a in
  match gword 2 (p + 2) a, gword 2 (p + 4) a, gword 2 (p + 6) a, gword 8 (p + 8) a with
  | Some count, Some ofs, Some seg, Some lba =>
    let laddr := seg * 16 + ofs in
    if 0x110000 <? laddr + count * 512 then NRet (set_bh P_AX 0xBB (set_fl 1 a))
    else match read_lba (bl P_DX a) (sgn 32 lba) count laddr a with
         | Some (_, a1) => NRet (set_bh P_AX 0 (clr_fl 1 a1))
         | None => NUB
         end
  | _, _, _, _ => NUB
  end.
Definition hle13 (a : arch) : nres :=
  let ah := bh P_AX a in
  if ah =? 0x00 then NRet (set_bh P_AX 0 (clr_fl 1 a))
  else if ah =? 0x02 then hle13_read a
  else if ah =? 0x08 then hle13_params a
  else if ah =? 0x15 then hle13_type a
  else if ah =? 0x42 then hle13_ext a
  else NExit 1 a.
(** The key queue. *)
Definition key_scan (i : Z) (a : arch) : Z := gbyte (G_KEYS + 2 * i) a.
Definition key_ascii (i : Z) (a : arch) : Z := gbyte (G_KEYS + 2 * i + 1) a.
(* memmove(gKeyBuffer, gKeyBuffer+1, n*2): main.c:1035 *)
Definition shift_keys (n : Z) (a : arch) : arch :=
  a_hmem (fun x => if (G_KEYS <=? x) && (x <? G_KEYS + 2 * n) then hmem a (x + 2) else hmem a x) a.
(** SDL_KEYDOWN in HandleEvent (GUI builds): main.c:492-505; both fields get keysym.sym. *)
Definition key_down (sym : Z) (a : arch) : nres :=
  let n := gint G_KPOS a in
  if n =? 16 then NRet a
  else if (n <? 0) || (16 <? n) then NUB                   (* outside gKeyBuffer *)
  else NRet (set_gint G_KPOS (n + 1) (set_gbyte (G_KEYS + 2 * n + 1) sym (set_gbyte (G_KEYS + 2 * n) sym a))).
(** HLECall, INT 16h: main.c:1016-1083.  [gui] = ENABLE_GUI: waiting for a key reads events instead
    of leaving the program. *)
Definition hle16 (gui : bool) (a : arch) : nres :=
  let ah := bh P_AX a in
  if ah =? 0x00 then
    if gint G_KPOS a =? 0 then (if gui then NWait else NExit 0 a)
    else
      let a1 := set_bl P_AX (key_ascii 0 a) (set_bh P_AX (key_scan 0 a) a) in
      let n := gint G_KPOS a - 1 in
      if (n <? 0) || (15 <? n) then NUB                    (* memmove outside gKeyBuffer *)
      else NRet (shift_keys n (set_gint G_KPOS n a1))
  else if (ah =? 0x01) || (ah =? 0x11) then
    if 0 <? gint G_KPOS a
    then NRet (clr_fl M_ZF (set_bl P_AX (key_ascii 0 a) (set_bh P_AX (key_scan 0 a) a)))
    else NRet (set_fl M_ZF a)
  else if ah =? 0x02 then NRet (set_bl P_AX 0 a)
  else NExit 1 a.
(** "\r\n[BIOS] Boot Error. Press any key to terminate emulator": main.c:1089. *)
Definition boot_error : list Z :=
  [13; 10; 91; 66; 73; 79; 83; 93; 32; 66; 111; 111; 116; 32; 69; 114; 114; 111; 114; 46; 32;
   80; 114; 101; 115; 115; 32; 97; 110; 121; 32; 107; 101; 121; 32; 116; 111; 32; 116; 101; 114; 109; 105; 110;
   97; 116; 101; 32; 101; 109; 117; 108; 97; 116; 111; 114].
(** HLECall: main.c:991-1111. *)
Definition hle_any (gui : bool) (n : Z) (a : arch) : nres :=
  if n =? 0x03 then NExit 0 a
  else if n =? 0x16 then hle16 gui a
  else if (n =? 0x18) || (n =? 0x19) then
    match put_string boot_error 4 a with NRet a' => NExit 0 a' | r => r end
  else NRet a.
(** Handles of the installed functions: 1 = HLECall, 2 = HLECall10, 3 = HLECall12, 4 = HLECall13. *)
Definition nt_callback (gui : bool) (h n : Z) (a : arch) : nres :=
  if h =? 1 then hle_any gui n a
  else if h =? 2 then hle10 a
  else if h =? 3 then hle12 a
  else if h =? 4 then hle13 a
  else NRet a.
(** main.c:166-172. *)
Definition nt_hle (n : Z) : Z :=
  if n =? 0x03 then 1 else if n =? 0x10 then 2 else if n =? 0x12 then 3 else if n =? 0x13 then 4
  else if (n =? 0x16) || (n =? 0x18) || (n =? 0x19) then 1 else 0.
(** The environment the emulator runs in: callbacks, and ports that read as 0 (main.c:1114-1137).
    A callback that does not return is represented by the unchanged state; theorems that use this
    environment say that the callback returns. *)
Definition nt_ret (a : arch) (r : nres) : arch := match r with NRet a' => a' | _ => a end.
Definition nt_env (gui nullc : bool) : env :=
  mkEnv nullc false (fun _ _ _ => 0)
    (fun h n s => mkSt (nt_ret (ar s) (nt_callback gui h n (ar s))) (dc s) (dbg s) (icount s) (lastnull s)).

(** ** Start-up: main.c:105-273, booting from the floppy image. *)
Fixpoint le_bytes (n : nat) (v : Z) : list Z := match n with O => [] | S n' => v mod 256 :: le_bytes n' (v / 256) end.
(** Memory contents as a function of the index; [mput x l m]: bytes l written at x. *)
Definition mput (x : Z) (l : list Z) (m : Z -> Z) : Z -> Z :=
  fun y => if (x <=? y) && (y <? x + Z.of_nat (length l)) then nth (Z.to_nat (y - x)) l 0 else m y.
Definition mfill (x n v : Z) (m : Z -> Z) : Z -> Z := fun y => if (x <=? y) && (y <? x + n) then v else m y.
(* the interrupt vector table, main.c:134-140 *)
Fixpoint ivt (n : nat) (m : Z -> Z) : Z -> Z :=
  match n with O => m | S n' => mput (Z.of_nat n' * 4) [Z.of_nat n'; 0; 0x00; 0xB8] (ivt n' m) end.
(* the disk parameter block, main.c:142-161: fields of a packed 26-byte structure *)
Definition disk_block (m : Z -> Z) : Z -> Z :=
  let b := 0xF1000 in
  mput (b + 24) (le_bytes 2 512) (mput (b + 16) (le_bytes 8 2880)
  (mput (b + 26 + 12) (le_bytes 4 18) (mput (b + 26 + 8) (le_bytes 4 2) (mput (b + 26 + 4) (le_bytes 4 80)
  (mput (b + 2) (le_bytes 2 1) (mput b (le_bytes 2 0x1A) m)))))).
Definition bios_memory : Z -> Z :=
  disk_block (ivt 256 (mput 0xF0000 [0x67; 201] (mfill 0xB8000 4000 0 (fun _ => 0xF1)))).
(* main.c:270-271 *)
Definition last_word (m : Z -> Z) : Z -> Z := mput (0xA0000 - 2) [255; 255] m.
Definition nt_host (m : Z -> Z) (x : Z) : option Z :=
  if (GM <=? x) && (x <? GM + GSIZE) then Some (m (x - GM))
  else if (G_CX <=? x) && (x <? G_KEYS + 32) then Some (if x =? G_ATTR then 0x0F else 0)
  else None.
(** RME_CreateState's state with the tester's settings (main.c:164-174, 245-247, 255-270). *)
Definition nt_state (debug cpu cs ip ss : Z) (m : Z -> Z) : st :=
  mkSt (mkArch (setf P_SP 16 0xFFFE 0) ss 0 0 0 0 cs ip 2 cpu (fun b => GM + 4096 * b) nt_hle (nt_host m) [])
       (mkDec 0 0 false false false 0) debug 0 false.
(** None = the tester leaves with a message. *)
Definition nt_boot (debug cpu : Z) : option st :=
  match fdd with
  | Some (len, img) =>
    if len <? 512 then None
    else
      let m := fun y => if (0x7C00 <=? y) && (y <? 0x7E00) then img (y - 0x7C00) else bios_memory y in
      if (m 0x7DFE =? 0x55) && (m 0x7DFF =? 0xAA) then Some (nt_state debug cpu 0x07C0 0 0 (last_word m)) else None
  | None => None
  end.
End Native.
