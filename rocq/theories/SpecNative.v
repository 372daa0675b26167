(** Specification vocabulary for the native tester's BIOS services. *)
From Verif Require Import Base Spec Native.

(** [a'] is [a] except for host memory at addresses in P. *)
Definition only_memory (P : Z -> Prop) (a a' : arch) : Prop :=
  a' = a_hmem (hmem a') a /\ forall x, ~ P x -> hmem a' x = hmem a x.
(** Host addresses of the n bytes of guest memory from linear address p (flat map at [base]). *)
Definition guest (base p n x : Z) : Prop := base + p <= x < base + p + n.
(** The text screen: 80x25 cells of character and attribute at B800:0000. *)
Definition SCREEN : Z := 0xB8000.
Definition cell_at (x y : Z) : Z := SCREEN + 2 * (80 * y + x).
Definition on_screen (x y : Z) : Prop := 0 <= x < 80 /\ 0 <= y < 25.

(** A terminal: cursor and contents. *)
Record term : Type := mkTerm { tx : Z; ty : Z; scr : Z -> Z -> Z * Z }.
Definition draw (c attr : Z) (t : term) : term :=
  mkTerm (tx t) (ty t) (fun x y => if (x =? tx t) && (y =? ty t) then (c, attr) else scr t x y).
(** Move down one line, scrolling at the bottom. *)
Definition down (attr : Z) (t : term) : term :=
  if ty t =? 24 then mkTerm (tx t) 24 (fun x y => if y =? 24 then (32, attr) else scr t x (y + 1))
  else mkTerm (tx t) (ty t + 1) (scr t).
(** INT 10h AH=0Eh as the BIOS defines it (without BEL). *)
Definition teletype (c attr : Z) (t : term) : term :=
  if c =? 10 then down attr t
  else if c =? 13 then mkTerm 0 (ty t) (scr t)
  else if c =? 8 then mkTerm (Z.max 0 (tx t - 1)) (ty t) (scr t)
  else let t1 := draw c attr t in
       if tx t =? 79 then down attr (mkTerm 0 (ty t) (scr t1)) else mkTerm (tx t + 1) (ty t) (scr t1).
(** The cases in which it scrolls. *)
Definition needs_scroll (c : Z) (t : term) : bool :=
  (ty t =? 24) && ((c =? 10) || ((tx t =? 79) && negb (c =? 13) && negb (c =? 8))).

(** Floppy addressing. *)
Definition HEADS : Z := 2. Definition SECTORS : Z := 18. Definition CYLINDERS : Z := 80.
Definition lba_of (cyl head sect : Z) : Z := (cyl * HEADS + head) * SECTORS + (sect - 1).
(** CH, CL as INT 13h packs them. *)
Definition cx_cyl (ch cl : Z) : Z := ch + 256 * (cl / 64).
Definition cx_sect (cl : Z) : Z := cl mod 64.

(** Bounded key queue. *)
Definition QMAX : nat := 16.
Definition enqueue (k : Z) (q : list Z) : list Z := if Nat.ltb (length q) QMAX then q ++ [k] else q.
(** Byte registers by name. *)
Notation AL := 0 (only parsing). Notation CL := 1 (only parsing). Notation DL := 2 (only parsing). Notation BL := 3 (only parsing).
Notation AH := 4 (only parsing). Notation CH := 5 (only parsing). Notation DH := 6 (only parsing). Notation BH := 7 (only parsing).
(** Memory after n bytes given by f (of the offset) are stored at linear address p. *)
Definition stored (p n : Z) (f : Z -> Z) (a a' : arch) : Prop :=
  (forall x, 0 <= x < 1114112 -> byte a' x = if (p <=? x) && (x <? p + n) then f (x - p) else byte a x).
(** The cylinder/head/sector address in CX, DH exists on the disk. *)
Definition chs_valid (a : arch) : Prop :=
  cx_cyl (reg 8 CH a) (reg 8 CL a) < CYLINDERS /\ reg 8 DH a < HEADS /\ 1 <= cx_sect (reg 8 CL a) <= SECTORS.
Definition chs_lba (a : arch) : Z := lba_of (cx_cyl (reg 8 CH a) (reg 8 CL a)) (reg 8 DH a) (cx_sect (reg 8 CL a)).
(** A disk image: length and bytes. *)
Definition image_ok (d : Z * (Z -> Z)) : Prop := 0 <= fst d /\ forall k, 0 <= k < fst d -> 0 <= snd d k < 256.

(** ** Keyboard: what a program sees of the key queue *)
Inductive kev : Type :=
| KDown (sym : Z)      (* the user presses a key *)
| KRead                (* INT 16h AH=00 *)
| KPeek.               (* INT 16h AH=01 *)
(** Result of a read or peek: AL, or none (the read would wait; the peek reports ZF). *)
Definition fifo (e : kev) (q : list Z) : list Z * option Z :=
  match e with
  | KDown s => (enqueue (s mod 256) q, None)
  | KRead => match q with [] => ([], None) | k :: q' => (q', Some k) end
  | KPeek => (q, hd_error q)
  end.
Fixpoint fifo_run (es : list kev) (q : list Z) : list Z * list (option Z) :=
  match es with
  | [] => (q, [])
  | e :: es' => let (q1, r) := fifo e q in let (q2, rs) := fifo_run es' q1 in (q2, r :: rs)
  end.

(** ** The tester's memory and state *)
Definition isbyte (o : option Z) : Prop := exists b, o = Some b /\ 0 <= b < 256.
Section Tester.
Context (GM : Z).
(** The small global variables, and among them the cursor position. *)
Definition global (x : Z) : Prop := GM + 0x200000 <= x < GM + 0x200030.
Definition cursor (x : Z) : Prop := GM + 0x200000 <= x < GM + 0x200008.
(** Memory of the tester: gaMemory and the small globals. *)
Definition tester (x : Z) : Prop := guest GM 0 1114112 x \/ global x.
Definition host_ok (a : arch) : Prop := forall x, tester x -> isbyte (hmem a x).
(** What a service may change: AX BX CX DX DI ES, CF and ZF, guest memory and the globals; registers
    stay within their types. *)
Record svc (a a' : arch) : Prop := mkSvc {
  sv_ss : r_ss a' = r_ss a; sv_ds : r_ds a' = r_ds a; sv_fs : r_fs a' = r_fs a; sv_gs : r_gs a' = r_gs a;
  sv_cs : r_cs a' = r_cs a; sv_ip : r_ip a' = r_ip a;
  sv_cpu : cpu a' = cpu a; sv_mtab : mtab a' = mtab a; sv_hle : hle a' = hle a; sv_io : iolog a' = iolog a;
  sv_regs : forall n, n = 4 \/ n = 5 \/ n = 6 -> gpr n a' = gpr n a;
  sv_flags : forall j, 0 <= j -> j <> 0 -> j <> 6 -> flag j (r_flags a') = flag j (r_flags a);
  sv_mem : forall x, ~ tester x -> hmem a' x = hmem a x;
  sv_host : host_ok a -> host_ok a';
  sv_wf : wf_regs a -> wf_regs a'
}.
(** Screen memory; cursor on the screen; the screen shows a terminal's contents. *)
Definition screen (x : Z) : Prop := GM + SCREEN <= x < GM + SCREEN + 4000.
Definition screen_or_cursor (x : Z) : Prop := screen x \/ cursor x.
Definition cursor_ok (a : arch) : Prop := on_screen (gint (G_CX GM) a) (gint (G_CY GM) a).
Definition scr_is (a : arch) (f : Z -> Z -> Z * Z) : Prop :=
  forall x y, on_screen x y -> hmem a (GM + cell_at x y) = Some (fst (f x y)) /\ hmem a (GM + (cell_at x y + 1)) = Some (snd (f x y)).
Definition shows (a : arch) (t : term) : Prop := gint (G_CX GM) a = tx t /\ gint (G_CY GM) a = ty t /\ scr_is a (scr t).
(** Key queue contents q (oldest first). *)
Definition queue (a : arch) (q : list Z) : Prop :=
  (length q <= 16)%nat /\ gint (G_KPOS GM) a = Z.of_nat (length q) /\
  forall i k, nth_error q i = Some k -> 0 <= k < 256 /\ hmem a (G_KEYS GM + 2 * Z.of_nat i) = Some k /\ hmem a (G_KEYS GM + 2 * Z.of_nat i + 1) = Some k.
(** A history of key presses and queries. *)
Definition kstep (e : kev) (a : arch) : nres * option Z :=
  match e with
  | KDown s => (key_down GM s a, None)
  | KRead => match hle16 GM true (with_reg 8 AH 0 a) with NRet a' => (NRet a', Some (reg 8 AL a')) | NWait => (NRet a, None) | r => (r, None) end
  | KPeek => match hle16 GM true (with_reg 8 AH 1 a) with NRet a' => (NRet a', if flag ZF (r_flags a') then None else Some (reg 8 AL a')) | r => (r, None) end
  end.
Fixpoint krun (es : list kev) (a : arch) : option (arch * list (option Z)) :=
  match es with
  | [] => Some (a, [])
  | e :: es' => match kstep e a with
                | (NRet a1, r) => match krun es' a1 with Some (a2, rs) => Some (a2, r :: rs) | None => None end
                | _ => None end
  end.
(** INT 10h AH=0Eh for every character of a text; the other registers as they come. *)
Definition tty (c : Z) (a : arch) : nres := hle10 GM (with_reg 16 AX (0x0E00 + c) a).
Fixpoint ttys (s : list Z) (a : arch) : nres :=
  match s with [] => NRet a | c :: t => match tty c a with NRet a' => ttys t a' | r => r end end.
End Tester.
(** Ordinary characters. *)
Definition plain (c : Z) : Prop := c <> 10 /\ c <> 13 /\ c <> 8.
(** The disk address packet of INT 13h AH=42h at DS:SI. *)
Definition dap_count (a : arch) : Z := mem 16 a (lin (r_ds a) (reg 16 SI a) + 2).
Definition dap_buffer (a : arch) : Z := lin (mem 16 a (lin (r_ds a) (reg 16 SI a) + 6)) (mem 16 a (lin (r_ds a) (reg 16 SI a) + 4)).
Definition dap_lba (a : arch) : Z := peek 8 a (lin (r_ds a) (reg 16 SI a) + 8).
(** INT 13h AH=08h for drive 0: AX=0, BL=4, CX = cylinder 79 sector 18, DX = head 1, 1 drive, ES:DI=F100:0000, CF clear. *)
Definition params_result (a : arch) : arch :=
  with_reg 16 DI 0 (a_es 0xF100 (with_reg 8 DH 1 (with_reg 8 DL 1 (with_reg 8 CH 79 (with_reg 8 CL 18 (with_reg 8 BL 4 (with_reg 16 AX 0 (a_flags (put CF false (r_flags a)) a)))))))).
