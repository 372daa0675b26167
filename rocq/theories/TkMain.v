(** Model of the test kernel's console (testkern/debug.c), and of its main (testkern/main.c). *)
From Coq Require Import String Ascii.
From Verif Require Import Base Cpu Machine TkLib.
Local Open Scope Z_scope.

(** Port accesses of the kernel (lib.c:107-121, the outb of debug.c:30), latest first. *)
Inductive pev : Type := POut (port v : Z) | PIn (port v : Z).
(** [uart h]: what reading the line status register (0x3FD) returns after the accesses h.
    while( (inb(SERIAL_PORT + 5) & 0x20) == 0 ); debug.c:33.  [n] bounds the polls; None = still waiting. *)
Fixpoint k_wait (n : nat) (uart : list pev -> Z) (h : list pev) : option (list pev) :=
  let v := wrap 8 (uart h) in
  let h' := PIn (0x3F8 + 5) v :: h in
  if Z.land v 0x20 =? 0 then match n with O => None | S n' => k_wait n' uart h' end else Some h'.
(** putchar: debug.c:28-38. *)
Definition k_putchar (n : nat) (uart : list pev -> Z) (ch : Z) (h : list pev) : option (list pev) :=
  match k_wait n uart (POut 0xE9 (wrap 8 ch) :: h) with
  | Some h' => Some (POut 0x3F8 (wrap 8 ch) :: h')
  | None => None
  end.
Fixpoint k_putall (n : nat) (uart : list pev -> Z) (t : list Z) (h : list pev) : option (list pev) :=
  match t with
  | [] => Some h
  | c :: r => match k_putchar n uart c h with Some h' => k_putall n uart r h' | None => None end
  end.
(** puts: debug.c:68-77; (accesses, return value). *)
Definition k_puts (n : nat) (uart : list pev -> Z) (t : list Z) (h : list pev) : option (list pev * Z) :=
  match k_putall n uart t h with
  | Some h1 => match k_putchar n uart 10 h1 with Some h2 => Some (h2, Z.of_nat (length t)) | None => None end
  | None => None
  end.
(** Debug_Init: debug.c:15-26. *)
Definition k_debug_init (h : list pev) : list pev :=
  POut (0x3F8 + 4) 0x0B :: POut (0x3F8 + 2) 0xC7 :: POut (0x3F8 + 3) 0x03 :: POut (0x3F8 + 1) 0x00 :: POut (0x3F8 + 0) 0x03 :: POut (0x3F8 + 3) 0x80 :: POut (0x3F8 + 1) 0x00 :: h.
(** The bytes of a C string literal. *)
Fixpoint chars (s : string) : list Z := match s with EmptyString => [] | String c r => Z.of_nat (nat_of_ascii c) :: chars r end.
Definition nl : list Z := [10].
(** printf (TkLib.k_printf gives the characters, each goes through putchar). *)
Definition k_say (n f : nat) (uart : list pev -> Z) (fmt : list Z) (args : list Z) (h : list pev) : option (list pev) :=
  match k_printf f (S (length fmt)) (fun _ => []) fmt args with Some t => k_putall n uart t h | None => None end.
(** A uint16_t in the kernel's memory. *)
Definition kget16 (m : kmem) (x : Z) : Z := m x + 256 * m (wrap 32 (x + 1)).

(** main up to the emulator call: main.c:19-37, heap.c:14-17, rme.c:53-68.  [size] is sizeof(tRME_State), [kend] the address gKernelEnd.
    Result: memory, lowCache and the port accesses. *)
Definition k_setup (n f : nat) (uart : list pev -> Z) (size kend : Z) (m : kmem) (h : list pev) : option (kmem * Z * list pev) :=
  match k_say n f uart (chars "Kernel up and running" ++ nl) [] h with
  | None => None
  | Some h1 =>
    let '(_, heap1, m1) := k_calloc m kend size 1 in
    let '(low, _) := k_malloc heap1 4096 in
    let m2 := k_memcpy m1 low 0 4096 in
    match k_say n f uart (chars "%x %x" ++ nl) [kget16 m2 0; kget16 m2 2] h1 with
    | None => None
    | Some h2 =>
      match k_say n f uart (chars "%x %x" ++ nl) [kget16 m2 low; kget16 m2 (wrap 32 (low + 2))] h2 with
      | None => None
      | Some h3 => Some (m2, low, h3)
      end
    end
  end.
(** The machine main passes to RME_CallInt (main.c:29-42): AX = 0x11, the memory map [tk_map]. *)
Definition tk_machine (debug lowCache : Z) (h : Z -> option Z) : st :=
  let s := create_state debug h in
  let a := ar s in
  set_ar (mkArch 0x11 (r_ss a) (r_ds a) (r_es a) (r_fs a) (r_gs a) (r_cs a) (r_ip a) (r_flags a) (cpu a) (tk_map lowCache) (hle a) (hmem a) (iolog a)) s.
(** switch( ret ), main.c:150-171.  After it main halts for ever (main.c:173-174). *)
Definition k_report (n f : nat) (uart : list pev -> Z) (r : out unit) (h : list pev) : option (list pev) :=
  match r with
  | Ok _ s =>
    match k_say n f uart (nl ++ chars "--- Emulator exited successfully!" ++ nl) [] h with
    | Some h1 => k_say n f uart (chars "emu->AX = 0x%04x" ++ nl) [getf 0 16 (gprs (ar s))] h1
    | None => None
    end
  | Err c _ =>
    if c =? E_INVAL then k_say n f uart (nl ++ chars "--- ERROR: Invalid parameters" ++ nl) [] h
    else if c =? E_BADMEM then k_say n f uart (nl ++ chars "--- ERROR: Emulator accessed bad memory" ++ nl) [] h
    else if c =? E_UNDEF then k_say n f uart (nl ++ chars "--- ERROR: Emulator hit an undefined opcode" ++ nl) [] h
    else if c =? E_DIVERR then k_say n f uart (nl ++ chars "--- ERROR: Division Fault" ++ nl) [] h
    else k_say n f uart (nl ++ chars "--- ERROR: Unknown error %i" ++ nl) [c] h
  | UB _ | Fuel => None
  end.
(** main: main.c:17-175.  [ram]: the addresses with memory; DEBUG is 1 (testkern/rme_config.h:14).
    [chat r]: the port accesses during RME_CallInt (the guest's own and those of the emulator's printing), latest first; not modelled further. *)
Definition k_call (E : env) (fuel : nat) (ram : Z -> bool) (m : kmem) (low : Z) : out unit :=
  call_int E fuel 0x10 (tk_machine 1 low (fun x => if ram x then Some (m x) else None)).
Definition k_main (E : env) (fuel n f : nat) (uart : list pev -> Z) (ram : Z -> bool) (chat : out unit -> list pev) (size kend : Z) (m : kmem) : option (list pev) :=
  match k_setup n f uart size kend m [] with
  | Some (m2, low, h) => let r := k_call E fuel ram m2 low in k_report n f uart r (chat r ++ h)
  | None => None
  end.
