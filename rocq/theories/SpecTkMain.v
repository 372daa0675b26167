(** Specification vocabulary for the test kernel's console and main. *)
From Coq Require Import String Ascii.
From Verif Require Import Base Cpu Spec TkLib SpecTk TkMain.
Local Open Scope Z_scope.

(** ** Port accesses (latest first). *)
(** The bytes written to a port, in order of time. *)
Definition sent (port : Z) (h : list pev) : list Z :=
  rev (flat_map (fun e => match e with POut p v => if p =? port then [v] else [] | PIn _ _ => [] end) h).
(** A byte is given to the serial port only right after the port has said that it can take one (bit 5 of the line status register). *)
Inductive handshake : list pev -> Prop :=
| H_nil : handshake []
| H_other e h : (forall v, e <> POut 0x3F8 v) -> handshake h -> handshake (e :: h)
| H_byte v status h : Z.testbit status 5 = true -> handshake h -> handshake (POut 0x3F8 v :: PIn 0x3FD status :: h).
(** Only the debug port, the serial port and its status are touched. *)
Definition console_only (h : list pev) : Prop :=
  Forall (fun e => match e with POut p _ => p = 0xE9 \/ p = 0x3F8 | PIn p _ => p = 0x3FD end) h.
(** The text t, and nothing else, reaches the debug port and the serial line. *)
Definition shows (t : list Z) (h : list pev) : Prop := sent 0xE9 h = t /\ sent 0x3F8 h = t /\ handshake h /\ console_only h.
(** A serial port answers with status bytes, and is ready for the next byte after at most n refusals. *)
Fixpoint polled (uart : list pev -> Z) (k : nat) (h : list pev) : list pev :=
  match k with O => h | S k' => polled uart k' (PIn 0x3FD (uart h) :: h) end.
Definition status_bytes (uart : list pev -> Z) : Prop := forall h, 0 <= uart h < 256.
Definition ready_within (n : nat) (uart : list pev -> Z) : Prop :=
  forall h, exists k, (k <= n)%nat /\ Z.testbit (uart (polled uart k h)) 5 = true.

(** ** The settings of an 8250/16550 serial port at 0x3F8: which register a write reaches depends on the divisor-latch bit of the line control register. *)
Record line : Type := mkLine { divisor_low : Z; divisor_high : Z; line_control : Z; interrupts : Z; fifo : Z; modem : Z }.
Definition latch (l : line) : bool := Z.testbit (line_control l) 7.
Definition line_write (p v : Z) (l : line) : line :=
  let 'mkLine lo hi lc ie ff mc := l in
  if p =? 0x3F8 then (if latch l then mkLine v hi lc ie ff mc else l)      (* otherwise: a byte to send *)
  else if p =? 0x3F9 then (if latch l then mkLine lo v lc ie ff mc else mkLine lo hi lc v ff mc)
  else if p =? 0x3FA then mkLine lo hi lc ie v mc
  else if p =? 0x3FB then mkLine lo hi v ie ff mc
  else if p =? 0x3FC then mkLine lo hi lc ie ff v
  else l.
Fixpoint line_after (h : list pev) (l : line) : line :=
  match h with [] => l | POut p v :: r => line_write p v (line_after r l) | PIn _ _ :: r => line_after r l end.
Definition baud (l : line) : Z := 115200 / (divisor_low l + 256 * divisor_high l).

(** ** main. *)
(** Memory of bytes; the kernel ends at kend (page aligned, above page 0) and its heap needs fit. *)
Definition byte_values (m : Z -> Z) : Prop := forall x, 0 <= m x < 256.
Definition layout (size kend : Z) : Prop := 4096 <= kend /\ kend mod 4096 = 0 /\ 0 <= size /\ kend + size + 4096 + 16 < 2 ^ 32.
(** The first two words of page 0 as a line of text. *)
Definition words_line (m : Z -> Z) (t : list Z) : Prop :=
  exists x y, number_text 16 (m 0 + 256 * m 1) 0 32 x /\ number_text 16 (m 2 + 256 * m 3) 0 32 y /\ t = x ++ chars " " ++ y ++ nl.
(** What main says about the outcome of the call. *)
Definition verdict (r : out unit) (t : list Z) : Prop :=
  match r with
  | Ok _ s => exists ax, number_text 16 (reg 16 AX (ar s)) 4 48 ax /\
      t = nl ++ chars "--- Emulator exited successfully!" ++ nl ++ chars "emu->AX = 0x" ++ ax ++ nl
  | Err c _ =>
      if c =? E_INVAL then t = nl ++ chars "--- ERROR: Invalid parameters" ++ nl
      else if c =? E_BADMEM then t = nl ++ chars "--- ERROR: Emulator accessed bad memory" ++ nl
      else if c =? E_UNDEF then t = nl ++ chars "--- ERROR: Emulator hit an undefined opcode" ++ nl
      else if c =? E_DIVERR then t = nl ++ chars "--- ERROR: Division Fault" ++ nl
      else exists d, number_text 10 c 0 32 d /\ t = nl ++ chars "--- ERROR: Unknown error " ++ d ++ nl
  | UB _ | Fuel => False
  end.
