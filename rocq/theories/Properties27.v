(** Property theorems C79, C80: the test kernel's console and main. *)
From Coq Require Import String Ascii.
From Verif Require Import Base Cpu Machine Spec TkLib SpecTk TkMain SpecTkMain PBase PTk PAnyCodes PTkMain Demo Properties2.
Local Open Scope Z_scope.

(** ** C79: the console. *)
(** Whatever is printed reaches the debug port and the serial line byte for byte, in order, each serial byte right after a ready status; no other port is touched. *)
Theorem C79_text n uart t h h' : Forall (fun c => 0 <= c < 256) t -> k_putall n uart t h = Some h' -> exists new, h' = new ++ h /\ shows t new.
Proof. exact (putall_spec n uart t h h'). Qed.
(** With a serial port that becomes ready in bounded time, every text is printed. *)
Theorem C79_completes n uart t h : status_bytes uart -> ready_within n uart -> Forall (fun c => 0 <= c < 256) t -> exists new, k_putall n uart t h = Some (new ++ h) /\ shows t new.
Proof. intros B R. exact (put_shows n uart B R t h). Qed.
Theorem C79_puts n uart t h : status_bytes uart -> ready_within n uart -> Forall (fun c => 0 <= c < 256) t ->
  exists new, k_puts n uart t h = Some (new ++ h, Z.of_nat (length t)) /\ shows (t ++ nl) new.
Proof.
  intros B R F. unfold k_puts. destruct (put_shows n uart B R t h F) as (n1 & E1 & S1). rewrite E1. destruct (put_shows n uart B R nl (n1 ++ h)) as (n2 & E2 & S2); [constructor; [lia|constructor]|].
  unfold nl in E2. cbn [k_putall] in E2. destruct (k_putchar n uart 10 (n1 ++ h)) as [h2|]; [|discriminate]. injection E2 as ->. exists (n2 ++ n1). split; [rewrite <- app_assoc; reflexivity|]. apply shows_app; assumption.
Qed.
(** printf prints what its format and arguments say (C56), through the same console. *)
Theorem C79_printf n f uart items fmt args o h : status_bytes uart -> ready_within n uart -> writes items fmt -> prints (fun _ => []) items args o -> fits items args ->
  Forall (fun c => 0 <= c < 256) o -> exists new, k_say n f uart fmt args h = Some (new ++ h) /\ shows o new.
Proof. intros B R W P F Fo. rewrite (say_ok n f uart items fmt args o h W P F). apply put_shows; assumption. Qed.
(** A serial port that never reports ready stops the kernel at its first character, for ever. *)
Theorem C79_dead_line_refuted uart c t h : status_bytes uart -> (forall h, Z.testbit (uart h) 5 = false) -> forall n, k_putall n uart (c :: t) h = None.
Proof. intros B D n. cbn [k_putall]. unfold k_putchar. rewrite (wait_dead uart B D). reflexivity. Qed.
(** Debug_Init sets up any serial port for 38400 baud, 8 data bits, no parity, one stop bit, FIFO on; its interrupts are disabled
    if it was not in divisor access before. *)
Theorem C79_init l : let l' := line_after (k_debug_init []) l in
  baud l' = 38400 /\ line_control l' = 3 /\ latch l' = false /\ fifo l' = 0xC7 /\ modem l' = 0x0B /\ (latch l = false -> interrupts l' = 0).
Proof.
  cbv zeta. unfold k_debug_init. cbn [line_after]. change (0x3F8 + 1) with 0x3F9.
  assert (H : latch l = false -> interrupts (line_write 0x3F9 0 l) = 0). { destruct l as [lo hi lc ie ff mc]. intros L. cbn [line_write]. rewrite L. reflexivity. }
  generalize dependent (line_write 0x3F9 0 l). intros [lo hi lc ie ff mc] H. cbn [interrupts] in H. split; [reflexivity|]. split; [reflexivity|]. split; [reflexivity|]. split; [reflexivity|]. split; [reflexivity|]. exact H.
Qed.
Theorem C79_init_interrupts_refuted : exists l, 0 < interrupts l /\ interrupts (line_after (k_debug_init []) l) = interrupts l.
Proof. exists (mkLine 0 0 0x80 0x0F 0 0). split; [reflexivity|reflexivity]. Qed.
(** But main never calls it: printing leaves the settings of a serial port (outside divisor access) as they were. *)
Lemma console_keeps l h : latch l = false -> console_only h -> line_after h l = l.
Proof.
  intros L H. induction H as [|e h He H IH]; [reflexivity|]. destruct e as [p v|p v]; cbn [line_after]; rewrite IH; [|reflexivity].
  destruct l as [lo hi lc ie ff mc]. destruct He as [-> | ->]; unfold line_write; [reflexivity|]. rewrite L. reflexivity.
Qed.
(** ** C80: main. *)
(** [C80_call r]: the emulator call came back. *)
Definition returned (r : out unit) : Prop := match r with Ok _ _ | Err _ _ => True | _ => False end.
(** Before the call: the kernel has copied page 0 below the end of its heap, cleared the emulator's state, and changed nothing else; both words
    it prints are those of page 0, twice. *)
Theorem C80_setup n f uart size kend m h : status_bytes uart -> ready_within n uart -> byte_values m -> layout size kend -> exists m2 low line new,
  k_setup n f uart size kend m h = Some (m2, low, new ++ h) /\ words_line m line /\ shows ((chars "Kernel up and running" ++ nl) ++ line ++ line) new /\
  kend + size <= low < kend + size + 8 /\ low + 4096 < 2 ^ 32 /\
  (forall x, 0 <= x < 4096 -> m2 (low + x) = m x) /\ (forall x, kend <= x < kend + size -> m2 x = 0) /\ (forall x, ~ (kend <= x < kend + size) -> ~ (low <= x < low + 4096) -> m2 x = m x).
Proof. intros B R. exact (setup_shows n uart B R f size kend m h). Qed.
(** main prints its banner, the two lines, and - if the emulator call returns - the verdict on it. *)
Theorem C80_main E fuel n f uart ram chat size kend m : status_bytes uart -> ready_within n uart -> byte_values m -> layout size kend -> exists m2 low line before,
  k_setup n f uart size kend m [] = Some (m2, low, before) /\ words_line m line /\ shows ((chars "Kernel up and running" ++ nl) ++ line ++ line) before /\
  let r := k_call E fuel ram m2 low in
  (returned r -> exists t after, k_main E fuel n f uart ram chat size kend m = Some (after ++ chat r ++ before) /\ verdict r t /\ shows t after).
Proof.
  intros B R Bm L. destruct (setup_shows n uart B R f size kend m [] Bm L) as (m2 & low & line & new & E1 & W & S & _). rewrite app_nil_r in E1. exists m2, low, line, new. split; [exact E1|]. split; [exact W|]. split; [exact S|].
  cbv zeta. intros Hr. unfold k_main. rewrite E1. set (r := k_call E fuel ram m2 low) in *.
  destruct (report_shows n uart B R f r (chat r ++ new)) as (t & after & V & E2 & S2).
  { destruct r as [u s|c s|x|] eqn:Er; try exact Hr; try exact I. unfold r, k_call in Er. pose proof (call_int_any E fuel 0x10 _ _ _ Er) as K. cbn [Z.leb Z.compare Pos.compare Pos.compare_cont andb] in K.
    unfold stop_code, E_BADMEM, E_UNDEF, E_BUG, E_BREAK, E_HALT in K. cbn [In] in K. lia. }
  exists t, after. auto.
Qed.
(** The verdict tells the outcomes apart: success with the value of AX, or the error code. *)
Theorem C80_verdict_identifies r r' t : verdict r t -> verdict r' t ->
  match r, r' with Ok _ s, Ok _ s' => reg 16 AX (ar s) = reg 16 AX (ar s') | Err c _, Err c' _ => c = c' | _, _ => False end.
Proof.
  intros V V'. pose proof (verdict_inj r r' t V V') as H. destruct r as [u s|c s|x|]; destruct r' as [u' s'|c' s'|x'|]; cbn [outcome] in H; try discriminate; try (injection H; auto); contradiction.
Qed.
(** Of the error messages only four can ever appear: bad memory, undefined opcode, and "Unknown error" 6, 7 or 8. *)
Theorem C80_messages E fuel ram m low c s : k_call E fuel ram m low = Err c s -> c = E_BADMEM \/ c = E_UNDEF \/ 6 <= c <= 8.
Proof.
  unfold k_call. intros H. pose proof (call_int_any E fuel 0x10 _ _ _ H) as K. cbn [Z.leb Z.compare Pos.compare Pos.compare_cont andb] in K.
  unfold stop_code, E_BADMEM, E_UNDEF, E_BUG, E_BREAK, E_HALT in *. cbn [In] in K. lia.
Qed.
(** The machine the guest starts on: AX = 0x11, page 0 is the copy, 1000-FFFFF host memory. *)
Theorem C80_guest_page0 n f uart size kend m (ram : Z -> bool) : status_bytes uart -> ready_within n uart -> byte_values m -> layout size kend ->
  exists m2 low before, k_setup n f uart size kend m [] = Some (m2, low, before) /\
  let a := ar (tk_machine 1 low (fun x => if ram x then Some (m2 x) else None)) in
  reg 16 AX a = 0x11 /\ mtab a 0 = low /\ (forall x, 0 <= x < 4096 -> ram (low + x) = true -> hmem a (mtab a 0 + x) = Some (m x)) /\
  (forall x, 4096 <= x < 0x100000 -> x < kend -> ram x = true -> hmem a (mtab a (x / 4096) + x mod 4096) = Some (m x)).
Proof.
  intros B R Bm L. destruct (setup_shows n uart B R f size kend m [] Bm L) as (m2 & low & line & new & E1 & _ & _ & L1 & L2 & M1 & M2 & M3). exists m2, low, (new ++ []). split; [exact E1|]. cbv zeta. cbn [tk_machine set_ar create_state ar mtab hmem].
  split; [reflexivity|]. split; [reflexivity|]. split.
  - intros x Hx Hr. change (tk_map low 0) with low. rewrite Hr, M1 by lia. reflexivity.
  - intros x Hx Hk Hr. unfold tk_map. replace (x / 4096 =? 0) with false by lia. replace (x / 4096 <? 256) with true by lia. replace (x / 4096 * 4096 + x mod 4096) with x by lia. rewrite Hr. f_equal. destruct L as (_ & _ & L3 & _). apply M3; lia.
Qed.
(** The serial line keeps whatever settings it had: main does not set it up. *)
Theorem C79_never_initialised E fuel n f uart ram chat size kend m h l : status_bytes uart -> ready_within n uart -> byte_values m -> layout size kend ->
  (forall r, chat r = []) -> k_main E fuel n f uart ram chat size kend m = Some h -> latch l = false -> line_after h l = l.
Proof.
  intros B R Bm L C H Hl. destruct (C80_main E fuel n f uart ram chat size kend m B R Bm L) as (m2 & low & line & before & E1 & W & S & K). cbv zeta in K.
  unfold k_main in H. rewrite E1 in H. apply console_keeps; [exact Hl|].
  assert (Hr : returned (k_call E fuel ram m2 low)) by (destruct (k_call E fuel ram m2 low); cbn [k_report] in H; try discriminate; exact I).
  destruct (K Hr) as (t & after & E2 & _ & S2). unfold k_main in E2. rewrite E1, H in E2. injection E2 as ->. rewrite C. apply Forall_app. split; [apply S2|apply S].
Qed.
(** A machine whose INT 10h handler at B000:0000 is INC AX; IRET. *)
Definition k_mem : Z -> Z := fun x => if x =? 0xB0000 then 0x40 else if x =? 0xB0001 then 0xCF else if x =? 0x43 then 0xB0 else if x =? 0 then 0x53 else if x =? 1 then 0xFF else 0.
Definition k_uart (h : list pev) : Z := match h with PIn _ _ :: _ => 0x60 | _ => 0x40 end.
Lemma k_uart_ok : status_bytes k_uart /\ ready_within 1 k_uart.
Proof.
  split; [intros h; unfold k_uart; destruct h as [|[] ?]; lia|]. intros h. destruct h as [|[p v|p v] h]; [exists 1%nat|exists 1%nat|exists 0%nat]; (split; [lia|reflexivity]).
Qed.
Lemma k_layout : byte_values k_mem /\ layout 2000 0x110000.
Proof.
  split; [intros x; unfold k_mem; repeat (match goal with |- context [if ?b then _ else _] => destruct b end; [lia|]); lia|]. unfold layout. repeat split; vm_compute; try reflexivity; discriminate.
Qed.
Definition k_text : list Z :=
  (chars "Kernel up and running" ++ nl) ++ (chars "FF53 0" ++ nl) ++ (chars "FF53 0" ++ nl) ++ nl ++ chars "--- Emulator exited successfully!" ++ nl ++ chars "emu->AX = 0x0012" ++ nl.
Definition same_text (a b : list Z) : bool := if list_eq_dec Z.eq_dec a b then true else false.
Example C80_case : exists h, k_main checked_env 10 1 0 k_uart (fun _ => true) (fun _ => []) 2000 0x110000 k_mem = Some h /\ sent 0xE9 h = k_text /\ sent 0x3F8 h = k_text.
Proof.
  assert (K : match k_main checked_env 10 1 0 k_uart (fun _ => true) (fun _ => []) 2000 0x110000 k_mem with Some h => same_text (sent 0xE9 h) k_text && same_text (sent 0x3F8 h) k_text | None => false end = true) by (vm_compute; reflexivity).
  destruct (k_main _ _ _ _ _ _ _ _ _ _) as [h|]; [|discriminate]. exists h. split; [reflexivity|]. apply andb_prop in K. unfold same_text in K.
  destruct (list_eq_dec Z.eq_dec (sent 233 h) k_text); [|destruct K; discriminate]. destruct (list_eq_dec Z.eq_dec (sent 1016 h) k_text); [|destruct K; discriminate]. auto.
Qed.
Theorem C79_initialised_refuted : exists h, k_main checked_env 10 1 0 k_uart (fun _ => true) (fun _ => []) 2000 0x110000 k_mem = Some h /\
  exists l, baud l = 9600 /\ line_control l = 0x1B /\ line_after h l = l.
Proof.
  destruct C80_case as (h & E & _). exists h. split; [exact E|]. exists (mkLine 12 0 0x1B 0 0 0). split; [reflexivity|]. split; [reflexivity|]. destruct k_uart_ok as [B R]. destruct k_layout as [Bm L].
  exact (C79_never_initialised _ _ _ _ _ _ _ _ _ _ h (mkLine 12 0 0x1B 0 0 0) B R Bm L (fun _ => eq_refl) E eq_refl).
Qed.
Print Assumptions C79_text.
Print Assumptions C79_completes.
Print Assumptions C79_puts.
Print Assumptions C79_printf.
Print Assumptions C79_dead_line_refuted.
Print Assumptions C79_init.
Print Assumptions C79_init_interrupts_refuted.
Print Assumptions C79_never_initialised.
Print Assumptions C79_initialised_refuted.
Print Assumptions C80_setup.
Print Assumptions C80_main.
Print Assumptions C80_verdict_identifies.
Print Assumptions C80_messages.
Print Assumptions C80_guest_page0.
