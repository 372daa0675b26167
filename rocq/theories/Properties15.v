(** Property theorems C58-C62: the native tester's BIOS (nativetest/src/main.c). *)
From Verif Require Import Base Cpu Ops Machine Spec SpecOps SpecOps2 SpecSys SpecRun SpecTop Native SpecNative PBase PMem PRun PExec PIInt PSmall6 PNative PNative2 PNative3 PNative4 PNative5 PNative6 PNative7 Demo.

Definition np : pfx := mkPfx None false false 0.
(** A bootable 1.44 MB image: INT 12h at offset 0, a pattern elsewhere. *)
Definition fimg (k : Z) : Z := if k =? 0 then 0xCD else if k =? 1 then 0x12 else if k =? 510 then 0x55 else if k =? 511 then 0xAA else k mod 251.
Definition floppy : option (Z * (Z -> Z)) := Some (1474560, fimg).
Lemma fimg_byte k : 0 <= fimg k < 256.
Proof. unfold fimg. repeat (destruct (_ =? _); [lia|]). lia. Qed.
Lemma floppy_ok : image_ok (1474560, fimg). Proof. split; cbn [fst snd]; [lia|]. intros. apply fimg_byte. Qed.
Definition E0 : env := nt_env HB floppy false false.
Definition booted : st := nt_state HB 0 2 0x07C0 0 0 (boot_memory fimg).
Lemma booted_flat : flat E0 HB (ar booted).
Proof. apply nt_flat; [unfold HB; lia|discriminate|]. exact (boot_memory_byte HB fimg (fun k _ => fimg_byte k)). Qed.
Lemma booted_wf : wf_regs (ar booted). Proof. apply nt_wf; lia. Qed.
(** The booted machine with AX, BX, CX, DX, ... set. *)
Definition with_regs (ax bx cx_ dx : Z) : arch := a_gprs (ax + cx_ * 2 ^ 32 + dx * 2 ^ 64 + bx * 2 ^ 96 + 0xFFFE * 2 ^ 128) (ar booted).
Lemma with_regs_flat ax bx c d : flat E0 HB (with_regs ax bx c d). Proof. pose proof booted_flat. unfold with_regs. auto with flat. Qed.
Lemma with_regs_wf ax bx c d : 0 <= ax < 65536 -> 0 <= bx < 65536 -> 0 <= c < 65536 -> 0 <= d < 65536 -> wf_regs (with_regs ax bx c d).
Proof. intros. destruct booted_wf. constructor; auto. cbn [with_regs a_gprs gprs]. lia. Qed.

(** ** C58: start-up and dispatch of BIOS calls. *)
Theorem C58_boot GM fdd gui nullc debug cp len img : 0 <= GM -> (nullc = true -> GM <> 0) -> fdd = Some (len, img) ->
  512 <= len -> (forall k, 0 <= k < 512 -> 0 <= img k < 256) -> img 510 = 0x55 -> img 511 = 0xAA ->
  exists s, nt_boot GM fdd debug cp = Some s /\ ready (nt_env GM fdd gui nullc) GM s /\ wf_state s /\ host_ok GM (ar s) /\
    hle (ar s) = nt_hle /\ r_cs (ar s) = 0x07C0 /\ r_ip (ar s) = 0 /\ r_ss (ar s) = 0 /\ cpu (ar s) = cp /\
    (forall n, 0 <= n < 8 -> reg 16 n (ar s) = if n =? SP then 0xFFFE else 0) /\
    (forall k, 0 <= k < 512 -> byte (ar s) (0x7C00 + k) = img k) /\
    (forall n, 0 <= n < 256 -> vector n (ar s) = (0xB800, n)) /\
    (forall x, 0xB8000 <= x < 0xB8000 + 2 * 80 * 25 -> byte (ar s) x = 0) /\
    (forall x, 0x400 <= x < 0x7C00 \/ 0x7E00 <= x < 0x9FFFE -> byte (ar s) x = 0xF1).
Proof. exact (boot_ok GM fdd gui nullc debug cp len img). Qed.
Theorem C58_unbootable GM fdd debug cp : nt_boot GM fdd debug cp = None <->
  match fdd with Some (len, img) => len < 512 \/ img 510 <> 0x55 \/ img 511 <> 0xAA | None => True end.
Proof. exact (boot_refused GM fdd debug cp). Qed.
(** INT n whose vector is still B800:n runs the service and continues behind the INT, with the flags
    the service left. *)
Theorem C58_service GM fdd gui nullc s pre p bs n a' : fetched (nt_env GM fdd gui nullc) GM s pre p bs -> int_number bs = Some n ->
  (bs = [0xCE] -> flag OF (r_flags (ar s)) = true) -> vector n (ar s) = (0xB800, n) -> host_ok GM (ar s) -> hle (ar s) = nt_hle -> nt_hle n <> 0 ->
  nt_callback GM fdd gui (nt_hle n) n (ar s) = NRet a' ->
  executes_to (nt_env GM fdd gui nullc) s (pre ++ bs) (a_ip ((r_ip (ar s) + blen (pre ++ bs)) mod 65536) a').
Proof. exact (service_call GM fdd gui nullc s pre p bs n a'). Qed.
(** Interrupts without a service are ignored. *)
Theorem C58_no_service GM fdd gui nullc s pre p bs n : fetched (nt_env GM fdd gui nullc) GM s pre p bs -> int_number bs = Some n ->
  (bs = [0xCE] -> flag OF (r_flags (ar s)) = true) -> vector n (ar s) = (0xB800, n) -> hle (ar s) = nt_hle -> nt_hle n = 0 ->
  executes_to (nt_env GM fdd gui nullc) s (pre ++ bs) (a_ip ((r_ip (ar s) + blen (pre ++ bs)) mod 65536) (ar s)).
Proof. exact (service_none GM fdd gui nullc s pre p bs n). Qed.
(** Whatever service it is: SS DS FS GS CS IP SP BP SI and all flags but CF and ZF are kept, and only
    guest memory and the tester's own variables are written. *)
Theorem C58_service_frame GM fdd gui h n a a' : nt_callback GM fdd gui h n a = NRet a' -> svc GM a a'.
Proof. exact (svc_callback GM fdd gui h n a a'). Qed.
Theorem C58_memory_size GM fdd gui n a : nt_callback GM fdd gui (nt_hle 0x12) n a = NRet (with_reg 16 AX 639 a).
Proof. change (NRet (set_bw P_AX 639 a) = NRet (with_reg 16 AX 639 a)). rewrite sAX by lia. reflexivity. Qed.
Lemma booted_fetched : fetched E0 HB booted [] np [0xCD; 0x12].
Proof.
  split; [|split; [reflexivity|]].
  - constructor; [apply booted_flat|apply booted_wf|unfold normal_pc; cbn; lia|cbn; lia].
  - split; [vm_compute; discriminate|]. intros i b Hi. change ([] ++ [205; 18]) with [205; 18] in Hi.
    assert (Hk : (i < 2)%nat) by (apply (proj1 (nth_error_Some [205; 18] i)); congruence). assert (i = 0%nat \/ i = 1%nat) as [->| ->] by lia.
    + unfold pc. cbn [booted nt_state ar r_cs r_ip]. injection Hi as <-. vm_compute. reflexivity.
    + unfold pc. cbn [booted nt_state ar r_cs r_ip]. injection Hi as <-. vm_compute. reflexivity.
Qed.
Example C58_case : nt_boot HB floppy 0 2 = Some booted /\ fetched E0 HB booted [] np [0xCD; 0x12] /\ int_number [0xCD; 0x12] = Some 0x12 /\
  vector 0x12 (ar booted) = (0xB800, 0x12) /\ host_ok HB (ar booted) /\ hle (ar booted) = nt_hle /\ nt_hle 0x12 <> 0.
Proof.
  split; [rewrite nt_boot_eq; reflexivity|]. split; [apply booted_fetched|]. split; [reflexivity|]. split; [vm_compute; reflexivity|].
  split; [apply nt_host_ok; exact (boot_memory_byte HB fimg (fun k _ => fimg_byte k))|]. split; [reflexivity|]. discriminate.
Qed.
(** Refuted: the table that INT 13h AH=08h points to (F100:0000) holds the geometry.  The fields are
    written to element [1] of the array, so the table says F1F1F1F1 cylinders. *)
Theorem C58_disk_table_refuted GM fdd debug cp s : nt_boot GM fdd debug cp = Some s -> mem 32 (ar s) 0xF1004 = 0xF1F1F1F1.
Proof.
  rewrite nt_boot_eq. destruct fdd as [[len img]|]; [|discriminate]. destruct (_ && _); [|discriminate]. intros [= <-].
  unfold mem. change (Z.to_nat (32 / 8)) with 4%nat. cbn [peek]. rewrite !nt_byte, !boot_memory_bios by lia. vm_compute. reflexivity.
Qed.
(** Refuted: a handler that hooks an interrupt and chains to the old vector sees the service's flags.
    Entered at B800:n, the flags come from the stack, whatever the service set. *)
Theorem C58_chained_flags_refuted GM fdd gui nullc s n a' : r_cs (ar s) = 0xB800 -> r_ip (ar s) = n -> 0 <= n < 256 ->
  hle (ar s) = nt_hle -> nt_hle n <> 0 -> nt_callback GM fdd gui (nt_hle n) n (ar s) = NRet a' ->
  flat (nt_env GM fdd gui nullc) GM (ar s) -> wf_regs (ar s) -> host_ok GM (ar s) ->
  exists s', run_one (nt_env GM fdd gui nullc) s = Ok tt s' /\ r_flags (ar s') = stack_word 2 a' /\ r_cs (ar s') = stack_word 1 a' /\ r_ip (ar s') = stack_word 0 a'.
Proof.
  intros H1 H2 Hn Hl Hz Hc F W Hh. pose proof (svc_callback _ _ _ _ _ _ _ Hc) as V.
  set (f := fun h n a => nt_ret a (nt_callback GM fdd gui h n a)).
  assert (E : hle_effect f n (ar s) = a') by (unfold hle_effect, f; rewrite Hl; replace (nt_hle n =? 0) with false by lia; rewrite Hc; reflexivity).
  destruct (hle_entry (nt_env GM fdd gui nullc) GM f s n) as (s' & R & S & _); try assumption.
  - apply nt_callbacks.
  - rewrite E. eapply svc_flat; eauto.
  - rewrite E. apply (sv_wf _ _ _ V W).
  - rewrite E in S. exists s'. split; [exact R|]. rewrite (sm_flags _ _ S), (sm_cs _ _ S), (sm_ip _ _ S). unfold iret, far. cbv zeta. cbn [a_flags a_cs a_ip r_flags r_cs r_ip].
    rewrite !top16_word by (apply reg_range; auto with width; lia). rewrite !word_drop. auto.
Qed.
Print Assumptions C58_boot. Print Assumptions C58_unbootable. Print Assumptions C58_service. Print Assumptions C58_no_service. Print Assumptions C58_service_frame. Print Assumptions C58_memory_size.
Print Assumptions C58_disk_table_refuted. Print Assumptions C58_chained_flags_refuted.

(** ** C59: text output through INT 10h. *)
(** AH=0Eh behaves as the BIOS teletype, as long as the screen need not scroll. *)
Theorem C59_teletype_partial GM a T : reg 8 AH a = 0x0E -> 0 <= gbyte (G_ATTR GM) a < 256 -> on_screen (tx T) (ty T) -> shows GM a T ->
  let c := reg 8 AL a in let attr := gbyte (G_ATTR GM) a in needs_scroll c T = false ->
  exists a', hle10 GM a = NRet a' /\ shows GM a' (teletype c attr T) /\ on_screen (tx (teletype c attr T)) (ty (teletype c attr T)) /\ only_memory (screen_or_cursor GM) a a'.
Proof. intros H Ht Ho Hs. cbv zeta. intros Hn. rewrite tty_eq by exact H. apply teletype_ok; try assumption. apply reg8_range. lia. Qed.
(** A text of any length and content, from any position on the screen, stays within screen memory. *)
Theorem C59_text_safe GM s : Forall (fun c => 0 <= c < 256) s -> forall a, cursor_ok GM a ->
  exists a', ttys GM s a = NRet a' /\ cursor_ok GM a' /\ (forall x, ~ screen_or_cursor GM x -> hmem a' x = hmem a x).
Proof. exact (ttys_ok GM s). Qed.
Theorem C59_set_cursor GM a : reg 8 AH a = 2 -> exists a', hle10 GM a = NRet a' /\ gint (G_CX GM) a' = reg 8 DL a /\ gint (G_CY GM) a' = reg 8 DH a /\ only_memory (cursor GM) a a'.
Proof. exact (set_cursor GM a). Qed.
Theorem C59_read_cell GM E a T : flat E GM a -> reg 8 AH a = 8 -> on_screen (tx T) (ty T) -> shows GM a T ->
  (forall x y, 0 <= fst (scr T x y) < 256 /\ 0 <= snd (scr T x y) < 256) ->
  hle10 GM a = NRet (with_reg 8 AH (snd (scr T (tx T) (ty T))) (with_reg 8 AL (fst (scr T (tx T) (ty T))) a)).
Proof. exact (read_cell GM E a T). Qed.
(** AH=06h AL=0 blanks the whole screen (BH and the window in CX, DX are ignored). *)
Theorem C59_clear_partial GM a : reg 8 AH a = 6 -> reg 8 AL a = 0 -> exists a', hle10 GM a = NRet a' /\ only_memory (screen GM) a a' /\ scr_is GM a' (fun _ _ => (0, 0)).
Proof. exact (clear_screen GM a). Qed.
(** AH=09h, as long as the characters end before column 25 (!): they are written; the cursor moves. *)
Theorem C59_repeat_partial GM a : reg 8 AH a = 9 -> 0 <= gint (G_CX GM) a -> 0 <= gint (G_CY GM) a < 25 -> gint (G_CX GM) a + reg 16 CX a < 25 ->
  exists a', hle10 GM a = NRet a' /\ gint (G_CX GM) a' = gint (G_CX GM) a + reg 16 CX a /\ gint (G_CY GM) a' = gint (G_CY GM) a /\ only_memory (screen_or_cursor GM) a a' /\
  (forall x, gint (G_CX GM) a <= x < gint (G_CX GM) a + reg 16 CX a ->
     hmem a' (GM + cell_at x (gint (G_CY GM) a)) = Some (reg 8 AL a) /\ hmem a' (GM + (cell_at x (gint (G_CY GM) a) + 1)) = Some (reg 8 BL a)) /\
  (forall x, screen GM x -> ~ guest GM (cell_at (gint (G_CX GM) a) (gint (G_CY GM) a)) (2 * reg 16 CX a) x -> hmem a' x = hmem a x).
Proof.
  intros H Hx Hy Hn. unfold hle10. rewrite rAH, H, rCX, rAL, rBL. cbn [Z.eqb Pos.eqb]. pose proof (reg16_range CX a ltac:(lia)) as R.
  pose proof (reg8_range AL a ltac:(lia)). pose proof (reg8_range BL a ltac:(lia)).
  destruct (repeat_ok GM (Z.to_nat (reg 16 CX a)) (reg 8 AL a) (reg 8 BL a) a Hx Hy) as (a' & E & X & Y & O & C & S); [lia|]. exists a'. rewrite E.
  rewrite Z2Nat.id in * by lia. rewrite !wrap_small in * by (unfold inrange; lia). split; [reflexivity|]. split; [exact X|]. split; [exact Y|]. split; [exact O|]. split; [exact C|exact S].
Qed.
(** Refuted: line feed on the last line scrolls.  It wraps to the top line. *)
Theorem C59_scroll_refuted GM a T : reg 8 AH a = 0x0E -> reg 8 AL a = 10 -> shows GM a T -> on_screen (tx T) (ty T) -> ty T = 24 ->
  exists a', hle10 GM a = NRet a' /\ gint (G_CY GM) a' = 0 /\ scr_is GM a' (scr T) /\ ty (teletype 10 (gbyte (G_ATTR GM) a) T) = 24.
Proof.
  intros H Hc (Sx & Sy & Ss) Ho Hy. rewrite tty_eq, Hc by exact H. destruct (put_char_ok GM 10 (gbyte (G_ATTR GM) a) a) as (a' & E & K & O & Om & Op & Vx & Vy).
  { unfold cursor_ok. rewrite Sx, Sy. exact Ho. }
  exists a'. split; [exact E|]. split; [rewrite Vy, Sy, Hy; reflexivity|]. split; [|unfold teletype, down; cbn [Z.eqb Pos.eqb]; rewrite Hy; reflexivity].
  eapply scr_ext; [|exact Ss]. intros x Hx. apply (proj2 (Om (or_introl eq_refl)) x Hx).
Qed.
(** Refuted: text output never writes outside guest memory.  AH=02h accepts any column: after
    moving to column 80 of line 0, 180145 ordinary characters run off the end of gaMemory. *)
Theorem C59_cursor_unchecked_refuted GM a c : reg 8 AH a = 2 -> reg 8 DL a = 80 -> reg 8 DH a = 0 -> 0 <= c < 256 -> plain c ->
  exists a', hle10 GM a = NRet a' /\ ttys GM (repeat c (Z.to_nat 180145)) a' = NUB.
Proof. intros H H1 H2 Hc Hp. destruct (set_cursor GM a H) as (a' & E & X & Y & _). exists a'. split; [exact E|]. apply tty_past_ub; lia || assumption. Qed.
(** Refuted: AH=09h writes CX characters.  It stops at column 25 (the number of rows). *)
Theorem C59_repeat_refuted GM a : reg 8 AH a = 9 -> 0 <= gint (G_CX GM) a < 25 -> 0 <= gint (G_CY GM) a < 25 -> 25 - gint (G_CX GM) a <= reg 16 CX a ->
  exists a', hle10 GM a = NRet a' /\ gint (G_CX GM) a' = 24 /\
  (forall x, screen GM x -> ~ guest GM (cell_at (gint (G_CX GM) a) (gint (G_CY GM) a)) (2 * (25 - gint (G_CX GM) a)) x -> hmem a' x = hmem a x).
Proof.
  intros H Hx Hy Hn. unfold hle10. rewrite rAH, H, rCX. cbn [Z.eqb Pos.eqb]. destruct (repeat_long GM (Z.to_nat (reg 16 CX a)) (bl P_AX a) (bl P_BX a) a) as (a' & E & X & S); [lia|lia|lia|lia|].
  exists a'. auto.
Qed.
Definition blank : term := mkTerm 0 0 (fun _ _ => (0, 0)).
Lemma booted_blank a b c d : shows HB (with_regs a b c d) blank.
Proof.
  split; [vm_compute; reflexivity|]. split; [vm_compute; reflexivity|]. intros x y Hs. pose proof (cell_range x y Hs) as R. unfold SCREEN in R. cbn [with_regs a_gprs hmem blank scr fst snd].
  assert (forall i, 753664 <= i < 757664 -> hmem (ar booted) (HB + i) = Some 0) as K.
  { intros i Hi. cbn [booted nt_state ar hmem]. unfold nt_host, GSIZE. replace ((HB <=? HB + i) && (HB + i <? HB + 1114112)) with true by lia. replace (HB + i - HB) with i by lia.
    rewrite boot_memory_bios, bios_screen by lia. reflexivity. }
  split; apply K; lia.
Qed.
Example C59_case : let a := with_regs 0x0E41 0 0 0 in reg 8 AH a = 0x0E /\ 0 <= gbyte (G_ATTR HB) a < 256 /\ on_screen (tx blank) (ty blank) /\ shows HB a blank /\
  needs_scroll (reg 8 AL a) blank = false /\ teletype (reg 8 AL a) 0x0F blank <> blank /\ flat E0 HB a /\ cursor_ok HB a.
Proof.
  cbv zeta. split; [vm_compute; reflexivity|]. split; [vm_compute; split; congruence|]. split; [unfold on_screen; cbn; lia|]. split; [apply booted_blank|]. split; [vm_compute; reflexivity|].
  split. { intros K. apply (f_equal tx) in K. vm_compute in K. discriminate. } split; [apply with_regs_flat|]. unfold cursor_ok, on_screen. vm_compute. repeat split; congruence.
Qed.
Example C59_case2 : reg 8 AH (with_regs 0x0200 0 0 0x0050) = 2 /\ reg 8 DL (with_regs 0x0200 0 0 0x0050) = 80 /\ reg 8 DH (with_regs 0x0200 0 0 0x0050) = 0 /\ plain 65.
Proof. split; [vm_compute; reflexivity|]. split; [vm_compute; reflexivity|]. split; [vm_compute; reflexivity|]. unfold plain. lia. Qed.
Example C59_case3 : let a := with_regs 0x0941 7 40 0 in reg 8 AH a = 9 /\ gint (G_CX HB) a = 0 /\ gint (G_CY HB) a = 0 /\ 25 - 0 <= reg 16 CX a.
Proof. cbv zeta. split; [vm_compute; reflexivity|]. split; [vm_compute; reflexivity|]. split; [vm_compute; reflexivity|]. vm_compute. congruence. Qed.
Print Assumptions C59_teletype_partial. Print Assumptions C59_text_safe. Print Assumptions C59_set_cursor. Print Assumptions C59_read_cell. Print Assumptions C59_clear_partial. Print Assumptions C59_repeat_partial.
Print Assumptions C59_scroll_refuted. Print Assumptions C59_cursor_unchecked_refuted. Print Assumptions C59_repeat_refuted.

(** ** C60: INT 13h AH=02h, reading sectors by cylinder, head, sector. *)
Theorem C60_read GM fdd E a len img : flat E GM a -> wf_regs a -> fdd = Some (len, img) -> image_ok (len, img) ->
  reg 8 AH a = 2 -> reg 8 DL a = 0 -> chs_valid a -> reg 8 AL a mod 64 <> 0 ->
  let p := lin (r_es a) (reg 16 BX a) in let n := 512 * reg 8 AL a in let from := 512 * chs_lba a in
  from + n <= len -> p + n <= 1114112 ->
  exists h, hle13 GM fdd a = NRet (a_flags (put CF false (r_flags a)) (with_reg 8 AH 0 (a_hmem h a))) /\
    stored p n (fun k => img (from + k)) a (a_hmem h a) /\ (forall x, ~ guest GM p n x -> h x = hmem a x).
Proof. exact (read_ok GM fdd E a len img). Qed.
(** The same from the guest's side: INT 13h executed. *)
Theorem C60_int13_read GM fdd gui nullc s pre p bs len img : let E := nt_env GM fdd gui nullc in let a := ar s in
  fetched E GM s pre p bs -> bs = [0xCD; 0x13] -> vector 0x13 a = (0xB800, 0x13) -> host_ok GM a -> hle a = nt_hle ->
  fdd = Some (len, img) -> image_ok (len, img) -> reg 8 AH a = 2 -> reg 8 DL a = 0 -> chs_valid a -> reg 8 AL a mod 64 <> 0 ->
  512 * chs_lba a + 512 * reg 8 AL a <= len -> lin (r_es a) (reg 16 BX a) + 512 * reg 8 AL a <= 1114112 ->
  exists h, executes_to E s (pre ++ bs) (a_ip ((r_ip a + blen (pre ++ bs)) mod 65536) (a_flags (put CF false (r_flags a)) (with_reg 8 AH 0 (a_hmem h a)))) /\
    stored (lin (r_es a) (reg 16 BX a)) (512 * reg 8 AL a) (fun k => img (512 * chs_lba a + k)) a (a_hmem h a).
Proof.
  cbv zeta. intros Hf -> Hv Hh Hl Hfd Hi H2 H0 Hc Ha Hlen Hb. pose proof Hf as ([F W _ _] & _).
  destruct (read_ok GM fdd (nt_env GM fdd gui nullc) (ar s) len img F W Hfd Hi H2 H0 Hc Ha Hlen Hb) as (h & E & S & _). exists h. split; [|exact S].
  apply (service_call GM fdd gui nullc s pre p [0xCD; 0x13] 0x13); try assumption; try reflexivity; discriminate.
Qed.
Theorem C60_refused GM fdd a : reg 8 AH a = 2 -> reg 8 AL a mod 64 <> 0 ->
  reg 8 DL a <> 0 \/ CYLINDERS <= cx_cyl (reg 8 CH a) (reg 8 CL a) \/ HEADS <= reg 8 DH a \/ SECTORS < cx_sect (reg 8 CL a) ->
  hle13 GM fdd a = NRet (a_flags (put CF true (r_flags a)) (with_reg 8 AH 1 a)).
Proof. exact (read_refused GM fdd a). Qed.
Theorem C60_short_image GM fdd a len img : fdd = Some (len, img) -> 0 <= len -> wf_regs a ->
  reg 8 AH a = 2 -> reg 8 DL a = 0 -> chs_valid a -> reg 8 AL a mod 64 <> 0 ->
  let p := lin (r_es a) (reg 16 BX a) in let n := 512 * reg 8 AL a in let from := 512 * chs_lba a in
  len < from + n -> p + n <= 1114112 ->
  let got := Z.max 0 (len - from) in
  exists h, hle13 GM fdd a = NRet (a_flags (put CF true (r_flags a)) (with_reg 8 AL (got / 512) (a_hmem h a))) /\ (forall x, ~ guest GM p got x -> h x = hmem a x).
Proof. exact (read_short GM fdd a len img). Qed.
(** Refuted: a read never writes outside guest memory. *)
Theorem C60_overflow_refuted GM fdd a len img : fdd = Some (len, img) ->
  reg 8 AH a = 2 -> reg 8 DL a = 0 -> chs_valid a -> reg 8 AL a mod 64 <> 0 -> 512 * chs_lba a + 512 * reg 8 AL a <= len ->
  1114112 < lin (r_es a) (reg 16 BX a) + 512 * reg 8 AL a -> hle13 GM fdd a = NUB.
Proof. exact (read_overflow GM fdd a len img). Qed.
(** Refuted: sector 0 is refused (sectors are numbered from 1).  The sector before the track is read. *)
Theorem C60_sector0_refuted GM fdd E a len img : flat E GM a -> wf_regs a -> fdd = Some (len, img) -> image_ok (len, img) ->
  reg 8 AH a = 2 -> reg 8 DL a = 0 -> cx_cyl (reg 8 CH a) (reg 8 CL a) < CYLINDERS -> reg 8 DH a < HEADS -> cx_sect (reg 8 CL a) = 0 ->
  0 < chs_lba a -> reg 8 AL a mod 64 <> 0 ->
  let p := lin (r_es a) (reg 16 BX a) in let n := 512 * reg 8 AL a in let from := 512 * chs_lba a in
  from + n <= len -> p + n <= 1114112 ->
  exists h, hle13 GM fdd a = NRet (a_flags (put CF false (r_flags a)) (with_reg 8 AH 0 (a_hmem h a))) /\
    stored p n (fun k => img (from + k)) a (a_hmem h a).
Proof. exact (read_sector0 GM fdd E a len img). Qed.
(** Refuted: every count up to 255 works.  64, 128 and 192 are taken as zero. *)
Theorem C60_count_refuted GM fdd a : reg 8 AH a = 2 -> reg 8 AL a mod 64 = 0 -> hle13 GM fdd a = NRet (a_flags (put CF true (r_flags a)) a).
Proof. exact (read_count64 GM fdd a). Qed.
(** Reading 3 sectors from cylinder 1, head 1, sector 17 to 0000:8000. *)
Example C60_case : let a := with_regs 0x0203 0x8000 0x0111 0x0100 in
  flat E0 HB a /\ wf_regs a /\ image_ok (1474560, fimg) /\ reg 8 AH a = 2 /\ reg 8 DL a = 0 /\ chs_valid a /\ reg 8 AL a mod 64 <> 0 /\ chs_lba a = 70 /\
  lin (r_es a) (reg 16 BX a) = 0x8000.
Proof.
  cbv zeta. split; [apply with_regs_flat|]. split; [apply with_regs_wf; lia|]. split; [apply floppy_ok|]. split; [vm_compute; reflexivity|]. split; [vm_compute; reflexivity|].
  split; [unfold chs_valid; vm_compute; repeat split; congruence|]. split; [vm_compute; congruence|]. split; vm_compute; reflexivity.
Qed.
Example C60_case_overflow : let a := a_es 0xFFFF (with_regs 0x0201 0xFFFF 0x0001 0) in
  reg 8 AH a = 2 /\ reg 8 DL a = 0 /\ chs_valid a /\ reg 8 AL a mod 64 <> 0 /\ 1114112 < lin (r_es a) (reg 16 BX a) + 512 * reg 8 AL a.
Proof.
  cbv zeta. split; [vm_compute; reflexivity|]. split; [vm_compute; reflexivity|].
  split; [unfold chs_valid; vm_compute; repeat split; congruence|]. split; [vm_compute; congruence|]. vm_compute. reflexivity.
Qed.
Example C60_case_sector0 : let a := with_regs 0x0201 0x8000 0x0000 0x0100 in cx_sect (reg 8 CL a) = 0 /\ chs_lba a = 17.
Proof. split; vm_compute; reflexivity. Qed.
Print Assumptions C60_read. Print Assumptions C60_int13_read. Print Assumptions C60_refused. Print Assumptions C60_short_image. Print Assumptions C60_overflow_refuted. Print Assumptions C60_sector0_refuted. Print Assumptions C60_count_refuted.

(** ** C61: disk geometry and extended reads. *)
Theorem C61_params GM fdd a : reg 8 AH a = 8 -> reg 8 DL a = 0 -> hle13 GM fdd a = NRet (params_result a).
Proof. exact (params_ok GM fdd a). Qed.
Theorem C61_params_other_drive GM fdd a : reg 8 AH a = 8 -> reg 8 DL a <> 0 -> hle13 GM fdd a = NRet (a_flags (put CF true (put CF false (r_flags a))) a).
Proof. exact (params_refused GM fdd a). Qed.
(** What AH=08h reports is exactly what AH=02h accepts. *)
Theorem C61_consistent GM fdd a a' : reg 8 AH a = 8 -> reg 8 DL a = 0 -> hle13 GM fdd a = NRet a' ->
  forall b, chs_valid b <-> cx_cyl (reg 8 CH b) (reg 8 CL b) <= cx_cyl (reg 8 CH a') (reg 8 CL a') /\ reg 8 DH b <= reg 8 DH a' /\ 1 <= cx_sect (reg 8 CL b) <= cx_sect (reg 8 CL a').
Proof.
  intros H H0. rewrite (params_ok GM fdd a H H0). intros [= <-] b. destruct (params_regs a) as (_ & _ & -> & -> & -> & _). unfold chs_valid, CYLINDERS, HEADS, SECTORS.
  change (cx_cyl 79 18) with 79. change (cx_sect 18) with 18. lia.
Qed.
Theorem C61_extended_read GM fdd E a len img : flat E GM a -> wf_regs a -> fdd = Some (len, img) -> image_ok (len, img) ->
  reg 8 AH a = 0x42 -> reg 8 DL a = 0 -> lin (r_ds a) (reg 16 SI a) + 16 <= 1114112 ->
  let p := dap_buffer a in let n := 512 * dap_count a in let from := 512 * dap_lba a in
  p + n <= 1114112 -> from + n <= len -> from < 2 ^ 31 ->
  exists h, hle13 GM fdd a = NRet (with_reg 8 AH 0 (a_flags (put CF false (r_flags a)) (a_hmem h a))) /\
    stored p n (fun k => img (from + k)) a (a_hmem h a) /\ (forall x, ~ guest GM p n x -> h x = hmem a x).
Proof. exact (ext_ok GM fdd E a len img). Qed.
(** Whatever buffer the packet names, nothing outside guest memory is written; the sector number must not
    overflow an int as a byte offset. *)
Theorem C61_extended_safe_partial GM fdd E a len img : flat E GM a -> wf_regs a -> fdd = Some (len, img) ->
  reg 8 AH a = 0x42 -> lin (r_ds a) (reg 16 SI a) + 16 <= 1114112 -> -(2 ^ 22) <= sgn 32 (dap_lba a) < 2 ^ 22 ->
  exists a', hle13 GM fdd a = NRet a' /\ svc GM a a'.
Proof. exact (ext_safe GM fdd E a len img). Qed.
(** Refuted: a failed extended read is reported. *)
Theorem C61_extended_failure_refuted GM fdd E a len img : flat E GM a -> wf_regs a -> fdd = Some (len, img) ->
  reg 8 AH a = 0x42 -> lin (r_ds a) (reg 16 SI a) + 16 <= 1114112 -> dap_buffer a + 512 * dap_count a <= 1114112 ->
  reg 8 DL a <> 0 \/ (reg 8 DL a = 0 /\ 0 <= len <= 512 * dap_lba a /\ 512 * dap_lba a < 2 ^ 31) ->
  hle13 GM fdd a = NRet (with_reg 8 AH 0 (a_flags (put CF false (r_flags a)) a)).
Proof. exact (ext_lies GM fdd E a len img). Qed.
(** Refuted: AH=15h returns the number of sectors in CX:DX.  2880 is put in the high half. *)
Theorem C61_type_refuted GM fdd a : reg 8 AH a = 0x15 -> reg 8 DL a = 0 ->
  hle13 GM fdd a = NRet (with_reg 16 DX 0 (with_reg 16 CX 2880 (with_reg 8 AH 2 (a_flags (put CF false (r_flags a)) a)))).
Proof. exact (type_ok GM fdd a). Qed.
(** A packet at 0000:0600: 2 sectors from sector 5 to 0000:8000; and sector 4000, past the end. *)
Definition dap_mem (lba : Z) : Z -> option Z := fun x => let k := x - (HB + 0x600) in
  if (0 <=? k) && (k <? 16) then Some (nth (Z.to_nat k) ([16; 0; 2; 0; 0x00; 0x80; 0; 0] ++ le_bytes 8 lba) 0) else hmem (with_regs 0x4200 0 0 0) x.
Definition dap_state (lba : Z) : arch := a_hmem (dap_mem lba) (with_reg 16 SI 0x600 (with_regs 0x4200 0 0 0)).
Lemma dap_flat lba : flat E0 HB (dap_state lba).
Proof.
  apply (flat_hmem HB).
  - pose proof (with_regs_flat 0x4200 0 0 0). auto with flat.
  - intros x Hx. unfold dap_mem. destruct (_ && _) eqn:Ek.
    + eexists. split; [reflexivity|]. set (k := Z.to_nat _). clearbody k.
      destruct (nth_in_or_default k ([16; 0; 2; 0; 0x00; 0x80; 0; 0] ++ le_bytes 8 lba) 0) as [H| ->]; [|lia]. apply in_app_or in H. destruct H as [H|H].
      * cbn [In] in H. intuition lia.
      * eapply le_bytes_byte, H.
    + destruct (fl_mem _ _ _ (with_regs_flat 0x4200 0 0 0) x Hx) as (b & Hb & Hr). exists b. auto.
Qed.
Lemma dap_wf lba : wf_regs (dap_state lba).
Proof. assert (W : wf_regs (with_reg 16 SI 0x600 (with_regs 0x4200 0 0 0))) by (apply wf_with_reg; auto with width; try lia; [unfold inrange; lia|apply with_regs_wf; lia]). destruct W. constructor; assumption. Qed.
Example C61_case : let a := dap_state 5 in flat E0 HB a /\ wf_regs a /\ reg 8 AH a = 0x42 /\ reg 8 DL a = 0 /\ lin (r_ds a) (reg 16 SI a) = 0x600 /\ dap_buffer a = 0x8000 /\ dap_count a = 2 /\ dap_lba a = 5.
Proof.
  cbv zeta. split; [apply dap_flat|]. split; [apply dap_wf|]. split; [vm_compute; reflexivity|]. split; [vm_compute; reflexivity|]. split; [vm_compute; reflexivity|]. split; [vm_compute; reflexivity|]. split; vm_compute; reflexivity.
Qed.
Example C61_case_failure : let a := dap_state 4000 in reg 8 AH a = 0x42 /\ reg 8 DL a = 0 /\ dap_lba a = 4000 /\ 1474560 <= 512 * dap_lba a /\ dap_count a = 2.
Proof. cbv zeta. split; [vm_compute; reflexivity|]. split; [vm_compute; reflexivity|]. split; [vm_compute; reflexivity|]. split; vm_compute; congruence. Qed.
Example C61_case_params : reg 8 AH (with_regs 0x0800 0 0 0) = 8 /\ reg 8 DL (with_regs 0x0800 0 0 0) = 0. Proof. split; vm_compute; reflexivity. Qed.
Print Assumptions C61_params. Print Assumptions C61_params_other_drive. Print Assumptions C61_consistent. Print Assumptions C61_extended_read. Print Assumptions C61_extended_safe_partial. Print Assumptions C61_extended_failure_refuted. Print Assumptions C61_type_refuted.

(** ** C62: the key queue. *)
(** Over any history of key presses, reads and peeks, the program sees a FIFO of at most 16 keys. *)
Theorem C62_fifo GM es a q : queue GM a q -> exists a', krun GM es a = Some (a', snd (fifo_run es q)) /\ queue GM a' (fst (fifo_run es q)).
Proof. exact (history_ok GM es a q). Qed.
Theorem C62_press GM sym a q : queue GM a q -> exists a', key_down GM sym a = NRet a' /\ queue GM a' (enqueue (sym mod 256) q) /\ only_memory (global GM) a a'.
Proof. exact (down_ok GM sym a q). Qed.
Theorem C62_read GM gui a k q : queue GM a (k :: q) -> reg 8 AH a = 0 -> exists h, hle16 GM gui a = NRet (a_hmem h (with_reg 8 AL k (with_reg 8 AH k a))) /\
  queue GM (a_hmem h (with_reg 8 AL k (with_reg 8 AH k a))) q /\ (forall x, ~ global GM x -> h x = hmem a x).
Proof. exact (read_key GM gui a k q). Qed.
Theorem C62_peek GM gui a k q : queue GM a (k :: q) -> reg 8 AH a = 1 \/ reg 8 AH a = 0x11 ->
  hle16 GM gui a = NRet (a_flags (put ZF false (r_flags a)) (with_reg 8 AL k (with_reg 8 AH k a))).
Proof. exact (peek_key GM gui a k q). Qed.
Theorem C62_peek_empty GM gui a : queue GM a [] -> reg 8 AH a = 1 \/ reg 8 AH a = 0x11 -> hle16 GM gui a = NRet (a_flags (put ZF true (r_flags a)) a).
Proof. exact (peek_none GM gui a). Qed.
(** In the default build (no GUI) no key ever arrives, and waiting for one ends the program. *)
Theorem C62_wait GM gui a : queue GM a [] -> reg 8 AH a = 0 -> hle16 GM gui a = if gui then NWait else NExit 0 a.
Proof. exact (read_none GM gui a). Qed.
Lemma booted_queue a b c d : queue HB (with_regs a b c d) [].
Proof. split; [cbn; lia|]. split; [vm_compute; reflexivity|]. intros [|i] k; discriminate. Qed.
Example C62_case : queue HB (with_regs 0 0 0 0) [] /\
  fifo_run [KDown 65; KDown 66; KPeek; KRead; KDown 323; KRead; KRead; KRead] [] = ([], [None; None; Some 65; Some 65; None; Some 66; Some 67; None]).
Proof. split; [apply booted_queue|reflexivity]. Qed.
Print Assumptions C62_fifo. Print Assumptions C62_press. Print Assumptions C62_read. Print Assumptions C62_peek. Print Assumptions C62_peek_empty. Print Assumptions C62_wait.
