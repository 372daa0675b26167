(** Property theorems C63-C67: the tester's executable loader, change report and exit codes; mini_test;
    the memory comparison tools; the meaning of RME_RunOne's error codes. *)
From Coq Require Import String.
From Verif Require Import Base Cpu Ops Machine Spec SpecOps SpecOps2 SpecSys SpecRun SpecTop SpecStop SpecCodes Native SpecNative Native2 SpecNative2
  PBase PMem PRun PExec PTop2 PStop PStop2 PNative4 PNative8 PNative9 PCodes PNative10 Demo PAnyCodes.
Local Open Scope Z_scope.
Definition np : pfx := mkPfx None false false 0.
Definition p66 : pfx := mkPfx None true false 0.

(** ** C63: DOS executables. *)
(** Every byte of the load module is at 0100:0000 + offset; bytes no relocation names are as in the file;
    relocated words have the load segment added; nothing else in memory changes. *)
Theorem C63_load len f m : exe_ok len f -> exe_size f <= 0x10F000 ->
  exists m', load_exe (Some (len, f)) m = ELoad ((0x100 + exe_cs f) mod 65536) (exe_ip f) ((0x100 + exe_ss f) mod 65536) (exe_sp f) m' /\
    (forall k, 0 <= k < exe_size f -> (forall j, 0 <= j < exe_nrel f -> exe_reloc f j <> k /\ exe_reloc f j + 1 <> k) -> m' (0x1000 + k) = f (exe_start f + k)) /\
    (forall k, 0 <= k < exe_nrel f -> (forall j, 0 <= j < exe_nrel f -> j <> k -> exe_reloc f j + 2 <= exe_reloc f k \/ exe_reloc f k + 2 <= exe_reloc f j) ->
       word_at m' (0x1000 + exe_reloc f k) = (word_at f (exe_start f + exe_reloc f k) + 0x100) mod 65536) /\
    (forall k, 0 <= k < exe_size f -> m' (0x1000 + k) = exe_byte f k) /\
    (forall y, ~ 0x1000 <= y < 0x1000 + exe_size f -> m' y = m y).
Proof.
  intros H Hs. destruct (exe_load len f m H Hs) as (m' & E & K1 & K2). exists m'. split; [exact E|]. assert (B : bytes f) by apply H.
  split; [intros k Hk Hj; rewrite K1 by exact Hk; apply exe_plain; assumption|]. split; [|split; [exact K1|exact K2]].
  intros k Hk Hj. pose proof (eo_relocs _ _ H k Hk) as Hr. assert (0 <= exe_reloc f k).
  { unfold exe_reloc. pose proof (hdr_range f (exe_rel f + 4 * k + 2) B). pose proof (hdr_range f (exe_rel f + 4 * k) B). lia. }
  unfold word_at at 1. rewrite <- Z.add_assoc, !K1 by lia. exact (exe_word f k B Hk Hj).
Qed.
(** Booting with -d: registers and memory.  Partial: SP is not the header's, DS and ES are not the PSP's. *)
Theorem C63_boot_partial GM fdd gui nullc debug cp len f : 0 <= GM -> (nullc = true -> GM <> 0) -> exe_ok len f -> exe_size f <= 0x9EFFE ->
  let cs := (0x100 + exe_cs f) mod 65536 in cs <> 0 \/ exe_ip f <> 0 ->
  exists s, nt_boot_exe GM debug cp (Some (len, f)) = BRun s /\ flat (nt_env GM fdd gui nullc) GM (ar s) /\ wf_state s /\ host_ok GM (ar s) /\ hle (ar s) = nt_hle /\
    r_cs (ar s) = cs /\ r_ip (ar s) = exe_ip f /\ r_ss (ar s) = (0x100 + exe_ss f) mod 65536 /\ cpu (ar s) = cp /\ r_ds (ar s) = 0 /\ r_es (ar s) = 0 /\
    (forall n, 0 <= n < 8 -> reg 16 n (ar s) = if n =? SP then 0xFFFE else 0) /\
    (forall k, 0 <= k < exe_size f -> byte (ar s) (0x1000 + k) = exe_byte f k) /\
    (forall n, 0 <= n < 256 -> vector n (ar s) = (0xB800, n)).
Proof. exact (exe_boot GM fdd gui nullc debug cp len f). Qed.
(** A missing file, a wrong signature and a truncated load module are refused. *)
Theorem C63_refused GM debug cp fl : match fl with
  | None => True
  | Some (len, f) => 28 <= len /\ bytes f /\ (f 0 <> 0x4D \/ f 1 <> 0x5A \/ (exe_last f <= 512 /\ 0 <= exe_size f /\ len < exe_start f + exe_size f))
  end -> nt_boot_exe GM debug cp fl = BExit (-1).
Proof. intros H. unfold nt_boot_exe. rewrite (exe_refused fl bios_memory H). reflexivity. Qed.
(** Refuted: the program starts with the stack pointer of its header. *)
Theorem C63_stack_refuted GM debug cp fl s : nt_boot_exe GM debug cp fl = BRun s -> reg 16 SP (ar s) = 0xFFFE.
Proof.
  unfold nt_boot_exe. destruct (load_exe fl bios_memory); try discriminate. destruct (_ && _); [discriminate|]. intros [= <-]. apply (nt_reg GM debug cp cs ip ss _ 4). lia.
Qed.
(** Refuted: loading never writes outside the module: a relocation entry is not checked. *)
Theorem C63_relocation_refuted GM debug cp len f : bytes f -> 28 <= len -> f 0 = 0x4D -> f 1 = 0x5A -> exe_last f <= 512 -> 0 <= exe_size f -> exe_start f + exe_size f <= len ->
  exe_rel f + 4 * exe_nrel f <= len -> (exists k, 0 <= k < exe_nrel f /\ exe_size f < exe_reloc f k + 2) -> nt_boot_exe GM debug cp (Some (len, f)) = BUB.
Proof. intros. unfold nt_boot_exe. rewrite (exe_reloc_ub len f bios_memory); auto. Qed.
Theorem C63_large_refuted GM debug cp len f : exe_ok len f -> 0x10F000 < exe_size f -> nt_boot_exe GM debug cp (Some (len, f)) = BUB.
Proof. intros. unfold nt_boot_exe. rewrite (exe_large_ub len f bios_memory); auto. Qed.
(** A 64 byte executable: header of 2 paragraphs, one relocation at 0000:0001 of the module, CS:IP 0000:0000, SS:SP 0001:0400. *)
Definition exe_bytes : list Z :=
  [0x4D; 0x5A; 64; 0; 1; 0; 1; 0;  2; 0; 0; 0; 0xFF; 0xFF; 1; 0;  0; 4; 0; 0; 0; 0; 0; 0;  28; 0; 0; 0; 1; 0; 0; 0;
   0xB8; 0x00; 0x00; 0x8E; 0xD8; 0xF4] ++ repeat 0x90 26.
Definition exe_file (patch : Z) (k : Z) : Z := if (k =? 28) && (1 <? patch) then patch else if (k <? 0) then 0 else nth (Z.to_nat k) exe_bytes 0.
Lemma exe_file_byte p : 0 <= p < 256 -> bytes (exe_file p).
Proof.
  intros Hp k. unfold exe_file. destruct (_ && _); [exact Hp|]. destruct (Z.ltb_spec k 0); [lia|]. destruct (nth_in_or_default (Z.to_nat k) exe_bytes 0) as [H1| ->]; [|lia].
  assert (forallb (fun b => (0 <=? b) && (b <? 256)) exe_bytes = true) as K by (vm_compute; reflexivity). rewrite forallb_forall in K. specialize (K _ H1). lia.
Qed.
Example C63_case : exe_ok 64 (exe_file 0) /\ exe_size (exe_file 0) = 32 /\ exe_nrel (exe_file 0) = 1 /\ exe_reloc (exe_file 0) 0 = 1 /\ exe_sp (exe_file 0) = 0x400.
Proof.
  split; [|split; [vm_compute; reflexivity|split; [vm_compute; reflexivity|split; vm_compute; reflexivity]]].
  constructor; [apply exe_file_byte; lia|lia|split; vm_compute; reflexivity|vm_compute; discriminate|vm_compute; discriminate|vm_compute; discriminate|vm_compute; discriminate|].
  intros k Hk. change (exe_nrel (exe_file 0)) with 1 in Hk. replace k with 0 by lia. vm_compute. discriminate.
Qed.
Example C63_case_reloc : bytes (exe_file 200) /\ exe_nrel (exe_file 200) = 1 /\ exe_reloc (exe_file 200) 0 = 200 /\ exe_size (exe_file 200) = 32.
Proof. split; [apply exe_file_byte; lia|]. split; [vm_compute; reflexivity|]. split; vm_compute; reflexivity. Qed.
Print Assumptions C63_load. Print Assumptions C63_boot_partial. Print Assumptions C63_refused. Print Assumptions C63_stack_refuted. Print Assumptions C63_relocation_refuted. Print Assumptions C63_large_refuted.

(** ** C64: the report of changed memory after each instruction. *)
Lemma report_len : exists n, 0 + 2 * Z.of_nat n = GSIZE /\ forall prev cur, mem_report prev cur = report n 0 prev cur.
Proof. exists (Z.to_nat (GSIZE / 2)). split; [rewrite Z2Nat.id by (vm_compute; discriminate); reflexivity|]. intros. unfold mem_report. reflexivity. Qed.
(** Every line names a word that changed, with its old and new contents. *)
Theorem C64_sound prev cur l p : mem_report prev cur = Some (l, p) ->
  forall i o n, In (i, o, n) l -> word_index i /\ changed prev cur i /\ o = word_at prev i /\ n = word_at cur i.
Proof.
  destruct report_len as (m & Hm & ->). intros H i o n Hi. destruct (report_ok cur m 0 prev l p Hm H) as (K & _ & _).
  destruct (K i o n Hi) as (K1 & K2 & K3 & K4 & K5). rewrite Z.sub_0_r in K2. split; [split; [exact K1|exact K2]|auto].
Qed.
(** Afterwards the remembered contents are the current ones: no change is reported twice. *)
Theorem C64_remembered prev cur l p : mem_report prev cur = Some (l, p) -> forall y, 0 <= y < 1114112 -> p y = cur y.
Proof. destruct report_len as (m & Hm & ->). intros H y Hy. destruct (report_ok cur m 0 prev l p Hm H) as (_ & K & _). apply K. exact Hy. Qed.
(** A changed word is in the report unless the word before it is. *)
Theorem C64_complete_partial prev cur l p : mem_report prev cur = Some (l, p) -> forall i, word_index i ->
  (reported l i <-> changed prev cur i /\ ~ reported l (i - 2)).
Proof.
  destruct report_len as (m & Hm & ->). intros H i [Hi He]. destruct (report_ok cur m 0 prev l p Hm H) as (_ & _ & K). apply K; [exact Hi|]. rewrite Z.sub_0_r. exact He.
Qed.
Theorem C64_silent prev cur l p : mem_report prev cur = Some (l, p) -> (l = [] <-> forall i, word_index i -> ~ changed prev cur i).
Proof.
  intros H. split.
  - intros -> i Hi Hc.
    assert (reported [] i) as (o & n & []). apply (C64_complete_partial prev cur [] p H i Hi). split; [exact Hc|]. intros (o & n & []).
  - intros Hn. destruct l as [|[[i o] n] l]; [reflexivity|]. exfalso. destruct (C64_sound prev cur _ p H i o n (or_introl eq_refl)) as (Hw & Hc & _). apply (Hn i Hw Hc).
Qed.
(** The report is produced unless the last word of the array changed. *)
Theorem C64_defined prev cur : ~ changed prev cur 1114110 -> exists l p, mem_report prev cur = Some (l, p).
Proof.
  intros H. destruct report_len as (m & Hm & ->). destruct (report m 0 prev cur) as [[l p]|] eqn:K; [eauto|]. exfalso. apply H. exact (report_none cur m 0 prev Hm K).
Qed.
(** Refuted: every changed word is reported.  The second of two neighbouring ones is not (PUSH of a
    dword, a far call's return address, REP MOVSW). *)
Theorem C64_neighbour_refuted prev cur l p i : mem_report prev cur = Some (l, p) -> word_index i -> word_index (i + 2) ->
  changed prev cur i -> changed prev cur (i + 2) -> ~ reported l (i - 2) -> reported l i /\ ~ reported l (i + 2).
Proof.
  intros H Hi Hi2 C1 C2 N. assert (R : reported l i) by (apply (C64_complete_partial prev cur l p H i Hi); auto). split; [exact R|].
  intros R2. apply (C64_complete_partial prev cur l p H (i + 2) Hi2) in R2. destruct R2 as [_ R2]. apply R2. replace (i + 2 - 2) with i by lia. exact R.
Qed.
(** Refuted: the report stays within its arrays.  It copies 4 bytes at the last word. *)
Theorem C64_overrun_refuted prev cur : changed prev cur 1114110 -> ~ changed prev cur 1114108 -> mem_report prev cur = None.
Proof. intros H1 H2. destruct report_len as (m & Hm & ->). apply (report_last cur m 0 prev Hm); [unfold GSIZE in *; lia|exact H1|]. intros _. exact H2. Qed.
Definition mem0 (k : Z) : Z := 0.
Definition mem2 (k : Z) : Z := if (0x30 <=? k) && (k <? 0x34) then 0x11 else 0.
Definition mem_end (k : Z) : Z := if k =? 1114111 then 1 else 0.
Example C64_case : (exists l p, mem_report mem0 mem2 = Some (l, p)) /\ word_index 0x30 /\ word_index 0x32 /\ changed mem0 mem2 0x30 /\ changed mem0 mem2 0x32 /\
  (forall l p, mem_report mem0 mem2 = Some (l, p) -> ~ reported l 0x2E) /\ changed mem0 mem_end 1114110 /\ ~ changed mem0 mem_end 1114108.
Proof.
  split; [apply C64_defined; intros [H|H]; apply H; reflexivity|]. split; [split; [lia|reflexivity]|]. split; [split; [lia|reflexivity]|].
  split; [left; vm_compute; discriminate|]. split; [left; vm_compute; discriminate|]. split.
  - intros l p H (o & n & Hi). destruct (C64_sound _ _ _ _ H _ _ _ Hi) as (_ & [K|K] & _); apply K; reflexivity.
  - split; [right; vm_compute; discriminate|]. intros [H|H]; apply H; reflexivity.
Qed.
Print Assumptions C64_sound. Print Assumptions C64_remembered. Print Assumptions C64_complete_partial. Print Assumptions C64_silent. Print Assumptions C64_defined. Print Assumptions C64_neighbour_refuted. Print Assumptions C64_overrun_refuted.

(** ** C65: comparing a memory dump with a template.  Result true = "differs". *)
Theorem C65_binary tpl have : 0 <= fst have -> cmpmembin tpl have = true <-> exists k, 0 <= k < fst have /\ k < fst tpl /\ snd tpl k <> snd have k.
Proof. exact (cmpmembin_ok tpl have). Qed.
Theorem C65_text l t have : items 0 l t -> exists b, cmpmem t have = Some b /\ (b = true <-> differ l have).
Proof. exact (cmpmem_ok l t have). Qed.
(** Lines of up to 16 items; line j describes the bytes from 16*j; a dump that is too short reads as FF. *)
Theorem C65_hex have rest ls ts : not_template rest -> Forall2 hexline ls ts ->
  exists b, cmpmemhex (List.concat ts ++ rest) have = Some b /\
    (b = true <-> exists j i l v, nth_error ls j = Some l /\ nth_error l i = Some (Some v) /\ (if 16 * Z.of_nat j + Z.of_nat i <? fst have then snd have (16 * Z.of_nat j + Z.of_nat i) else 255) <> v).
Proof.
  intros H1 H2. destruct (cmpmemhex_ok have rest ls ts H1 H2) as (b & E & K). exists b. split; [exact E|]. rewrite K. split; intros (j & i & l & v & A & B & C); exists j, i, l, v; (split; [exact A|]; split; [exact B|]);
  unfold fgetc in *; replace (0 <=? 16 * Z.of_nat j + Z.of_nat i) with true in * by lia; exact C.
Qed.
(** Refuted: a dump shorter than the template fails.  An empty one passes. *)
Theorem C65_truncated_refuted tpl t f : cmpmembin tpl (0, f) = false /\ cmpmem t [] = Some false.
Proof. split; reflexivity. Qed.
(** Refuted: pairs may be written without a space, and the address at the start of a line is used.
    ";00: 4142": the first item is read as 0x4142 and cut to 0x42; ";90: 42" is compared with byte 0. *)
Theorem C65_unspaced_refuted have : cmpmemhex [59; 48; 48; 58; 32; 52; 49; 52; 50; 10] have = Some (negb (fgetc have 0 =? 0x42) || negb (fgetc have 1 =? 0x42)).
Proof. unfold cmpmemhex, cmplines. cbn -[fgetc]. rewrite !orb_false_r. reflexivity. Qed.
Theorem C65_address_refuted have : cmpmemhex [59; 57; 48; 58; 32; 52; 50; 10] have = Some (negb (fgetc have 0 =? 0x42)).
Proof. unfold cmpmemhex, cmplines. cbn -[fgetc]. rewrite !orb_false_r. reflexivity. Qed.
(** "41 XX 5a" against 41 00 5A and 41 00 5B. *)
Lemma items_case : items 0 [Some 0x41; None; Some 0x5A] [52; 49; 32; 88; 88; 32; 53; 97; 10].
Proof.
  apply (items_cons 0 [] (Some (16 * 4 + 1)) [52; 49] _ [32; 88; 88; 32; 53; 97; 10]); [constructor|apply item_byte; unfold hex_digit; lia|].
  apply (more_cons 0 [32] None [88; 88] _ [32; 53; 97; 10]); [repeat constructor|cbn; lia|constructor|].
  apply (more_cons 0 [32] (Some (16 * 5 + 10)) [53; 97] _ [10]); [repeat constructor|cbn; lia|apply item_byte; unfold hex_digit; lia|].
  constructor. constructor; [right; lia|constructor].
Qed.
Example C65_case : items 0 [Some 0x41; None; Some 0x5A] [52; 49; 32; 88; 88; 32; 53; 97; 10] /\
  ~ differ [Some 0x41; None; Some 0x5A] [0x41; 0; 0x5A] /\ differ [Some 0x41; None; Some 0x5A] [0x41; 0; 0x5B] /\
  Forall2 hexline [[Some 0x41]] [[59; 48; 48; 104; 58; 32; 52; 49; 10]] /\ not_template [].
Proof.
  split; [exact items_case|]. split; [|split; [|split]].
  - intros ([|[|[|i]]] & b & h & H1 & H2 & H3); cbn in H1, H2; try discriminate; [congruence|congruence|destruct i; discriminate].
  - exists 2%nat, 0x5A, 0x5B. split; [reflexivity|]. split; [reflexivity|lia].
  - constructor; [|constructor]. apply (hexline_intro [Some 65] 48 48 0 0 [104] [32; 52; 49]); try (unfold hex_digit; lia); [auto| |cbn; lia|cbn; lia|cbn; lia].
    apply (items_cons 1 [32] (Some (16 * 4 + 1)) [52; 49] [] [10]); [repeat constructor|apply item_byte; unfold hex_digit; lia|]. constructor. constructor; [right; lia|constructor].
  - exact I.
Qed.
Print Assumptions C65_binary. Print Assumptions C65_text. Print Assumptions C65_hex. Print Assumptions C65_truncated_refuted. Print Assumptions C65_unspaced_refuted. Print Assumptions C65_address_refuted.

(** ** C66: running a BIOS image in mini_test; exit codes of both testers. *)
Theorem C66_boot GM nullc ports debug name c len f : 0 <= GM -> (nullc = true -> GM <> 0) -> bytes f -> 0 <= len <= 0x10000 -> len mod 16 = 0 -> cpu_of name = Some c ->
  exists s, mini_boot GM debug name (Some (len, f)) = BRun s /\
    (ready (mini_env nullc ports) GM s /\ wf_state s /\ r_cs (ar s) = 0xF000 /\ r_ip (ar s) = 0xFFF0 /\ cpu (ar s) = c /\
     r_ss (ar s) = 0 /\ r_ds (ar s) = 0 /\ r_es (ar s) = 0 /\ (forall n, 0 <= n < 8 -> reg 16 n (ar s) = if n =? SP then 0xFFFE else 0) /\
     (forall n, hle (ar s) n = 0) /\ lastnull s = false) /\
    (forall k, 0 <= k < len -> byte (ar s) (0x100000 - len + k) = f k) /\
    (forall n, 0 <= n < 256 -> vector n (ar s) = (0, 0)) /\
    (forall x, 0x400 <= x < 0x9FFFE \/ 0xA0000 <= x < 0xF0000 -> byte (ar s) x = 0xF1).
Proof. exact (mini_boot_ok GM nullc ports debug name c len f). Qed.
(** The tester leaves with code n after the last of a sequence of instructions stopped; 0 means HLT or breakpoint. *)
Theorem C66_exit E fuel s code s' : main_loop E fuel s = MExit code s' <->
  exists n s1 c, (n < fuel)%nat /\ runs E n s s1 /\ run_one E s1 = Err c s' /\ code = (if (c =? E_BREAK) || (c =? E_HALT) then 0 else 1).
Proof. exact (main_exit E fuel s code s'). Qed.
(** Exit code 0 only if the program reached HLT, the breakpoint byte F1, or two 00 00 instructions. *)
Theorem C66_exit_zero E base fuel s s' : quiet_host E -> polite E -> flat E base (ar s) -> wf_state s -> lastnull s = false -> main_loop E fuel s = MExit 0 s' ->
  exists n s1, (n < fuel)%nat /\ runs E n s s1 /\
    ((run_one E s1 = Err E_HALT s' /\ opcode_at (ar s1) (fun b => b = 0xF4)) \/
     (run_one E s1 = Err E_BREAK s' /\ (opcode_at (ar s1) (fun b => b = 0xF1) \/
       (zeros s1 s' /\ exists j t t', (j < n)%nat /\ runs E j s t /\ run_one E t = Ok tt t' /\ runs E (n - j - 1) t' s1 /\ zeros t t')))).
Proof. intros Q P. exact (exit_ok E base Q P fuel s s'). Qed.
Theorem C66_hosts nullc ports : polite (mini_env nullc ports) /\ quiet_host (mini_env nullc ports).
Proof. split; [apply mini_polite|apply mini_quiet]. Qed.
(** The dump (-O) is the first megabyte of guest memory. *)
Theorem C66_dump GM E s : flat E GM (ar s) -> fst (dump GM s) = 0x100000 /\ forall k, 0 <= k < 0x100000 -> snd (dump GM s) k = byte (ar s) k.
Proof.
  intros F. split; [reflexivity|]. intros k Hk. unfold dump, byte, host. cbn [snd]. rewrite (fl_tab _ _ _ F) by lia. replace (GM + 4096 * (k / 4096) + k mod 4096) with (GM + k) by lia. reflexivity.
Qed.
(** Refuted: an image larger than 64 KB is refused.  It is not loaded, and the tester reports success. *)
Theorem C66_large_refuted GM nullc ports debug name c len f : 0 <= GM -> (nullc = true -> GM <> 0) -> 0x10000 < len -> len mod 16 = 0 -> cpu_of name = Some c ->
  exists s s', mini_boot GM debug name (Some (len, f)) = BRun s /\ main_loop (mini_env nullc ports) 1 s = MExit 0 s'.
Proof. exact (mini_large GM nullc ports debug name c len f). Qed.
(** Refuted: an unknown CPU type is an error.  The exit code is 0. *)
Theorem C66_cpu_refuted GM debug name bin : cpu_of name = None -> mini_load bin <> None -> mini_boot GM debug name bin = BExit 0.
Proof. intros H1 H2. unfold mini_boot. destruct (mini_load bin); [|congruence]. rewrite H1. reflexivity. Qed.
(** A 16 byte image that halts at once; it exits with code 0. *)
Definition hlt_img (k : Z) : Z := if k =? 0 then 0xF4 else 0x90.
Example C66_case : bytes hlt_img /\ cpu_of (Some "386"%string) = Some 2 /\ cpu_of (Some "486"%string) = None /\
  (exists s s', mini_boot HB 0 (Some "386"%string) (Some (16, hlt_img)) = BRun s /\ main_loop (mini_env false (fun _ _ _ => 0)) 1 s = MExit 0 s').
Proof.
  assert (B : bytes hlt_img) by (intros k; unfold hlt_img; destruct (_ =? _); lia).
  split; [exact B|]. split; [reflexivity|]. split; [reflexivity|].
  assert (K : exists s', main_loop (mini_env false (fun _ _ _ => 0)) 1 (mini_state HB 0 2 (last_word (mini_image 16 hlt_img))) = MExit 0 s').
  { apply (mini_ready_exit HB false (fun _ _ _ => 0) 0 2 (mini_image 16 hlt_img) 0xF4 0 E_HALT); [unfold HB; lia|discriminate|apply mini_image_byte, B|vm_compute; reflexivity|auto|reflexivity]. }
  destruct K as [s' K].
  exists (mini_state HB 0 2 (last_word (mini_image 16 hlt_img))), s'. split; [reflexivity|exact K].
Qed.
Print Assumptions C66_boot. Print Assumptions C66_exit. Print Assumptions C66_exit_zero. Print Assumptions C66_hosts. Print Assumptions C66_dump. Print Assumptions C66_large_refuted. Print Assumptions C66_cpu_refuted.

(** ** C67: what RME_RunOne's error codes mean. *)
Theorem C67_reasons E base s c s' : quiet_host E -> flat E base (ar s) -> wf_state s -> run_one E s = Err c s' -> flat E base (ar s') -> reason s s' c.
Proof. intros Q. exact (run_codes E Q base s c s'). Qed.
(** The code is never DIVERR (a divide fault is delivered to the guest) nor INVAL. *)
Theorem C67_codes E base s c s' : quiet_host E -> flat E base (ar s) -> wf_state s -> run_one E s = Err c s' -> flat E base (ar s') ->
  In c [E_FCNRET; E_HALT; E_BREAK; E_BADMEM; E_UNDEF; E_BUG].
Proof. intros Q F W H F'. destruct (run_codes E Q base s c s' F W H F'); cbn [In]; auto 8. Qed.
(** Whatever the memory map, the host and the state: RME_RunOne's codes, RME_Call's and RME_CallInt's.
    DIVERR, CONTINUE and (for a valid interrupt number) INVAL are never reported. *)
Theorem C67_codes_any E s c s' : run_one E s = Err c s' ->
  In c [E_BADMEM; E_UNDEF; E_BUG; E_BREAK; E_HALT] \/ (c = E_FCNRET /\ s' = s /\ r_cs (ar s) = 0xFFFF /\ r_ip (ar s) = 0xFFFF).
Proof. exact (run_one_any E s c s'). Qed.
Theorem C67_call_codes E fuel s c s' : rme_call E fuel s = Err c s' -> In c [E_BADMEM; E_UNDEF; E_BUG; E_BREAK; E_HALT].
Proof. exact (rme_call_any E fuel s c s'). Qed.
Theorem C67_call_int_codes E fuel num s c s' : call_int E fuel num s = Err c s' ->
  (0 <= num <= 255 /\ In c [E_BADMEM; E_UNDEF; E_BUG; E_BREAK; E_HALT]) \/ (~ 0 <= num <= 255 /\ c = E_INVAL).
Proof. intros H. apply call_int_any in H. destruct (Z.leb_spec 0 num), (Z.leb_spec num 255); cbn [andb] in H; [left|right|right|right]; split; try lia; exact H. Qed.
(** The other direction: these instructions do stop with these codes. *)
Theorem C67_halt E base s pre p t : fetched E base s pre p (0xF4 :: t) -> stops E s E_HALT. Proof. exact (hlt_stops E base s pre p t). Qed.
Theorem C67_break E base s pre p t : fetched E base s pre p (0xF1 :: t) -> stops E s E_BREAK. Proof. exact (f1_stops E base s pre p t). Qed.
(** The flag behind the 00 00 rule: set only by an instruction that is 00 00 (services at B800:n and
    divide faults leave it alone). *)
Theorem C67_zero_flag E base s s' : quiet_host E -> flat E base (ar s) -> wf_state s -> run_one E s = Ok tt s' -> flat E base (ar s') -> lastnull s' = true ->
  zeros s s' \/ (lastnull s = true /\ (hle_entry_pc (ar s) \/ opcode_at (ar s) divides)).
Proof. intros Q. exact (null_step E base Q s s'). Qed.
(** Cases: HLT and a 66-prefixed IMUL in an ordinary state; a host without callbacks. *)
Lemma demo_quiet : quiet_host demo_env. Proof. intros h n s. split; [reflexivity|auto]. Qed.
Example C67_case : let s := demo [1; 2; 3; 4; 5; 6; 7; 8] 2 [] [0xF4] in fetched demo_env HB s [] np [0xF4] /\ wf_state s /\ quiet_host demo_env /\ flat demo_env HB (ar s).
Proof. cbv zeta. split; [apply (demo_fetched demo_env _ 2 _ []); reflexivity|]. split; [apply demo_wf_state; reflexivity|]. split; [exact demo_quiet|apply demo_flat; reflexivity]. Qed.
Example C67_case_bug : exists s', run_one demo_env (demo [1; 2; 3; 4; 5; 6; 7; 8] 2 [] [0x26; 0x66; 0x0F; 0xAF; 0xC1]) = Err E_BUG s' /\ icount s' =? 1 = true.
Proof. apply (errb_ex E_BUG _ (fun s' => icount s' =? 1)). vm_compute. reflexivity. Qed.
Example C67_case_undef : exists s', run_one demo_env (demo [1; 2; 3; 4; 5; 6; 7; 8] 2 [] [0x8D; 0xC1]) = Err E_UNDEF s' /\ icount s' =? 1 = true.
Proof. apply (errb_ex E_UNDEF _ (fun s' => icount s' =? 1)). vm_compute. reflexivity. Qed.
Print Assumptions C67_reasons. Print Assumptions C67_codes. Print Assumptions C67_codes_any. Print Assumptions C67_call_codes. Print Assumptions C67_call_int_codes. Print Assumptions C67_halt. Print Assumptions C67_break. Print Assumptions C67_zero_flag.
