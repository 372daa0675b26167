(** Property theorems C74, C75: the testers' command lines; what they boot. *)
From Coq Require Import String Ascii.
From Verif Require Import Base Cpu Ops Machine Spec SpecOps SpecOps2 SpecSys SpecRun SpecTop SpecStop SpecCodes Native SpecNative Native2 SpecNative2 Native3 SpecNative3
  PBase PMem PRun PExec PTop2 PStop PStop2 PNative4 PNative8 PNative9 PCodes PNative10 PArgs PArgs2 PBoot PBoot2 Demo.
Local Open Scope Z_scope.

(** ** C74: command lines. *)
(** The settings are those asked for: all disks in order, the last value of everything else, defaults otherwise. *)
Definition asked (cs : list choice) (s : settings) : Prop :=
  fdds s = disks cs /\ bin_name s = latest (images cs) /\ dump_name s = latest (dumps cs) /\ exe_name s = latest (programs cs) /\
  (nogui s = true <-> In NoWindow cs) /\ cpu_name s = match latest (cpus cs) with Some n => n | None => "80286"%string end /\
  match latest (levels cs) with
  | Some t => forall v, reads_as t v -> - 2 ^ 31 <= v < 2 ^ 31 -> dbg_level s = v
  | None => dbg_level s = 1
  end.
Definition m_asked (cs : list choice) (s : msettings) : Prop :=
  m_bin s = latest (disks cs) /\ m_dump s = latest (dumps cs) /\ m_cpu s = latest (cpus cs) /\
  match latest (levels cs) with
  | Some t => forall v, reads_as t v -> - 2 ^ 31 <= v < 2 ^ 31 -> m_level s = v
  | None => m_level s = 0
  end.
Lemma or_none {A} (o : option A) : or_else o None = o. Proof. destruct o; reflexivity. Qed.
Lemma taken_asked cs : asked cs (fold_left take cs settings0).
Proof.
  destruct (taken cs settings0) as (T1 & T2 & T3 & T4 & T5 & T6 & T7). unfold asked. rewrite T1, T2, T3, T4, T6, T7, T5. cbn [settings0 fdds bin_name dump_name exe_name nogui cpu_name dbg_level app]. rewrite !or_none.
  do 4 (split; [reflexivity|]). split; [intuition discriminate|]. split; [reflexivity|].
  destruct (latest (levels cs)); [|reflexivity]. intros v R V. rewrite (strtol_reads _ _ R). apply to_int_small, V.
Qed.
Lemma mtaken_asked cs : m_asked cs (fold_left mtake cs msettings0).
Proof.
  destruct (mtaken cs msettings0) as (T1 & T2 & T3 & T4). unfold m_asked. rewrite T1, T2, T3, T4. cbn [msettings0 m_bin m_dump m_cpu m_level]. rewrite !or_none.
  do 3 (split; [reflexivity|]). destruct (latest (levels cs)); [|reflexivity]. intros v R V. rewrite (strtol_reads _ _ R). apply to_int_small, V.
Qed.
(** Every command line that says what to do is accepted, and the settings are those asked for. *)
Theorem C74_accepts cs l f : writes false cs l f -> (length (disks cs) <= 4)%nat -> exists s, nt_args l = AGo s /\ asked cs s.
Proof. intros W D. exists (fold_left take cs settings0). split; [apply reading_iff; exact (rd_all _ cs f W D)|apply taken_asked]. Qed.
(** What is accepted: such a line, or one that ends in -b, -O or -d without its value. *)
Theorem C74_accepted_partial l s : nt_args l = AGo s ->
  (exists cs f, writes false cs l f /\ (length (disks cs) <= 4)%nat /\ asked cs s) \/
  (exists cs l0 o, l = l0 ++ [o] /\ writes false cs l0 false /\ (length (disks cs) <= 4)%nat /\ (letter "b" o \/ letter "O" o \/ letter "d" o)).
Proof.
  intros H. apply reading_iff in H. inversion H as [cs f W D|cs l0 o E W D K| | | |]; subst.
  - left. exists cs, f. split; [exact W|]. split; [exact D|apply taken_asked].
  - right. eauto 8.
Qed.
(** Exit code 0 without running: only for help, wherever it stands among good arguments. *)
Theorem C74_help l : nt_args l = AExit 0 <-> exists cs l0 o r, l = l0 ++ o :: r /\ writes false cs l0 false /\ (length (disks cs) <= 4)%nat /\ help o.
Proof.
  split.
  - intros H. apply reading_iff in H. inversion H; subst. eauto 10.
  - intros (cs & l0 & o & r & E & W & D & K). apply reading_iff. exact (rd_help _ cs l0 o r E W D K).
Qed.
(** Exit code 1: exactly at an unknown option or a fifth disk. *)
Theorem C74_refused l : nt_args l = AExit 1 <-> exists cs l0 o r f, l = l0 ++ o :: r /\ writes false cs l0 f /\ (length (disks cs) <= 4)%nat /\
  ((f = false /\ no_option nt_letters nt_longs o) \/ (length (disks cs) = 4%nat /\ (f = true \/ ~ dashed o))).
Proof.
  split.
  - intros H. apply reading_iff in H. inversion H as [| | |cs l0 o r E W D K|cs l0 o r f E W D K|]; subst.
    + exists cs, l0, o, r, false. eauto 8.
    + exists cs, l0, o, r, f. rewrite D. eauto 8.
  - intros (cs & l0 & o & r & f & E & W & D & [[-> K]|[D4 K]]); apply reading_iff; [exact (rd_bad _ cs l0 o r E W D K)|exact (rd_fifth _ cs l0 o r f E W D4 K)].
Qed.
(** A failed assertion: exactly when --cpu or --debug-level ends the line; no other exit code. *)
Theorem C74_aborts l : nt_args l = AAbort <-> exists cs l0 o, l = l0 ++ [o] /\ writes false cs l0 false /\ (length (disks cs) <= 4)%nat /\ (o = "--cpu"%string \/ o = "--debug-level"%string).
Proof.
  split.
  - intros H. apply reading_iff in H. inversion H; subst. eauto 10.
  - intros (cs & l0 & o & E & W & D & K). apply reading_iff. exact (rd_abort _ cs l0 o E W D K).
Qed.
Theorem C74_codes l k : nt_args l = AExit k -> k = 0 \/ k = 1.
Proof. intros H. apply reading_iff in H. inversion H; subst; auto. Qed.
(** The same for mini_test, which takes one image and has no -b, -d and --nogui. *)
Theorem C74_mini_accepts cs l f : writes false cs l f -> Forall mini_choice cs -> (length (disks cs) <= 1)%nat -> exists s, mini_args l = AGo s /\ m_asked cs s.
Proof. intros W M D. exists (fold_left mtake cs msettings0). split; [apply mreading_iff; exact (mr_all _ cs f W M D)|apply mtaken_asked]. Qed.
Theorem C74_mini_accepted_partial l s : mini_args l = AGo s ->
  (exists cs f, writes false cs l f /\ Forall mini_choice cs /\ (length (disks cs) <= 1)%nat /\ m_asked cs s) \/
  (exists cs l0 o, l = l0 ++ [o] /\ writes false cs l0 false /\ Forall mini_choice cs /\ (length (disks cs) <= 1)%nat /\ letter "O" o).
Proof.
  intros H. apply mreading_iff in H. inversion H as [cs f W M D|cs l0 o E W M D K| | | |]; subst.
  - left. exists cs, f. split; [exact W|]. split; [exact M|]. split; [exact D|apply mtaken_asked].
  - right. eauto 10.
Qed.
Theorem C74_mini_refused l : mini_args l = AExit 1 <-> exists cs l0 o r f, l = l0 ++ o :: r /\ writes false cs l0 f /\ Forall mini_choice cs /\ (length (disks cs) <= 1)%nat /\
  ((f = false /\ no_option mini_letters mini_longs o) \/ (length (disks cs) = 1%nat /\ (f = true \/ ~ dashed o))).
Proof.
  split.
  - intros H. apply mreading_iff in H. inversion H as [| | |cs l0 o r E W M D K|cs l0 o r f E W M D K|]; subst.
    + exists cs, l0, o, r, false. eauto 10.
    + exists cs, l0, o, r, f. rewrite D. eauto 10.
  - intros (cs & l0 & o & r & f & E & W & M & D & [[-> K]|[D4 K]]); apply mreading_iff; [exact (mr_bad _ cs l0 o r E W M D K)|exact (mr_second _ cs l0 o r f E W M D4 K)].
Qed.
(** Refuted: an option without its value is reported.  -b, -O and -d at the end of the line are accepted, and cancel an earlier one. *)
Theorem C74_missing_value_refuted cs l : writes false cs l false -> (length (disks cs) <= 4)%nat ->
  (exists s, nt_args (l ++ ["-b"%string]) = AGo s /\ bin_name s = None) /\ (exists s, nt_args (l ++ ["-d"%string]) = AGo s /\ exe_name s = None) /\ (exists s, nt_args (l ++ ["-O"%string]) = AGo s /\ dump_name s = None).
Proof.
  intros W D. split; [|split]; (eexists; split; [apply reading_iff; eapply rd_null; [reflexivity|exact W|exact D|]|reflexivity]).
  - left. exists ""%string. reflexivity.
  - right. right. exists ""%string. reflexivity.
  - right. left. exists ""%string. reflexivity.
Qed.
(** Refuted: "-bFILE" names the file.  What follows the letter is dropped and the next argument is the file. *)
Theorem C74_joined_value_refuted r n : exists s, nt_args [String "-" (String "b" r); n] = AGo s /\ bin_name s = Some n.
Proof. eexists. split; reflexivity. Qed.
(** Refuted: a level that is no number is reported.  It is 0. *)
Theorem C74_bad_level_refuted : exists s, nt_args ["--debug-level"; "high"]%string = AGo s /\ dbg_level s = 0.
Proof. eexists. split; reflexivity. Qed.
(** A line with everything in it. *)
Example C74_case : let l := ["a.img"; "-b"; "old.bin"; "--debug-level"; " 7x"; "--nogui"; "-Out"; "mem.dmp"; "--cpu"; "386"; "-b"; "new.bin"; "--"; "-b"]%string in
  let cs := [Disk "a.img"; Image "old.bin"; LevelIs " 7x"; NoWindow; DumpTo "mem.dmp"; CpuIs "386"; Image "new.bin"; Disk "-b"]%string in
  writes false cs l true /\ disks cs = ["a.img"; "-b"]%string /\ latest (images cs) = Some "new.bin"%string /\ reads_as " 7x" 7 /\
  writes false [Disk "a.img"; LevelIs "2"] ["a.img"; "--debug-level"; "2"]%string false /\ Forall mini_choice [Disk "a.img"; LevelIs "2"]%string /\
  no_option nt_letters nt_longs "-x" /\ no_option nt_letters nt_longs "--nogui2" /\ no_option mini_letters mini_longs "--nogui" /\ help "-hello".
Proof.
  cbv zeta. split; [|split; [reflexivity|split; [reflexivity|split; [|split; [|split; [|split; [|split; [|split]]]]]]]].
  - apply w_disk; [right; intros [r H]; discriminate|]. apply w_image; [exists ""%string; reflexivity|]. apply w_level. apply w_nogui. apply w_dump; [exists "ut"%string; reflexivity|]. apply w_cpu.
    apply w_image; [exists ""%string; reflexivity|]. apply w_stop. apply w_disk; [left; reflexivity|]. apply w_nil.
  - apply (ra_plus [32] [] [55] [120]); [constructor; [left; reflexivity|constructor]|left; reflexivity|discriminate|constructor; [unfold is_digit; lia|constructor]|intros c t [= <- <-]; unfold is_digit; lia|constructor; [lia|constructor]].
  - apply w_disk; [right; intros [r H]; discriminate|]. apply w_level. apply w_nil.
  - repeat constructor.
  - right. left. exists "x"%char. split; [exists ""%string; reflexivity|]. split; [discriminate|]. cbn. intuition discriminate.
  - right. right. exists "n"%char, "ogui2"%string. split; [reflexivity|]. cbn. intuition discriminate.
  - right. right. exists "n"%char, "ogui"%string. split; [reflexivity|]. cbn. intuition discriminate.
  - left. exists "ello"%string. reflexivity.
Qed.
Print Assumptions C74_accepts. Print Assumptions C74_accepted_partial. Print Assumptions C74_help. Print Assumptions C74_refused. Print Assumptions C74_aborts. Print Assumptions C74_codes. Print Assumptions C74_mini_accepts.
Print Assumptions C74_mini_accepted_partial. Print Assumptions C74_mini_refused. Print Assumptions C74_missing_value_refuted. Print Assumptions C74_joined_value_refuted. Print Assumptions C74_bad_level_refuted.

(** ** C75: what a command line boots. *)
Section Boots.
Context (GM : Z) (open : string -> option file) (nullc : bool) (H0 : 0 <= GM) (H1 : nullc = true -> GM <> 0).
(** The window is there in a build with a window unless --nogui was given. *)
Definition window (built : bool) (cs : list choice) (gui : bool) : Prop := gui = true <-> built = true /\ ~ In NoWindow cs.
(** The CPU asked for (286 by default) is a known one, c. *)
Definition cpu_asked (cs : list choice) (c : Z) : Prop := cpu_of (Some (match latest (cpus cs) with Some n => n | None => "80286"%string end)) = Some c.
(** The first floppy image named, fdd.img by default; an empty name is no floppy. *)
Definition floppy_asked (cs : list choice) : option file :=
  let n := match disks cs with [] => "fdd.img"%string | n :: _ => n end in if String.eqb n "" then None else open n.
Lemma started built cs l f : writes false cs l f -> (length (disks cs) <= 4)%nat ->
  exists s gui, asked cs s /\ window built cs gui /\ nt_main GM open built l = of_boot (nt_start GM open gui s) /\ open_fdd open s = floppy_asked cs.
Proof using Type.
  intros W D. destruct (C74_accepts cs l f W D) as (s & E & A). exists s, (built && negb (nogui s)). split; [exact A|]. split; [|split].
  - unfold window. destruct A as (_ & _ & _ & _ & A & _). destruct built, (nogui s) eqn:En; cbn [andb negb]; intuition congruence.
  - unfold nt_main. rewrite E. reflexivity.
  - unfold open_fdd, slot0, floppy_asked. destruct A as (-> & _). reflexivity.
Qed.
(** -d comes first: the program is loaded at 0100:0000 and entered, whatever else is named. *)
Theorem C75_program built cs l f n len x c : writes false cs l f -> (length (disks cs) <= 4)%nat -> cpu_asked cs c -> latest (programs cs) = Some n -> open n = Some (len, x) -> exe_ok len x -> exe_size x <= 0x9EFFE ->
  let sc := (0x100 + exe_cs x) mod 65536 in sc <> 0 \/ exe_ip x <> 0 ->
  exists s gui, nt_main GM open built l = SRun s /\ window built cs gui /\ flat (nt_env GM (floppy_asked cs) gui nullc) GM (ar s) /\ wf_state s /\ hle (ar s) = nt_hle /\
    r_cs (ar s) = sc /\ r_ip (ar s) = exe_ip x /\ r_ss (ar s) = (0x100 + exe_ss x) mod 65536 /\ cpu (ar s) = c /\
    (forall k, 0 <= k < exe_size x -> byte (ar s) (0x1000 + k) = exe_byte x k) /\ (forall k, 0 <= k < 256 -> vector k (ar s) = (0xB800, k)).
Proof using H0 H1.
  intros W D Hc Hn Ho Hok Hs. cbv zeta. intros Hcs. destruct (started built cs l f W D) as (s & gui & A & Wi & E & Ef). destruct A as (A1 & A2 & A3 & A4 & A5 & A6 & A7).
  destruct (start_exe_full GM open gui nullc s n len x c H0 H1 (eq_trans A4 Hn) Ho Hok Hs ltac:(rewrite A6; exact Hc) Hcs) as (s' & E' & B1 & B2 & B3 & B4 & B5 & B6 & B7 & B8 & B9 & B10 & B11).
  exists s', gui. rewrite E, E'. rewrite <- Ef. split; [reflexivity|]. split; [exact Wi|]. split; [exact B1|]. split; [exact B2|]. split; [exact B4|]. split; [exact B5|]. split; [exact B6|]. split; [exact B7|]. split; [exact B8|]. split; [exact B10|exact B11].
Qed.
(** Then -b: an image of at most 64 KB, whole paragraphs, ends at the top of the megabyte and is entered at F000:FFF0; all vectors are 0. *)
Theorem C75_image_partial built cs l f n len x c : writes false cs l f -> (length (disks cs) <= 4)%nat -> cpu_asked cs c -> latest (programs cs) = None -> latest (images cs) = Some n -> open n = Some (len, x) -> bytes x ->
  0 <= len <= 0x10000 -> len mod 16 = 0 ->
  exists s gui, nt_main GM open built l = SRun s /\ window built cs gui /\ ready (nt_env GM (floppy_asked cs) gui nullc) GM s /\ wf_state s /\ hle (ar s) = nt_hle /\
    r_cs (ar s) = 0xF000 /\ r_ip (ar s) = 0xFFF0 /\ r_ss (ar s) = 0 /\ cpu (ar s) = c /\ (forall k, 0 <= k < 8 -> reg 16 k (ar s) = if k =? SP then 0xFFFE else 0) /\
    (forall k, 0 <= k < len -> byte (ar s) (0x100000 - len + k) = x k) /\ (forall k, 0 <= k < 256 -> vector k (ar s) = (0, 0)).
Proof using H0 H1.
  intros W D Hc Hp Hn Ho B Hl Hm. destruct (started built cs l f W D) as (s & gui & A & Wi & E & Ef). destruct A as (A1 & A2 & A3 & A4 & A5 & A6 & A7).
  destruct (start_image GM open gui nullc s n len x c H0 H1 (eq_trans A4 Hp) (eq_trans A2 Hn) Ho B Hl Hm ltac:(rewrite A6; exact Hc)) as (s' & E' & B1 & B2 & B3 & B4 & B5 & B6 & B7 & B8 & B9 & B10 & B11 & B12 & _).
  exists s', gui. rewrite E, E', <- Ef. split; [reflexivity|]. split; [exact Wi|]. split; [exact B1|]. split; [exact B2|]. split; [exact B4|]. split; [exact B5|]. split; [exact B6|]. split; [exact B7|]. split; [exact B8|]. split; [exact B10|]. split; [exact B11|exact B12].
Qed.
(** Else the floppy: its first sector at 07C0:0000, if it is signed. *)
Theorem C75_floppy built cs l f len x c : writes false cs l f -> (length (disks cs) <= 4)%nat -> cpu_asked cs c -> latest (programs cs) = None -> latest (images cs) = None -> floppy_asked cs = Some (len, x) -> bytes x ->
  512 <= len -> x 510 = 0x55 -> x 511 = 0xAA ->
  exists s gui, nt_main GM open built l = SRun s /\ window built cs gui /\ ready (nt_env GM (floppy_asked cs) gui nullc) GM s /\ wf_state s /\ host_ok GM (ar s) /\ hle (ar s) = nt_hle /\
    r_cs (ar s) = 0x07C0 /\ r_ip (ar s) = 0 /\ r_ss (ar s) = 0 /\ cpu (ar s) = c /\ (forall k, 0 <= k < 8 -> reg 16 k (ar s) = if k =? SP then 0xFFFE else 0) /\
    (forall k, 0 <= k < 512 -> byte (ar s) (0x7C00 + k) = x k) /\ (forall k, 0 <= k < 256 -> vector k (ar s) = (0xB800, k)).
Proof using H0 H1.
  intros W D Hc Hp Hn Ho B Hl S1 S2. destruct (started built cs l f W D) as (s & gui & A & Wi & E & Ef). destruct A as (A1 & A2 & A3 & A4 & A5 & A6 & A7).
  destruct (start_floppy_full GM open gui nullc s len x c H0 H1 (eq_trans A4 Hp) (eq_trans A2 Hn) (eq_trans Ef Ho) B ltac:(rewrite A6; exact Hc) Hl S1 S2) as (s' & E' & B1 & B2 & B3 & B4 & B5 & B6 & B7 & B8 & B9 & B10 & B11 & B12 & _).
  exists s', gui. rewrite E, E', <- Ef. split; [reflexivity|]. split; [exact Wi|]. split; [exact B1|]. split; [exact B2|]. split; [exact B3|]. split; [exact B4|]. split; [exact B5|]. split; [exact B6|]. split; [exact B7|]. split; [exact B8|]. split; [exact B10|]. split; [exact B11|exact B12].
Qed.
(** The debug level is the one asked for. *)
Theorem C75_level built cs l f s : writes false cs l f -> (length (disks cs) <= 4)%nat -> nt_main GM open built l = SRun s ->
  match latest (levels cs) with Some t => forall v, reads_as t v -> - 2 ^ 31 <= v < 2 ^ 31 -> dbg s = v | None => dbg s = 1 end.
Proof using Type.
  intros W D Hr. destruct (started built cs l f W D) as (s0 & gui & A & Wi & E & Ef). destruct A as (A1 & A2 & A3 & A4 & A5 & A6 & A7). rewrite Hr in E. unfold nt_start in E.
  destruct (load_media open gui s0) as [[| |]|cs' ip ss m] eqn:El; try discriminate.
  - exfalso. clear - El. unfold load_media in El. destruct (exe_name s0); [destruct (load_exe _ _); try discriminate; destruct (_ && _); discriminate|].
    destruct (bin_name s0); [destruct (open _) as [[? ?]|]; [destruct (negb _); [discriminate|destruct (_ <? _); discriminate]|discriminate]|].
    destruct (open_fdd open s0) as [[? ?]|]; [|discriminate]. destruct (_ <? _); [discriminate|]. cbv zeta in El. destruct (_ && _); discriminate.
  - destruct (cpu_of _); [|discriminate]. injection E as ->. destruct (wc_fields GM gui (dbg_level s0) z cs' ip ss (last_word m)) as (_ & _ & _ & _ & _ & _ & _ & F & _). rewrite F. exact A7.
Qed.
(** Refuted: a missing image file is reported.  Its handle is used unchecked. *)
Theorem C75_missing_image_refuted built cs l f n : writes false cs l f -> (length (disks cs) <= 4)%nat -> latest (programs cs) = None -> latest (images cs) = Some n -> open n = None -> nt_main GM open built l = SUB.
Proof using Type.
  intros W D Hp Hn Ho. destruct (started built cs l f W D) as (s & gui & A & Wi & E & Ef). destruct A as (A1 & A2 & A3 & A4 & A5 & A6 & A7). rewrite E. unfold nt_start, load_media. rewrite A4, Hp, A2, Hn, Ho. reflexivity.
Qed.
(** Refuted: an image over 64 KB is an error.  It is not loaded, the run stops at once and the exit code is 0. *)
Theorem C75_large_image_refuted built cs l f n len x c : writes false cs l f -> (length (disks cs) <= 4)%nat -> cpu_asked cs c -> latest (programs cs) = None -> latest (images cs) = Some n -> open n = Some (len, x) -> 0x10000 < len -> len mod 16 = 0 ->
  exists s s' gui, nt_main GM open built l = SRun s /\ window built cs gui /\ main_loop (nt_env GM (floppy_asked cs) gui nullc) 1 s = MExit 0 s'.
Proof using H0 H1.
  intros W D Hc Hp Hn Ho Hl Hm. destruct (started built cs l f W D) as (s & gui & A & Wi & E & Ef). destruct A as (A1 & A2 & A3 & A4 & A5 & A6 & A7).
  destruct (start_large GM open gui nullc s n len x c H0 H1 (eq_trans A4 Hp) (eq_trans A2 Hn) Ho Hl Hm ltac:(rewrite A6; exact Hc)) as (s' & s'' & E' & M). exists s', s'', gui. rewrite E, E', <- Ef. auto.
Qed.
(** Refuted: nothing to boot is an error.  The run stops at once and the exit code is 0. *)
Theorem C75_nothing_refuted built cs l f c : writes false cs l f -> (length (disks cs) <= 4)%nat -> cpu_asked cs c -> latest (programs cs) = None -> latest (images cs) = None -> floppy_asked cs = None ->
  exists s s' gui, nt_main GM open built l = SRun s /\ window built cs gui /\ main_loop (nt_env GM (floppy_asked cs) gui nullc) 1 s = MExit 0 s'.
Proof using H0 H1.
  intros W D Hc Hp Hn Ho. destruct (started built cs l f W D) as (s & gui & A & Wi & E & Ef). destruct A as (A1 & A2 & A3 & A4 & A5 & A6 & A7).
  destruct (start_nothing GM open gui nullc s c H0 H1 (eq_trans A4 Hp) (eq_trans A2 Hn) (eq_trans Ef Ho) ltac:(rewrite A6; exact Hc)) as (s' & s'' & E' & M). exists s', s'', gui. rewrite E, E', Ho. auto.
Qed.
(** Refuted: an unbootable floppy and an unknown CPU are errors.  The exit code is 0 ("nothing failed"). *)
Theorem C75_unbootable_refuted built cs l f len x : writes false cs l f -> (length (disks cs) <= 4)%nat -> latest (programs cs) = None -> latest (images cs) = None -> floppy_asked cs = Some (len, x) ->
  len < 512 \/ x 510 <> 0x55 \/ x 511 <> 0xAA -> nt_main GM open built l = SExit 0.
Proof using Type.
  intros W D Hp Hn Ho K. destruct (started built cs l f W D) as (s & gui & A & Wi & E & Ef). destruct A as (A1 & A2 & A3 & A4 & A5 & A6 & A7).
  rewrite E, (start_bad_floppy GM open gui s len x (eq_trans A4 Hp) (eq_trans A2 Hn) (eq_trans Ef Ho) K). reflexivity.
Qed.
Theorem C75_unknown_cpu_refuted built cs l f : writes false cs l f -> (length (disks cs) <= 4)%nat -> latest (programs cs) = None -> latest (images cs) = None -> floppy_asked cs = None ->
  (forall c, ~ cpu_asked cs c) -> nt_main GM open built l = SExit 0.
Proof using Type.
  intros W D Hp Hn Ho K. destruct (started built cs l f W D) as (s & gui & A & Wi & E & Ef). destruct A as (A1 & A2 & A3 & A4 & A5 & A6 & A7).
  rewrite E. unfold nt_start, load_media. rewrite A4, Hp, A2, Hn, Ef, Ho, A6. unfold cpu_asked in K. destruct (cpu_of _); [exfalso; eapply K; reflexivity|reflexivity].
Qed.
(** An unknown CPU never runs. *)
Theorem C75_unknown_cpu_never_runs built cs l f s : writes false cs l f -> (length (disks cs) <= 4)%nat -> (forall c, ~ cpu_asked cs c) -> nt_main GM open built l <> SRun s.
Proof using Type.
  intros W D K. destruct (started built cs l f W D) as (s0 & gui & A & Wi & E & Ef). destruct A as (A1 & A2 & A3 & A4 & A5 & A6 & A7). rewrite E.
  destruct (start_bad_cpu GM open gui s0) as [[c H]|H]; [rewrite A6; unfold cpu_asked in K; destruct (cpu_of _); [exfalso; eapply K; reflexivity|reflexivity]| |]; rewrite H; discriminate.
Qed.
(** mini_test runs its one image the same way (C66). *)
Theorem C75_mini cs l f n len x c ports : writes false cs l f -> Forall mini_choice cs -> disks cs = [n] -> cpu_of (latest (cpus cs)) = Some c -> open n = Some (len, x) -> bytes x -> 0 <= len <= 0x10000 -> len mod 16 = 0 ->
  exists s, mini_main GM open l = SRun s /\ ready (mini_env nullc ports) GM s /\ wf_state s /\ r_cs (ar s) = 0xF000 /\ r_ip (ar s) = 0xFFF0 /\ cpu (ar s) = c /\
    (forall k, 0 <= k < len -> byte (ar s) (0x100000 - len + k) = x k) /\ (forall k, 0 <= k < 256 -> vector k (ar s) = (0, 0)).
Proof using H0 H1.
  intros W M D Hc Ho B Hl Hm. destruct (C74_mini_accepts cs l f W M ltac:(rewrite D; cbn; lia)) as (s & E & A1 & A2 & A3 & A4). unfold mini_main. rewrite E, A1, D. change (latest [n]) with (Some n). cbv iota. rewrite Ho, A3.
  destruct (mini_boot_ok GM nullc ports (m_level s) (latest (cpus cs)) c len x H0 H1 B Hl Hm Hc) as (s' & E' & (B1 & B2 & B3 & B4 & B5 & _) & B6 & B7 & _). exists s'. split; [exact (f_equal of_boot E')|]. auto 10.
Qed.
Theorem C75_mini_missing_refuted cs l f n : writes false cs l f -> Forall mini_choice cs -> disks cs = [n] -> open n = None -> mini_main GM open l = SUB.
Proof using Type.
  clear H0 H1.
  intros W M D Ho. destruct (C74_mini_accepts cs l f W M ltac:(rewrite D; cbn; lia)) as (s & E & A1 & _ & _). unfold mini_main. rewrite E, A1, D. unfold latest. cbn [map last]. rewrite Ho. reflexivity.
Qed.
End Boots.
(** A host with a floppy image, a BIOS image and a large file; command lines.  (C63_case gives a program that meets exe_ok.) *)
Definition c75_files (n : string) : option file :=
  if String.eqb n "a.img" then Some (512, fun k => if k =? 510 then 0x55 else if k =? 511 then 0xAA else 0x90)
  else if String.eqb n "bios.bin" then Some (32, fun _ => 0xF4) else if String.eqb n "big.bin" then Some (0x20000, fun _ => 0x90) else None.
Example C75_case : let cs1 := [Disk "a.img"] in let cs2 := [Disk "a.img"; Image "bios.bin"; CpuIs "386"] in
  writes false cs1 ["a.img"]%string false /\ cpu_asked cs1 1 /\ floppy_asked c75_files cs1 = c75_files "a.img" /\ bytes (fun k => if k =? 510 then 0x55 else if k =? 511 then 0xAA else 0x90) /\
  writes false cs2 ["a.img"; "-b"; "bios.bin"; "--cpu"; "386"]%string false /\ cpu_asked cs2 2 /\ latest (images cs2) = Some "bios.bin"%string /\
  floppy_asked c75_files [] = None /\ (forall c, ~ cpu_asked [CpuIs "486"] c) /\ c75_files "big.bin" = Some (0x20000, fun _ => 0x90) /\ window true cs1 true /\ window true [NoWindow] false /\ window false [] false.
Proof.
  cbv zeta. split; [apply w_disk; [right; intros [r H]; discriminate|apply w_nil]|]. split; [reflexivity|]. split; [reflexivity|]. split; [intros k; destruct (k =? 510); [lia|]; destruct (k =? 511); lia|].
  split; [apply w_disk; [right; intros [r H]; discriminate|]; apply w_image; [exists ""%string; reflexivity|]; apply w_cpu; apply w_nil|]. split; [reflexivity|]. split; [reflexivity|]. split; [reflexivity|]. split; [intros c H; discriminate H|]. split; [reflexivity|].
  unfold window. cbn [In]. intuition congruence.
Qed.
Print Assumptions C75_program. Print Assumptions C75_image_partial. Print Assumptions C75_floppy. Print Assumptions C75_level. Print Assumptions C75_missing_image_refuted. Print Assumptions C75_large_image_refuted. Print Assumptions C75_nothing_refuted.
Print Assumptions C75_unbootable_refuted. Print Assumptions C75_unknown_cpu_refuted. Print Assumptions C75_unknown_cpu_never_runs. Print Assumptions C75_mini. Print Assumptions C75_mini_missing_refuted.
