(** Property theorems C76, C77: the tester's window; register reports. *)
From Coq Require Import String Ascii.
From Verif Require Import Base Cpu Ops Machine Spec SpecOps SpecOps2 SpecSys SpecRun SpecTop SpecStop SpecCodes Native SpecNative Native2 SpecNative2 Native3 SpecNative3
  PBase PMem PRun PExec PTop2 PSmall PStop PStop2 PNative2 PNative3 PNative4 PNative7 PNative8 PNative9 PCodes PNative10 PArgs PArgs2 PBoot PBoot2 PGui PReport PNative5 Demo.
Local Open Scope Z_scope.

(** ** C76: the window shows the text screen. *)
(** [PGui.glyph c j] is entry 16 c + j of the font table, [PGui.palette i] entry i of the colour table. *)
Definition cells_ok (f : Z -> Z -> Z * Z) : Prop := forall x y, on_screen x y -> 0 <= fst (f x y) < 256 /\ 0 <= snd (f x y) < 256.
Definition shown (f : Z -> Z -> Z * Z) : Z -> Z -> Z := picture (fun c r => fst (f c r)) (fun c r => snd (f c r)) glyph palette.
Lemma vid_cells GM a f : scr_is GM a f -> cells_ok f -> forall i, 0 <= i < 4000 -> 0 <= vidmem GM a i < 256.
Proof.
  intros S C i Hi. unfold vidmem, gbyte. assert (O : on_screen ((i / 2) mod 80) (i / 160)) by (unfold on_screen; lia). destruct (S _ _ O) as [S1 S2]. destruct (C _ _ O) as [C1 C2]. unfold SpecNative.cell_at, SCREEN in S1, S2.
  destruct (Z.eq_dec (i mod 2) 0) as [E|E].
  - replace (GM + 753664 + i) with (GM + (753664 + 2 * (80 * (i / 160) + (i / 2) mod 80))) by lia. rewrite S1. exact C1.
  - replace (GM + 753664 + i) with (GM + (753664 + 2 * (80 * (i / 160) + (i / 2) mod 80) + 1)) by lia. rewrite S2. exact C2.
Qed.
(** A redraw paints exactly the 640 x 400 window: each cell its character's glyph in its attribute's colours. *)
Theorem C76_picture GM a f p : scr_is GM a f -> cells_ok f ->
  exists p', video_redraw true (vidmem GM a) p = Some p' /\ (forall x y, in_window x y -> p' x y = shown f x y) /\ (forall x y, ~ in_window x y -> p' x y = p x y).
Proof.
  intros S C. destruct (redraw_ok (vidmem GM a) (vid_cells GM a f S C) p) as (p' & E & K1 & K2). exists p'. split; [exact E|]. split; [|exact K2]. intros x y H. rewrite K1 by exact H.
  unfold shown, picture, PGui.cell_ch, PGui.cell_at, vidmem, gbyte. unfold in_window in H. assert (O : on_screen (x / 8) (y / 16)) by (unfold on_screen; lia). destruct (S _ _ O) as [S1 S2]. unfold SpecNative.cell_at, SCREEN in S1, S2.
  replace (GM + 753664 + (y / 16 * 80 + x / 8) * 2) with (GM + (753664 + 2 * (80 * (y / 16) + x / 8))) by lia. replace (GM + 753664 + ((y / 16 * 80 + x / 8) * 2 + 1)) with (GM + (753664 + 2 * (80 * (y / 16) + x / 8) + 1)) by lia. rewrite S1, S2. reflexivity.
Qed.
(** It never reads outside its tables, whatever bytes the guest wrote. *)
Theorem C76_defined GM a gui p : host_ok GM a -> exists p', video_redraw gui (vidmem GM a) p = Some p'.
Proof.
  intros H. assert (V : forall i, 0 <= i < 4000 -> 0 <= vidmem GM a i < 256).
  { intros i Hi. unfold vidmem, gbyte. destruct (H (GM + 753664 + i)) as [b [E B]]; [left; unfold guest; lia|]. rewrite E. exact B. }
  destruct gui; [destruct (redraw_ok _ V p) as (p' & E & _); eauto|]. rewrite (redraw_none _ V). eauto.
Qed.
(** Without a window nothing is painted. *)
Theorem C76_no_window GM a p : host_ok GM a -> video_redraw false (vidmem GM a) p = Some p.
Proof.
  intros H. apply redraw_none. intros i Hi. unfold vidmem, gbyte. destruct (H (GM + 753664 + i)) as [b [E B]]; [left; unfold guest; lia|]. rewrite E. exact B.
Qed.
(** The window can be read: where the attribute has two colours, the pixels of a cell determine its character, but for 0, 32 and 255, which are blank. *)
Theorem C76_legible f g x y : on_screen x y -> cells_ok f -> cells_ok g -> snd (f x y) = snd (g x y) -> snd (f x y) / 16 <> snd (f x y) mod 16 ->
  (forall i j, 0 <= i < 8 -> 0 <= j < 16 -> shown f (8 * x + i) (16 * y + j) = shown g (8 * x + i) (16 * y + j)) ->
  fst (f x y) = fst (g x y) \/ ((fst (f x y) = 0 \/ fst (f x y) = 32 \/ fst (f x y) = 255) /\ (fst (g x y) = 0 \/ fst (g x y) = 32 \/ fst (g x y) = 255)).
Proof.
  intros O Cf Cg Ea Ne H. destruct (Cf x y O) as [F1 F2]. destruct (Cg x y O) as [G1 G2]. apply glyphs_differ; try assumption.
  apply (cell_legible _ _ (snd (f x y))); try assumption. intros i j Hi Hj. specialize (H i j Hi Hj). unfold shown, picture in H.
  replace ((8 * x + i) / 8) with x in H by lia. replace ((16 * y + j) / 16) with y in H by lia. replace ((8 * x + i) mod 8) with i in H by lia. replace ((16 * y + j) mod 16) with j in H by lia. rewrite <- Ea in H. exact H.
Qed.
(** With the window, a booted floppy starts with "RME NativeTest" in bright white on the first line, and nothing else. *)
Definition banner_cells (x y : Z) : Z * Z := if (y =? 0) && (x <? 14) then (nth (Z.to_nat x) [82; 77; 69; 32; 78; 97; 116; 105; 118; 101; 84; 101; 115; 116] 0, 0x0F) else (0, 0).
Theorem C76_banner GM open s len img c p : 0 <= GM -> exe_name s = None -> bin_name s = None -> open_fdd open s = Some (len, img) -> bytes img -> cpu_of (Some (cpu_name s)) = Some c -> 512 <= len -> img 510 = 0x55 -> img 511 = 0xAA ->
  exists s' p', nt_start GM open true s = BRun s' /\ video_redraw true (vidmem GM (ar s')) p = Some p' /\ forall x y, in_window x y -> p' x y = shown banner_cells x y.
Proof.
  intros H0 He Hb Hf B Hc Hl S1 S2. destruct (start_floppy_full GM open true false s len img c H0 ltac:(discriminate) He Hb Hf B Hc Hl S1 S2) as (s' & E & R & W & Ho & _ & _ & _ & _ & _ & _ & _ & _ & _ & Sc).
  pose proof R as [Fl _ _ _].
  assert (Hm : forall k, 0 <= k < 4000 -> hmem (ar s') (GM + (0xB8000 + k)) = Some (byte (ar s') (0xB8000 + k))).
  { intros k Hk. destruct (Ho (GM + (0xB8000 + k))) as [b [Eb _]]; [left; unfold guest; lia|]. unfold byte, host. rewrite (fl_tab _ _ _ Fl) by lia. replace (GM + 4096 * ((753664 + k) / 4096) + (753664 + k) mod 4096) with (GM + (753664 + k)) by lia. rewrite Eb. reflexivity. }
  assert (S : scr_is GM (ar s') banner_cells).
  { intros x y [Ox Oy]. unfold SpecNative.cell_at, SCREEN. rewrite <- (Z.add_assoc 753664 _ 1). rewrite !Hm by lia. rewrite !Sc by lia. unfold banner_cells. cbn [andb].
    replace (Z.even (2 * (80 * y + x))) with true by (symmetry; rewrite Z.even_mul; reflexivity). replace (Z.even (2 * (80 * y + x) + 1)) with false by (symmetry; rewrite Z.even_add, Z.even_mul; reflexivity).
    destruct ((y =? 0) && (x <? 14)) eqn:Ec; cbn [fst snd].
    - replace (2 * (80 * y + x) <? 28) with true by lia. replace (2 * (80 * y + x) + 1 <? 28) with true by lia. replace (2 * (80 * y + x) / 2) with x by lia. split; reflexivity.
    - replace (2 * (80 * y + x) <? 28) with false by lia. replace (2 * (80 * y + x) + 1 <? 28) with false by lia. split; reflexivity. }
  destruct (C76_picture GM (ar s') banner_cells p S) as (p' & Ep & K & _).
  { intros x y [Ox Oy]. unfold banner_cells. destruct ((y =? 0) && (x <? 14)); cbn [fst snd]; [|lia]. split; [|lia].
    assert (F : Forall (fun v => 0 <= v < 256) [82; 77; 69; 32; 78; 97; 116; 105; 118; 101; 84; 101; 115; 116]) by (repeat constructor; lia).
    match goal with |- 0 <= nth ?n ?l 0 < 256 => destruct (nth_in_or_default n l 0) as [I| ->]; [exact (proj1 (Forall_forall _ _) F _ I)|lia] end. }
  exists s', p'. auto.
Qed.
(** Teletype output appears: after INT 10h/AH=0E the next redraw shows the terminal with the character printed. *)
Theorem C76_teletype GM a T p : reg 8 AH a = 0x0E -> 0 <= gbyte (G_ATTR GM) a < 256 -> on_screen (tx T) (ty T) -> shows GM a T -> cells_ok (scr T) -> needs_scroll (reg 8 AL a) T = false ->
  exists a' p', hle10 GM a = NRet a' /\ video_redraw true (vidmem GM a') p = Some p' /\ forall x y, in_window x y -> p' x y = shown (scr (teletype (reg 8 AL a) (gbyte (G_ATTR GM) a) T)) x y.
Proof.
  intros H Ht Ho Hs C Hn. assert (Hc : 0 <= reg 8 AL a < 256) by (apply reg8_range; lia). rewrite tty_eq by exact H. destruct (teletype_ok GM _ _ a T Hc Ht Ho Hs Hn) as (a' & E & (_ & _ & S) & _).
  destruct (C76_picture GM a' _ p S) as (p' & Ep & K & _); [|exists a', p'; auto].
  intros x y O. pose proof (C x y O) as Cxy. unfold on_screen in *. pose proof (C x (y + 1)) as Cdn. unfold teletype, draw, down. unfold needs_scroll in Hn.
  repeat (match goal with |- context [if ?b then _ else _] => destruct b eqn:? end; cbn [scr tx ty fst snd]); try exact Cxy; try (split; lia).
Qed.
(** Redraw requests: in every schedule of the timer and the main thread at most one is queued, and none is lost while the queue takes it. *)
Theorem C76_one_request full g : gui_runs full gui0 g -> (queued g <= 1)%nat.
Proof. intros R. destruct (gui_inv_runs full g R) as (I & _). unfold outstanding in I. lia. Qed.
Theorem C76_redraws_again g : gui_runs false gui0 g -> exists g', gui_runs false g g' /\ redraws g' = S (redraws g).
Proof. exact (gui_live g). Qed.
(** Refuted: the window keeps being redrawn.  If the event queue once refuses a request, no redraw ever follows. *)
Theorem C76_refused_request_refuted : exists g, gui_runs true gui0 g /\ forall g', gui_runs true g g' -> redraws g' = redraws g.
Proof. exists lost. split; [exact lost_reached|]. intros g' R. rewrite (lost_stuck g' R). reflexivity. Qed.
(** Colours: bit 0 blue, bit 1 green, bit 2 red, for 0, 1, 2, 4, 5. *)
Definition part (k c : Z) : Z := (c / 256 ^ k) mod 256.
Theorem C76_colours_partial i k : In i [0; 1; 2; 4; 5] -> 0 <= k < 3 -> part k (palette i) = if Z.testbit i k then 255 else 0.
Proof.
  intros Hi Hk. assert (K : k = 0 \/ k = 1 \/ k = 2) by lia. cbn [In] in Hi. repeat (destruct Hi as [<-|Hi]; [destruct K as [->|[->| ->]]; reflexivity|]). contradiction.
Qed.
(** Refuted: colour 3 is cyan.  It is yellow. *)
Theorem C76_cyan_refuted : palette 3 = 0xFFFF00 /\ part 2 (palette 3) = 255 /\ part 0 (palette 3) = 0. Proof. repeat split. Qed.
Example C76_case : cells_ok banner_cells /\ on_screen 3 0 /\ snd (banner_cells 2 0) / 16 <> snd (banner_cells 2 0) mod 16 /\
  shown banner_cells 9 2 <> shown banner_cells 9 0 /\ gui_runs false gui0 (mkGui true 1 TIdle PIdle 0).
Proof.
  split.
  { intros x y [Ox Oy]. unfold banner_cells. destruct ((y =? 0) && (x <? 14)); cbn [fst snd]; [|lia]. split; [|lia].
    assert (F : Forall (fun v => 0 <= v < 256) [82; 77; 69; 32; 78; 97; 116; 105; 118; 101; 84; 101; 115; 116]) by (repeat constructor; lia).
    match goal with |- 0 <= nth ?n ?l 0 < 256 => destruct (nth_in_or_default n l 0) as [I| ->]; [exact (proj1 (Forall_forall _ _) F _ I)|lia] end. }
  split; [unfold on_screen; lia|]. split; [vm_compute; discriminate|]. split; [vm_compute; discriminate|].
  eapply gr_step; [eapply gr_step; [eapply gr_step; [apply gr_refl|apply gs_see; reflexivity]|apply gs_mark; reflexivity]|]. apply (gs_push false (mkGui true 0 TMarked PIdle 0)). reflexivity.
Qed.
Print Assumptions C76_picture. Print Assumptions C76_defined. Print Assumptions C76_no_window. Print Assumptions C76_legible. Print Assumptions C76_banner. Print Assumptions C76_teletype. Print Assumptions C76_one_request. Print Assumptions C76_redraws_again.
Print Assumptions C76_refused_request_refuted. Print Assumptions C76_colours_partial. Print Assumptions C76_cyan_refuted.

(** ** C77: the register reports of the testers. *)
(** [reg_reports E fuel prev0 s]: the reports printed while running from s.  [chatty]: the debug level stays at least 1. *)
(** Report k + 1 (k >= 1) names exactly the registers that instruction k + 1 changed, with old and new values.  (AX ... DI are the 32-bit registers; CS and IP are not reported.) *)
Theorem C77_changes_partial E k s s1 s2 fuel : chatty E (S k) s -> runs E k s s1 -> run_one E s1 = Ok tt s2 -> (1 <= k < fuel)%nat ->
  exists r, nth_error (reg_reports E fuel prev0 s) k = Some r /\
    forall n, lookup n r = if named (ar s1) n =? named (ar s2) n then None else Some (named (ar s1) n, named (ar s2) n).
Proof.
  intros C R H F. destruct (reports_at E k s prev0 s1 s2 fuel C eq_refl R H ltac:(lia)) as (r & Hr & K). exists r. split; [exact Hr|]. destruct k; [lia|exact K].
Qed.
(** Replaying the reports from all zero gives the registers after each instruction. *)
Theorem C77_replay E k s s1 fuel : chatty E (S k) s -> runs E (S k) s s1 -> (k < fuel)%nat -> forall n,
  fold_left (fun g r => apply_report r g) (firstn (S k) (reg_reports E fuel prev0 s)) (fun _ => 0) n = named (ar s1) n.
Proof. intros C R F. apply (replay E prev0 fuel s s1 k C eq_refl R F). intros n. rewrite zero_assoc. reflexivity. Qed.
(** In mini_test, and with any host that leaves the debug level alone, "chatty" is the level at the start. *)
Theorem C77_level E n s : polite E -> wf_state s -> 1 <= dbg s -> chatty E n s. Proof. exact (polite_chatty E n s). Qed.
Theorem C77_silent E fuel s : polite E -> wf_state s -> dbg s < 1 -> reg_reports E fuel prev0 s = [].
Proof.
  intros P W D. apply silent. intros j t R. revert W D. induction R as [s|j s u t Hr _ IH]; intros W D; [exact D|].
  pose proof (run_one_general E P s W) as G. rewrite Hr in G. destruct G as (G & _). apply IH; [apply G|]. rewrite (sc_dbg _ _ (ge_config _ _ G)). exact D.
Qed.
(** Refuted: the first report names what the first instruction changed.  It names what is not zero. *)
Theorem C77_first_refuted E s s1 fuel : chatty E 1 s -> run_one E s = Ok tt s1 -> (0 < fuel)%nat ->
  exists r, nth_error (reg_reports E fuel prev0 s) 0 = Some r /\ forall n, lookup n r = if 0 =? named (ar s1) n then None else Some (0, named (ar s1) n).
Proof.
  intros C H F. destruct (reports_at E 0 s prev0 s s1 fuel C eq_refl ltac:(constructor) H F) as (r & Hr & K). exists r. split; [exact Hr|]. intros n. rewrite (K n), zero_assoc. reflexivity.
Qed.
(** INC CX; INC DX: the second report is DX and the flags (3 + 1 changes the parity), the first has every register that is not zero. *)
Definition c77_state : st := let s := demo [1; 2; 3; 4; 5; 6; 7; 8] 2 [] [0x41; 0x42] in mkSt (ar s) (dc s) 1 (icount s) (lastnull s).
Example C77_case : map (map (fun r => fst (fst r))) (reg_reports demo_env 2 prev0 c77_state) = [["AX"; "CX"; "DX"; "BX"; "SP"; "BP"; "SI"; "DI"; "SS"; "DS"; "ES"; "FS"; "GS"; "Flags"]; ["DX"; "Flags"]]%string /\
  (exists s1, run_one demo_env c77_state = Ok tt s1 /\ reg 16 CX (ar s1) =? 3 = true).
Proof. split; [vm_compute; reflexivity|]. apply okb_ex. vm_compute. reflexivity. Qed.
Print Assumptions C77_changes_partial. Print Assumptions C77_replay. Print Assumptions C77_level. Print Assumptions C77_silent. Print Assumptions C77_first_refuted.
