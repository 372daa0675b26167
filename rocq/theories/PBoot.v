(** The tester's start-up: what the settings boot. *)
From Coq Require Import String Ascii.
From Verif Require Import Base Cpu Ops Machine Spec SpecOps SpecOps2 SpecRun SpecTop SpecSys SpecCodes SpecStop Native SpecNative Native2 SpecNative2 Native3 SpecNative3 PBase PMem PRun PExec PTop PTop2 PTop3 PSmall
  PNative PNative3 PNative4 PNative8 PNative10 PCodes PStop PArgs.
Local Open Scope Z_scope.

Section Boot.
Context (GM : Z) (open : string -> option file).
Lemma start_byte gui : bytes (start_memory gui).
Proof.
  intros y. unfold start_memory. destruct gui; [|apply bios_byte]. apply disk_block_byte. apply ivt_byte; [lia|]. apply mput_all; [intros b [<-|[<-|[]]]; lia|].
  apply mput_all.
  - apply (proj1 (Forall_forall (fun b => 0 <= b < 256) _)). unfold banner_text. cbn [flat_map app]. repeat constructor; lia.
  - intros z. unfold mfill. destruct (_ && _); lia.
Qed.
Lemma start_ivt gui k i : 0 <= k < 256 -> 0 <= i < 4 -> start_memory gui (4 * k + i) = nth (Z.to_nat i) [k; 0; 0x00; 0xB8] 0.
Proof. intros Hk Hi. unfold start_memory. destruct gui; [|apply bios_ivt; assumption]. rewrite disk_block_out by lia. apply ivt_in; lia. Qed.
Lemma start_fill gui y : 1024 <= y < 0xB8000 \/ 0xB8FA0 <= y < 0xF0000 \/ 0xF0002 <= y < 0xF1000 \/ 0xF102A <= y -> start_memory gui y = 0xF1.
Proof.
  intros H. assert (K : forall m, disk_block (ivt 256 (mput 0xF0000 [0x67; 201] m)) y = m y).
  { intros m. rewrite disk_block_out by lia. rewrite ivt_out by lia. apply mput_out. cbn [length]. lia. }
  unfold start_memory, bios_memory. destruct gui; rewrite K.
  - unfold banner. rewrite mput_out by (unfold banner_text; cbn [flat_map app length]; lia). unfold mfill. replace (_ && _) with false by lia. reflexivity.
  - unfold mfill. replace (_ && _) with false by lia. reflexivity.
Qed.
Lemma start_screen gui k : 0 <= k < 4000 -> start_memory gui (0xB8000 + k) =
  if gui && (k <? 28) then (if Z.even k then nth (Z.to_nat (k / 2)) banner_text 0 else 0x0F) else 0.
Proof.
  intros H. assert (K : forall m, disk_block (ivt 256 (mput 0xF0000 [0x67; 201] m)) (0xB8000 + k) = m (0xB8000 + k)).
  { intros m. rewrite disk_block_out by lia. rewrite ivt_out by lia. apply mput_out. cbn [length]. lia. }
  unfold start_memory, bios_memory. destruct gui; rewrite K; cbn [andb].
  - unfold banner. destruct (Z.ltb_spec k 28).
    + rewrite mput_at by (unfold banner_text; cbn [flat_map app length]; lia). replace (0xB8000 + k - 0xB8000) with k by lia.
      assert (Hk : In k (map Z.of_nat (seq 0 28))) by (apply in_map_iff; exists (Z.to_nat k); split; [lia|apply in_seq; lia]).
      cbn [seq map] in Hk. cbn [In] in Hk. repeat (destruct Hk as [<-|Hk]; [reflexivity|]). contradiction.
    + rewrite mput_out by (unfold banner_text; cbn [flat_map app length]; lia). unfold mfill. replace (_ && _) with true by lia. reflexivity.
  - unfold mfill. replace (_ && _) with true by lia. reflexivity.
Qed.
(** The start state, with or without the window. *)
Section State.
Context (gui nullc : bool) (fdd : option file) (debug c cs ip ss : Z) (m : Z -> Z) (H0 : 0 <= GM) (H1 : nullc = true -> GM <> 0) (B : bytes m)
  (Hcs : 0 <= cs < 65536) (Hip : 0 <= ip < 65536) (Hss : 0 <= ss < 65536).
Let s := with_cursor GM gui (nt_state GM debug c cs ip ss m).
Lemma wc_svc : svc GM (ar (nt_state GM debug c cs ip ss m)) (ar s).
Proof using Type. unfold s, with_cursor. destruct gui; [|apply svc_refl]. exact (svc_cy GM 1 _). Qed.
Lemma wc_flat : flat (nt_env GM fdd gui nullc) GM (ar s).
Proof. apply (svc_flat GM _ (ar (nt_state GM debug c cs ip ss m))); [apply nt_flat; assumption|apply nt_host_ok, B|apply wc_svc]. Qed.
Lemma wc_host : host_ok GM (ar s). Proof. apply (sv_host _ _ _ wc_svc). apply nt_host_ok, B. Qed.
Lemma wc_wf : wf_state s.
Proof.
  pose proof (nt_wf_state GM debug c cs ip ss m Hcs Hip Hss B) as [Wr Wb W3 W4 W5]. constructor.
  - apply (sv_wf _ _ _ wc_svc). exact Wr.
  - intros x b. unfold s, with_cursor. destruct gui; [|apply Wb]. unfold set_gint. cbn [ar hmem a_hmem]. rewrite store4_at. destruct (_ && _); [intros [= <-]; lia|apply Wb].
  - unfold s, with_cursor. destruct gui; exact W3.
  - unfold s, with_cursor. destruct gui; exact W4.
  - unfold s, with_cursor. destruct gui; exact W5.
Qed.
Lemma wc_byte x : 0 <= x < 1114112 -> byte (ar s) x = m x.
Proof using Type.
  clear H0 H1 Hcs Hip Hss B.
  intros H. unfold s, with_cursor. destruct gui; [|apply nt_byte, H]. rewrite <- (nt_byte GM debug c cs ip ss m x H). unfold byte, host, set_gint. cbn [ar hmem a_hmem mtab].
  rewrite store4_at. unfold G_CY. cbn [nt_state ar mtab]. replace (_ && _) with false by lia. reflexivity.
Qed.
Lemma wc_gprs : gprs (ar s) = gprs (ar (nt_state GM debug c cs ip ss m)). Proof using Type. unfold s, with_cursor. destruct gui; reflexivity. Qed.
Lemma wc_reg n : 0 <= n < 8 -> reg 16 n (ar s) = if n =? 4 then 0xFFFE else 0.
Proof using Type. clear H0 H1 Hcs Hip Hss B. intros H. rewrite <- (nt_reg GM debug c cs ip ss m n H). unfold reg, gpr. rewrite wc_gprs. reflexivity. Qed.
Lemma wc_fields : r_cs (ar s) = cs /\ r_ip (ar s) = ip /\ r_ss (ar s) = ss /\ r_ds (ar s) = 0 /\ r_es (ar s) = 0 /\ cpu (ar s) = c /\ hle (ar s) = nt_hle /\ dbg s = debug /\ lastnull s = false /\ icount s = 0 /\ gint (G_CX GM) (ar s) = 0 /\ gint (G_CY GM) (ar s) = if gui then 1 else 0.
Proof using Type.
  clear H0 H1 Hcs Hip Hss B.
  unfold s, with_cursor. assert (Hn : forall i, 0 <= i < 8 -> nt_host GM m (GM + 0x200000 + i) = Some 0).
  { intros i Hi. unfold nt_host, GSIZE, G_CX, G_KEYS, G_ATTR. replace ((GM <=? GM + 2097152 + i) && (GM + 2097152 + i <? GM + 1114112)) with false by lia.
    replace ((GM + 2097152 <=? GM + 2097152 + i) && (GM + 2097152 + i <? GM + 2097168 + 32)) with true by lia. replace (GM + 2097152 + i =? GM + 2097160) with false by lia. reflexivity. }
  assert (Hc : gint (G_CX GM) (ar (nt_state GM debug c cs ip ss m)) = 0).
  { unfold gint, G_CX. cbn [nt_state ar hmem load_bytes]. replace (GM + 2097152) with (GM + 2097152 + 0) at 1 by lia. replace (GM + 2097152 + 1 + 1) with (GM + 2097152 + 2) by lia. replace (GM + 2097152 + 2 + 1) with (GM + 2097152 + 3) by lia. rewrite !Hn by lia. reflexivity. }
  assert (Hy : gint (G_CY GM) (ar (nt_state GM debug c cs ip ss m)) = 0).
  { unfold gint, G_CY. cbn [nt_state ar hmem load_bytes]. replace (GM + 2097156) with (GM + 2097152 + 4) by lia. replace (GM + 2097152 + 4 + 1) with (GM + 2097152 + 5) by lia. replace (GM + 2097152 + 5 + 1) with (GM + 2097152 + 6) by lia. replace (GM + 2097152 + 6 + 1) with (GM + 2097152 + 7) by lia. rewrite !Hn by lia. reflexivity. }
  destruct gui.
  - do 10 (split; [reflexivity|]). split.
    + revert Hc. generalize (ar (nt_state GM debug c cs ip ss m)). intros a Hc. cbn [ar]. unfold gint, set_gint in *. cbn [hmem a_hmem load_bytes] in *. rewrite !store4_at. unfold G_CX, G_CY in *.
      replace ((GM + 2097156 <=? GM + 2097152) && (GM + 2097152 <? GM + 2097156 + 4)) with false by lia. replace ((GM + 2097156 <=? GM + 2097152 + 1) && (GM + 2097152 + 1 <? GM + 2097156 + 4)) with false by lia.
      replace ((GM + 2097156 <=? GM + 2097152 + 1 + 1) && (GM + 2097152 + 1 + 1 <? GM + 2097156 + 4)) with false by lia. replace ((GM + 2097156 <=? GM + 2097152 + 1 + 1 + 1) && (GM + 2097152 + 1 + 1 + 1 <? GM + 2097156 + 4)) with false by lia. exact Hc.
    + cbn [ar]. unfold gint at 1. unfold set_gint. cbn [hmem a_hmem]. rewrite load4_store4. reflexivity.
  - do 10 (split; [reflexivity|]). split; assumption.
Qed.
Lemma wc_ready : ~ (cs = 65535 /\ ip = 65535) -> ~ (cs = 47104 /\ ip < 256) -> ready (nt_env GM fdd gui nullc) GM s.
Proof.
  intros N1 N2. destruct wc_fields as (F1 & F2 & _ & _ & _ & _ & _ & _ & _ & F3 & _). constructor; [apply wc_flat|apply wc_wf|unfold normal_pc; rewrite F1, F2; split; assumption|rewrite F3; lia].
Qed.
End State.

(** ** What is booted *)
Lemma land15 len : (Z.land len 15 =? 0) = (len mod 16 =? 0).
Proof. change 15 with (Z.ones 4). rewrite Z.land_ones by lia. reflexivity. Qed.
Lemma start_exe s n c : exe_name s = Some n -> cpu_of (Some (cpu_name s)) = Some c -> nt_start GM open false s = nt_boot_exe GM (dbg_level s) c (open n).
Proof.
  intros He Hc. unfold nt_start, load_media, nt_boot_exe. rewrite He. change (start_memory false) with bios_memory. destruct (load_exe (open n) bios_memory) as [|k| |cs ip ss sp m]; try reflexivity.
  destruct (_ && _); [reflexivity|]. rewrite Hc. reflexivity.
Qed.
Lemma start_floppy s len img c : exe_name s = None -> bin_name s = None -> open_fdd open s = Some (len, img) -> cpu_of (Some (cpu_name s)) = Some c ->
  nt_start GM open false s = match nt_boot GM (open_fdd open s) (dbg_level s) c with Some s' => BRun s' | None => BExit 0 end.
Proof.
  intros He Hb Hf Hc. unfold nt_start, load_media, nt_boot. rewrite He, Hb, Hf. change (start_memory false) with bios_memory. destruct (len <? 512); [reflexivity|]. cbv zeta.
  destruct (_ && _); [|reflexivity]. rewrite Hc. reflexivity.
Qed.
Definition image (gui : bool) (len : Z) (f : Z -> Z) : Z -> Z :=
  fun y => if (0x100000 - len <=? y) && (y <? 0x100000) then f (y - (0x100000 - len)) else mfill 0 0x400 0 (start_memory gui) y.
Lemma image_byte gui len f : bytes f -> bytes (image gui len f).
Proof. intros B y. unfold image. destruct (_ && _); [apply B|]. apply mfill_byte; [apply start_byte|lia]. Qed.
Theorem start_image gui nullc s n len f c : 0 <= GM -> (nullc = true -> GM <> 0) -> exe_name s = None -> bin_name s = Some n -> open n = Some (len, f) -> bytes f -> 0 <= len <= 0x10000 -> len mod 16 = 0 -> cpu_of (Some (cpu_name s)) = Some c ->
  exists s', nt_start GM open gui s = BRun s' /\ ready (nt_env GM (open_fdd open s) gui nullc) GM s' /\ wf_state s' /\ host_ok GM (ar s') /\ hle (ar s') = nt_hle /\
    r_cs (ar s') = 0xF000 /\ r_ip (ar s') = 0xFFF0 /\ r_ss (ar s') = 0 /\ cpu (ar s') = c /\ dbg s' = dbg_level s /\
    (forall k, 0 <= k < 8 -> reg 16 k (ar s') = if k =? SP then 0xFFFE else 0) /\
    (forall k, 0 <= k < len -> byte (ar s') (0x100000 - len + k) = f k) /\
    (forall k, 0 <= k < 256 -> vector k (ar s') = (0, 0)) /\
    (forall x, 0x400 <= x < 0x9FFFE \/ 0xA0000 <= x < 0xB8000 \/ 0xB8FA0 <= x < 0xF0000 -> byte (ar s') x = 0xF1).
Proof.
  intros H0 H1 He Hb Ho B Hl Hm Hc. unfold nt_start, load_media. rewrite He, Hb, Ho, land15. replace (len mod 16 =? 0) with true by lia. cbn [negb]. replace (0x10000 <? len) with false by lia. rewrite Hc.
  assert (Bm : bytes (last_word (image gui len f))) by (apply last_word_byte, image_byte, B).
  set (s' := with_cursor GM gui (nt_state GM (dbg_level s) c 0xF000 0xFFF0 0 (last_word (image gui len f)))).
  destruct (wc_fields gui (dbg_level s) c 0xF000 0xFFF0 0 (last_word (image gui len f))) as (F1 & F2 & F3 & F4 & F5 & F6 & F7 & F8 & F9 & _).
  exists s'. split; [reflexivity|]. split; [apply wc_ready; try assumption; lia|]. split; [apply wc_wf; try assumption; lia|]. split; [apply wc_host, Bm|]. split; [exact F7|]. split; [exact F1|]. split; [exact F2|]. split; [exact F3|]. split; [exact F6|]. split; [exact F8|].
  split; [intros k Hk; apply wc_reg, Hk|]. split; [|split].
  - intros k Hk. unfold s'. rewrite wc_byte, last_word_out by lia. unfold image. replace (_ && _) with true by lia. f_equal. lia.
  - intros k Hk. unfold vector, mem. change (Z.to_nat (16 / 8)) with 2%nat. cbn [peek]. unfold s'. rewrite !wc_byte, !last_word_out by lia.
    assert (K : forall x, 0 <= x < 0x400 -> image gui len f x = 0).
    { intros x Hx. unfold image, mfill. replace ((1048576 - len <=? x) && (x <? 1048576)) with false by lia. replace ((0 <=? x) && (x <? 0 + 1024)) with true by lia. reflexivity. }
    rewrite !K by lia. reflexivity.
  - intros x Hx. unfold s'. rewrite wc_byte, last_word_out by lia. unfold image, mfill. replace ((1048576 - len <=? x) && (x <? 1048576)) with false by lia. replace ((0 <=? x) && (x <? 0 + 1024)) with false by lia.
    apply start_fill. lia.
Qed.
(** F000:FFF0 holds F1 (a breakpoint): the run ends at once, with exit code 0. *)
Lemma stop_at_once gui nullc fdd debug c m : 0 <= GM -> (nullc = true -> GM <> 0) -> bytes m -> m 0xFFFF0 = 0xF1 ->
  exists s', main_loop (nt_env GM fdd gui nullc) 1 (with_cursor GM gui (nt_state GM debug c 0xF000 0xFFF0 0 (last_word m))) = MExit 0 s'.
Proof.
  intros H0 H1 B Hb. pose proof (last_word_byte m B) as Bl. set (s := with_cursor GM gui (nt_state GM debug c 0xF000 0xFFF0 0 (last_word m))).
  destruct (wc_fields gui debug c 0xF000 0xFFF0 0 (last_word m)) as (F1 & F2 & _).
  assert (Hf : fetched (nt_env GM fdd gui nullc) GM s [] (mkPfx None false false 0) [0xF1]).
  { split; [apply wc_ready; try assumption; lia|]. split; [reflexivity|]. split; [unfold s; rewrite F2; vm_compute; discriminate|]. intros [|i] x; [|destruct i; discriminate]. intros [= <-].
    unfold pc, lin. unfold s. rewrite F1, F2. change (16 * 61440 + 65520 + Z.of_nat 0) with 0xFFFF0. rewrite wc_byte, last_word_out by lia. exact Hb. }
  destruct (f1_stops _ _ _ _ _ _ Hf) as (s' & Hr & _). exists s'. cbn [main_loop]. rewrite Hr. reflexivity.
Qed.
Theorem start_nothing gui nullc s c : 0 <= GM -> (nullc = true -> GM <> 0) -> exe_name s = None -> bin_name s = None -> open_fdd open s = None -> cpu_of (Some (cpu_name s)) = Some c ->
  exists s' s'', nt_start GM open gui s = BRun s' /\ main_loop (nt_env GM None gui nullc) 1 s' = MExit 0 s''.
Proof.
  intros H0 H1 He Hb Hf Hc. unfold nt_start, load_media. rewrite He, Hb, Hf, Hc. eexists. 
  destruct (stop_at_once gui nullc None (dbg_level s) c (start_memory gui) H0 H1 (start_byte gui)) as [s' K]; [apply start_fill; lia|]. exists s'. split; [reflexivity|exact K].
Qed.
Theorem start_large gui nullc s n len f c : 0 <= GM -> (nullc = true -> GM <> 0) -> exe_name s = None -> bin_name s = Some n -> open n = Some (len, f) -> 0x10000 < len -> len mod 16 = 0 -> cpu_of (Some (cpu_name s)) = Some c ->
  exists s' s'', nt_start GM open gui s = BRun s' /\ main_loop (nt_env GM (open_fdd open s) gui nullc) 1 s' = MExit 0 s''.
Proof.
  intros H0 H1 He Hb Ho Hl Hm Hc. unfold nt_start, load_media. rewrite He, Hb, Ho, land15, Hc. replace (len mod 16 =? 0) with true by lia. cbn [negb]. replace (0x10000 <? len) with true by lia. eexists.
  destruct (stop_at_once gui nullc (open_fdd open s) (dbg_level s) c (mfill 0 0x400 0 (start_memory gui)) H0 H1) as [s' K].
  - apply mfill_byte; [apply start_byte|lia].
  - unfold mfill. cbn [Z.leb Z.ltb Z.compare Z.add Pos.compare Pos.compare_cont andb]. apply start_fill. lia.
  - exists s'. split; [reflexivity|exact K].
Qed.
End Boot.
