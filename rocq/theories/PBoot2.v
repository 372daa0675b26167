(** Start-up with or without the window, for programs and floppies. *)
From Coq Require Import String Ascii.
From Verif Require Import Base Cpu Ops Machine Spec SpecOps SpecOps2 SpecRun SpecTop SpecSys SpecCodes SpecStop Native SpecNative Native2 SpecNative2 Native3 SpecNative3 PBase PMem PRun PExec PTop PTop2 PTop3 PSmall
  PNative PNative3 PNative4 PNative8 PNative9 PNative10 PCodes PStop PArgs PBoot.
Local Open Scope Z_scope.

Section Boot.
Context (GM : Z) (open : string -> option file).
Theorem start_exe_full gui nullc s n len f c : 0 <= GM -> (nullc = true -> GM <> 0) -> exe_name s = Some n -> open n = Some (len, f) -> exe_ok len f -> exe_size f <= 0x9EFFE ->
  cpu_of (Some (cpu_name s)) = Some c -> let cs := (0x100 + exe_cs f) mod 65536 in cs <> 0 \/ exe_ip f <> 0 ->
  exists s', nt_start GM open gui s = BRun s' /\ flat (nt_env GM (open_fdd open s) gui nullc) GM (ar s') /\ wf_state s' /\ host_ok GM (ar s') /\ hle (ar s') = nt_hle /\
    r_cs (ar s') = cs /\ r_ip (ar s') = exe_ip f /\ r_ss (ar s') = (0x100 + exe_ss f) mod 65536 /\ cpu (ar s') = c /\ dbg s' = dbg_level s /\
    (forall k, 0 <= k < exe_size f -> byte (ar s') (0x1000 + k) = exe_byte f k) /\
    (forall k, 0 <= k < 256 -> vector k (ar s') = (0xB800, k)).
Proof.
  intros H0 H1 He Ho Hok Hs Hc. cbv zeta. intros Hcs. destruct (exe_load len f (start_memory gui) Hok ltac:(lia)) as (m & E & K1 & K2).
  assert (B : bytes f) by apply Hok. pose proof (eo_size _ _ Hok). pose proof (eo_head _ _ Hok).
  assert (Bm : bytes (last_word m)). { apply last_word_byte. apply (exe_loaded_byte len f (start_memory gui) m B (start_byte gui) K1 K2). lia. }
  pose proof (hdr_range f 20 B). pose proof (hdr_range f 22 B). pose proof (hdr_range f 14 B).
  unfold nt_start, load_media. rewrite He, Ho, E. replace (_ && _) with false by lia. rewrite Hc. set (cs := (0x100 + exe_cs f) mod 65536). set (ss := (0x100 + exe_ss f) mod 65536).
  assert (Hcs' : 0 <= cs < 65536) by (unfold cs; lia). assert (Hss' : 0 <= ss < 65536) by (unfold ss; lia). assert (Hip : 0 <= exe_ip f < 65536) by (unfold exe_ip; lia).
  set (s' := with_cursor GM gui (nt_state GM (dbg_level s) c cs (exe_ip f) ss (last_word m))).
  destruct (wc_fields GM gui (dbg_level s) c cs (exe_ip f) ss (last_word m)) as (F1 & F2 & F3 & F4 & F5 & F6 & F7 & F8 & F9 & _).
  exists s'. split; [reflexivity|]. split; [apply wc_flat; assumption|]. split; [apply wc_wf; assumption|]. split; [apply wc_host, Bm|]. split; [exact F7|]. split; [exact F1|]. split; [exact F2|]. split; [exact F3|]. split; [exact F6|]. split; [exact F8|]. split.
  - intros k Hk. unfold s'. rewrite wc_byte, last_word_out by lia. apply K1, Hk.
  - intros k Hk. apply (vec_of _ (last_word m)); [intros; apply wc_byte; lia| |exact Hk]. intros i Hi. rewrite last_word_out by lia. rewrite K2 by lia. apply start_ivt; lia.
Qed.
Theorem start_floppy_full gui nullc s len img c : 0 <= GM -> (nullc = true -> GM <> 0) -> exe_name s = None -> bin_name s = None -> open_fdd open s = Some (len, img) -> bytes img ->
  cpu_of (Some (cpu_name s)) = Some c -> 512 <= len -> img 510 = 0x55 -> img 511 = 0xAA ->
  exists s', nt_start GM open gui s = BRun s' /\ ready (nt_env GM (open_fdd open s) gui nullc) GM s' /\ wf_state s' /\ host_ok GM (ar s') /\ hle (ar s') = nt_hle /\
    r_cs (ar s') = 0x07C0 /\ r_ip (ar s') = 0 /\ r_ss (ar s') = 0 /\ cpu (ar s') = c /\ dbg s' = dbg_level s /\
    (forall n, 0 <= n < 8 -> reg 16 n (ar s') = if n =? SP then 0xFFFE else 0) /\
    (forall k, 0 <= k < 512 -> byte (ar s') (0x7C00 + k) = img k) /\
    (forall k, 0 <= k < 256 -> vector k (ar s') = (0xB800, k)) /\
    (forall k, 0 <= k < 4000 -> byte (ar s') (0xB8000 + k) = if gui && (k <? 28) then (if Z.even k then nth (Z.to_nat (k / 2)) banner_text 0 else 0x0F) else 0).
Proof.
  intros H0 H1 He Hb Hf B Hc Hl S1 S2. unfold nt_start, load_media. rewrite He, Hb, Hf. replace (len <? 512) with false by lia. cbv zeta.
  set (m := fun y => if (31744 <=? y) && (y <? 32256) then img (y - 31744) else start_memory gui y).
  assert (M1 : m 32254 = img 510) by reflexivity. assert (M2 : m 32255 = img 511) by reflexivity. change (31744 <=? 32254) with true; change (32254 <? 32256) with true; change (31744 <=? 32255) with true; change (32255 <? 32256) with true. cbv iota. change (32254 - 31744) with 510. change (32255 - 31744) with 511. rewrite S1, S2. cbn [Z.eqb Pos.eqb andb]. rewrite Hc.
  assert (Bm : bytes (last_word m)). { apply last_word_byte. intros y. unfold m. destruct (_ && _); [apply B|apply start_byte]. }
  set (s' := with_cursor GM gui (nt_state GM (dbg_level s) c 0x07C0 0 0 (last_word m))).
  destruct (wc_fields GM gui (dbg_level s) c 0x07C0 0 0 (last_word m)) as (F1 & F2 & F3 & F4 & F5 & F6 & F7 & F8 & F9 & _).
  assert (Mo : forall y, ~ 31744 <= y < 32256 -> m y = start_memory gui y) by (intros y Hy; unfold m; replace (_ && _) with false by lia; reflexivity).
  exists s'. split; [reflexivity|]. split; [apply wc_ready; try assumption; lia|]. split; [apply wc_wf; try assumption; lia|]. split; [apply wc_host, Bm|]. split; [exact F7|]. split; [exact F1|]. split; [exact F2|]. split; [exact F3|]. split; [exact F6|]. split; [exact F8|].
  split; [intros k Hk; apply wc_reg, Hk|]. split; [|split].
  - intros k Hk. unfold s'. rewrite wc_byte, last_word_out by lia. unfold m. replace (_ && _) with true by lia. f_equal. lia.
  - intros k Hk. apply (vec_of _ (last_word m)); [intros; apply wc_byte; lia| |exact Hk]. intros i Hi. rewrite last_word_out by lia. rewrite Mo by lia. apply start_ivt; lia.
  - intros k Hk. unfold s'. rewrite wc_byte, last_word_out by lia. rewrite Mo by lia. apply start_screen, Hk.
Qed.
(** A floppy that does not boot. *)
Lemma start_bad_floppy gui s len img : exe_name s = None -> bin_name s = None -> open_fdd open s = Some (len, img) -> len < 512 \/ img 510 <> 0x55 \/ img 511 <> 0xAA ->
  nt_start GM open gui s = BExit 0.
Proof.
  intros He Hb Hf H. unfold nt_start, load_media. rewrite He, Hb, Hf. destruct (Z.ltb_spec len 512); [reflexivity|]. cbv zeta.
  change ((31744 <=? 32254) && (32254 <? 32256)) with true. change ((31744 <=? 32255) && (32255 <? 32256)) with true. cbv iota. change (32254 - 31744) with 510. change (32255 - 31744) with 511.
  replace (_ && _) with false by lia. reflexivity.
Qed.
Lemma start_bad_cpu gui s : cpu_of (Some (cpu_name s)) = None -> (exists c, nt_start GM open gui s = BExit c) \/ nt_start GM open gui s = BUB.
Proof.
  intros H. unfold nt_start. rewrite H. destruct (load_media open gui s) as [r|] eqn:E; [|left; eauto].
  unfold load_media in E. destruct (exe_name s); [destruct (load_exe _ _); try (injection E as <-; eauto); destruct (_ && _); [injection E as <-; eauto|discriminate]|].
  destruct (bin_name s); [destruct (open s0) as [[? ?]|]; [destruct (negb _); [injection E as <-; eauto|destruct (_ <? _); discriminate]|injection E as <-; eauto]|].
  destruct (open_fdd open s) as [[? ?]|]; [|discriminate]. destruct (_ <? _); [injection E as <-; eauto|]. cbv zeta in E. destruct (_ && _); [discriminate|injection E as <-; eauto].
Qed.
End Boot.
