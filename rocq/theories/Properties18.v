(** More theorems on C58, C59, C66 (the testers), found wanting by seeded bugs. *)
From Coq Require Import String.
From Verif Require Import Base Cpu Ops Machine Spec SpecOps SpecOps2 SpecSys SpecRun SpecTop Native Native2 SpecNative SpecNative2 PBase PMem PRun PExec PSmall6
  PNative PNative2 PNative3 PNative4 PNative5 PNative6 PNative7 PNative10 Properties15 Demo.

(** C58: the word at the end of conventional memory is FFFF at start. *)
Theorem C58_last_word GM fdd debug cp s : nt_boot GM fdd debug cp = Some s -> mem 16 (ar s) 0x9FFFE = 0xFFFF.
Proof.
  rewrite nt_boot_eq. destruct fdd as [[len img]|]; [|discriminate]. destruct (_ && _); [|discriminate]. intros [= <-].
  unfold mem. change (Z.to_nat (16 / 8)) with 2%nat. cbn [peek]. rewrite !nt_byte by lia. unfold boot_memory, last_word.
  generalize (fun y => if (0x7C00 <=? y) && (y <? 0x7E00) then img (y - 0x7C00) else bios_memory y). intros m. vm_compute. reflexivity.
Qed.
(** C59: AH=0Fh reports mode 3 with 80 columns; AX=1003h toggles the blink bit of the attribute that
    text output uses, and nothing else; AH=00h accepts only mode 3. *)
Theorem C59_get_mode_partial GM a : reg 8 AH a = 0x0F -> hle10 GM a = NRet (with_reg 8 BL 0 (with_reg 8 AL 3 (with_reg 8 AH 80 a))).
Proof. intros H. unfold hle10. rewrite rAH, H. cbn [Z.eqb Pos.eqb]. rewrite sBL, sAL, sAH by lia. reflexivity. Qed.
(** Refuted: AH=0Fh returns the active page in BH.  BH is left as it was (BL is cleared). *)
Theorem C59_get_mode_refuted GM a : reg 8 AH a = 0x0F -> exists a', hle10 GM a = NRet a' /\ reg 8 BH a' = reg 8 BH a.
Proof.
  intros H. unfold hle10. rewrite rAH, H. cbn [Z.eqb Pos.eqb]. eexists. split; [reflexivity|]. rewrite <- !rBH. unfold bh, set_bl, set_bh, P_AX, P_BX. cbn [a_gprs gprs].
  rewrite !getf_setf_disjoint by lia. reflexivity.
Qed.
Theorem C59_blink GM a : reg 16 AX a = 0x1003 -> 0 <= gbyte (G_ATTR GM) a < 256 -> exists a', hle10 GM a = NRet a' /\ gbyte (G_ATTR GM) a' = Z.lxor (gbyte (G_ATTR GM) a) 0x80 /\ only_memory (fun x => x = G_ATTR GM) a a'.
Proof.
  intros H Hb. assert (Hx : wrap 8 (Z.lxor (gbyte (G_ATTR GM) a) 128) = Z.lxor (gbyte (G_ATTR GM) a) 128).
  { apply wrap_small. set (b := gbyte (G_ATTR GM) a) in *. assert (N : 0 <= Z.lxor b 128) by (apply Z.lxor_nonneg; lia). split; [exact N|]. change (2 ^ 8) with 256.
    destruct (Z.eq_dec (Z.lxor b 128) 0) as [->|Nz]; [lia|]. apply (Z.log2_lt_cancel _ 256). eapply Z.le_lt_trans; [apply Z.log2_lxor; lia|]. change (Z.log2 256) with 8. apply Z.max_lub_lt; [|reflexivity].
    destruct (Z.eq_dec b 0) as [->|]; [reflexivity|]. apply Z.log2_lt_pow2; lia. }
  assert (Hh : reg 8 AH a = 0x10).
  { unfold reg in *. cbn [Z.eqb Z.ltb Z.compare Pos.compare Pos.compare_cont Pos.eqb Z.sub Z.opp Z.add Z.pos_sub Pos.pred_double] in *. change (2 ^ 16) with 65536 in H. change (4 - 4) with 0. lia. }
  unfold hle10. rewrite rAH, Hh. cbn [Z.eqb Pos.eqb]. rewrite (bw_reg 0) by lia. rewrite H. cbn [Z.eqb Pos.eqb]. eexists. split; [reflexivity|]. unfold set_gbyte, gbyte, only_memory. cbn [hmem a_hmem].
  split; [unfold hput; rewrite Z.eqb_refl; exact Hx|]. split; [reflexivity|]. intros x Hn. unfold hput. replace (x =? G_ATTR GM) with false by lia. reflexivity.
Qed.
Theorem C59_set_mode GM a : reg 8 AH a = 0 -> hle10 GM a = if reg 8 AL a =? 3 then NRet (with_reg 8 AL 0x30 a) else NExit 1 a.
Proof. intros H. unfold hle10. rewrite rAH, rAL, H. cbn [Z.eqb Pos.eqb]. rewrite sAL by lia. reflexivity. Qed.
(** AH=01h (cursor shape) and AH=05h (page) are accepted and ignored; so is scrolling by a number of lines. *)
Theorem C59_ignored GM a : reg 8 AH a = 1 \/ reg 8 AH a = 5 \/ (reg 8 AH a = 6 /\ reg 8 AL a <> 0) -> hle10 GM a = NRet a.
Proof.
  intros H. unfold hle10. rewrite rAH, rAL. destruct H as [H|[H|[H H2]]]; rewrite H; cbn [Z.eqb Pos.eqb]; try reflexivity.
  replace (reg 8 AL a =? 0) with false by lia. reflexivity.
Qed.
(** Every other function ends the tester with exit code 1. *)
Theorem C59_unknown GM a : ~ In (reg 8 AH a) [0; 1; 2; 5; 6; 8; 9; 0x0E; 0x0F; 0x10; 0x12] -> hle10 GM a = NExit 1 a.
Proof.
  intros H. unfold hle10. rewrite rAH. cbv zeta. cbn [In] in H.
  repeat match goal with |- context [reg 8 AH a =? ?k] => replace (reg 8 AH a =? k) with false by lia end. reflexivity.
Qed.
Example C59_mode_case : reg 8 AH (with_regs 0x0F00 0x700 0 0) = 0x0F /\ reg 16 AX (with_regs 0x1003 0 0 0) = 0x1003 /\ gbyte (G_ATTR HB) (with_regs 0x1003 0 0 0) = 0x0F /\
  reg 8 BH (with_regs 0x0F00 0x700 0 0) = 7 /\ reg 8 AH (with_regs 3 0 0 0) = 0 /\ ~ In (reg 8 AH (with_regs 0xFF00 0 0 0)) [0; 1; 2; 5; 6; 8; 9; 0x0E; 0x0F; 0x10; 0x12].
Proof. repeat (split; [vm_compute; reflexivity|]). vm_compute. intuition discriminate. Qed.

(** C66: the CPU option. *)
Theorem C66_cpu_option name c : cpu_of name = Some c <->
  (name = None /\ c = 0) \/ (name = Some "i8086"%string /\ c = 0) \/ (name = Some "80286"%string /\ c = 1) \/ (name = Some "386"%string /\ c = 2).
Proof.
  unfold cpu_of. destruct name as [n|].
  - destruct (String.eqb_spec n "i8086") as [->|N1]; [split; [intros [= <-]; auto|intros [[H _]|[[_ ->]|[[H _]|[H _]]]]; congruence]|].
    destruct (String.eqb_spec n "80286") as [->|N2]; [split; [intros [= <-]; auto|intros [[H _]|[[H _]|[[_ ->]|[H _]]]]; congruence]|].
    destruct (String.eqb_spec n "386") as [->|N3]; [split; [intros [= <-]; auto 6|intros [[H _]|[[H _]|[[H _]|[_ ->]]]]; congruence]|].
    split; [discriminate|]. intros [[H _]|[[H _]|[[H _]|[H _]]]]; congruence.
  - split; [intros [= <-]; auto|]. intros [[_ ->]|[[H _]|[[H _]|[H _]]]]; congruence.
Qed.
Theorem C66_last_word GM debug name bin s : mini_boot GM debug name bin = BRun s -> mem 16 (ar s) 0x9FFFE = 0xFFFF.
Proof.
  unfold mini_boot. destruct (mini_load bin) as [m|]; [|discriminate]. destruct (cpu_of name); [|discriminate]. intros [= <-].
  unfold mem. change (Z.to_nat (16 / 8)) with 2%nat. cbn [peek]. rewrite !mini_byte by lia. unfold last_word. vm_compute. reflexivity.
Qed.
Print Assumptions C58_last_word. Print Assumptions C59_get_mode_partial. Print Assumptions C59_get_mode_refuted. Print Assumptions C59_blink. Print Assumptions C59_set_mode.
Print Assumptions C59_ignored. Print Assumptions C59_unknown. Print Assumptions C66_cpu_option. Print Assumptions C66_last_word.
