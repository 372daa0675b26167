(** Property theorems C45-C47: IP advance, operations undefined in C, the operand-size prefix. *)
From Verif Require Import Base Cpu Alu Ops Machine Spec SpecOps SpecOps2 SpecSys SpecMul SpecRun SpecTop PBase PMem PRun PFrame PAlu PExec PStep PFlags PSmall PSmall2 PSmall3 PSmall4 PIAlu PIAlu2 PAlg PIMov PIStack PIJump PIInt PIMisc PIBcd PTop2 PTop3 PStop PSmall6 PSmall7 PSmall8 SpecLen PLen2 Demo.

Definition np : pfx := mkPfx None false false 0.
Definition p66 : pfx := mkPfx None true false 0.
Ltac witness t := match goal with |- exists s', ?r = _ /\ _ => destruct (okb_ex r t) as (s' & H1 & H2); [vm_compute; reflexivity|]; exists s'; split; [exact H1|] end.
Ltac opread := split; [unfold prefix_byte; cbn [In]; lia|split; [lia|first [discriminate|split; [lia|reflexivity]]]].
Ltac notundef := unfold undefined_opcode, undefined1; cbn [In]; lia.

(** ** C45.  A successful instruction moves IP (mod 64K) past exactly the bytes of its encoding -
    prefixes, opcode, ModR/M, SIB, displacement, immediate, measured by [insn_size] from the opcode
    map - and keeps CS (except MOV CS), or raised a divide fault and is at the handler of vector 0.
    For all instructions but jumps, calls, returns, interrupts, and 66 68 (see C47). *)
Theorem C45_advances E base s pre p bs s' : polite E -> fetched E base s pre p bs -> wf_state s -> 0 <= cpu (ar s) <= 2 ->
  insn_size p bs = Some (blen bs) -> length_known p bs -> run_one E s = Ok tt s' ->
  (r_ip (ar s') = (r_ip (ar s) + blen (pre ++ bs)) mod 65536 /\ (~ mov_cs bs -> r_cs (ar s') = r_cs (ar s))) \/
  (may_divfault bs /\ vector 0 (ar s') = (r_cs (ar s'), r_ip (ar s'))).
Proof. exact (run_size E base s pre p bs s'). Qed.
(** 26 67 66 81 44 24 10 imm32: ADD dword ptr ES:[ESP+10h], imm32. *)
Example C45_case : let bs := [0x81; 0x44; 0x24; 0x10; 1; 2; 3; 4] in let pre := [0x26; 0x67; 0x66] in let s := demo [] 2 [] (pre ++ bs) in
  let p := mkPfx (Some 0) true true 0 in
  polite demo_env /\ fetched demo_env HB s pre p bs /\ wf_state s /\ 0 <= cpu (ar s) <= 2 /\
  insn_size p bs = Some (blen bs) /\ length_known p bs /\ ~ mov_cs bs /\ ~ may_divfault bs /\ exists s', run_one demo_env s = Ok tt s' /\ r_ip (ar s') = 0x10B.
Proof.
  cbv zeta. split; [apply demo_polite|]. split; [apply (demo_fetched demo_env _ 2 _ [0x26; 0x67; 0x66]); reflexivity|]. split; [apply demo_wf_state; reflexivity|].
  split; [cbn; lia|]. split; [reflexivity|]. split; [split; [intros [_ H]; discriminate|discriminate]|]. split; [intros [H _]; discriminate|].
  split; [unfold may_divfault; cbn [In]; lia|]. witness (fun s => r_ip (ar s) =? 0x10B). apply Z.eqb_eq, H2.
Qed.
Print Assumptions C45_advances.
(** Weaker but for every opcode, FF and 66 68 included: a successful instruction that is no jump, call, return or interrupt and raises no divide
    fault moves IP forward by 1 to 15 bytes (mod 64K) and keeps CS (unless it is MOV CS). *)
Theorem C45_forward E base s pre p bs s' : polite E -> fetched E base s pre p bs -> wf_state s -> 0 <= cpu (ar s) <= 2 ->
  opcode_read bs -> ~ may_jump bs -> ~ may_divfault bs -> run_one E s = Ok tt s' ->
  (exists len, 1 <= len <= 15 /\ r_ip (ar s') = (r_ip (ar s) + len) mod 65536) /\ (~ loads_sreg bs -> r_cs (ar s') = r_cs (ar s)) /\ icount s' = icount s + 1.
Proof.
  intros Hp Hf W Hc Hr Hj Hd R.
  assert (Hu : ~ undefined_opcode bs). { intros U. destruct (undefined_stops E base s pre p bs Hf Hr U) as (x & Rx & _). congruence. }
  pose proof (instr_general E base s pre p bs Hp Hf W Hc Hr Hu) as X. rewrite R in X. destruct X as [S [A|[A _]]]; [|contradiction].
  split; [exact (ad_ip _ _ _ A Hj)|]. split; [exact (ad_cs _ _ _ A Hj)|apply S].
Qed.
Example C45_forward_case : let bs := [0x81; 0x06; 0x34; 0x12; 0x78; 0x56] in let s := demo [] 2 [] ([0x26; 0xF3] ++ bs) in
  polite demo_env /\ fetched demo_env HB s [0x26; 0xF3] (mkPfx (Some 0) false false 0xF3) bs /\ wf_state s /\ 0 <= cpu (ar s) <= 2 /\
  opcode_read bs /\ ~ may_jump bs /\ ~ may_divfault bs /\ ~ loads_sreg bs /\ exists s', run_one demo_env s = Ok tt s' /\ r_ip (ar s') = 0x108.
Proof.
  cbv zeta. split; [apply demo_polite|]. split; [apply (demo_fetched demo_env _ 2 _ [0x26; 0xF3]); reflexivity|]. split; [apply demo_wf_state; reflexivity|].
  split; [cbn; lia|]. split; [opread|]. split; [unfold may_jump, ctl1; cbn [In]; lia|]. split; [unfold may_divfault; cbn [In]; lia|].
  split; [unfold loads_sreg; lia|]. witness (fun s => r_ip (ar s) =? 0x108). apply Z.eqb_eq, H2.
Qed.
Print Assumptions C45_forward.

(** ** C46.  Which instructions can reach an operation that is undefined in C ([may_ub]): none but
    those with a memory operand, shifts, SHLD/SHRD, IMUL with 2 or 3 operands, IDIV, MOV with a
    segment register; and only the matching operation. *)
Theorem C46_no_ub_partial E base s pre p bs r : polite E -> fetched E base s pre p bs -> wf_state s -> 0 <= cpu (ar s) <= 2 ->
  opcode_read bs -> run_one E s = UB r -> may_ub bs r.
Proof.
  intros Hp Hf W Hc Hr R.
  assert (Hu : ~ undefined_opcode bs). { intros U. destruct (undefined_stops E base s pre p bs Hf Hr U) as (x & Rx & _). congruence. }
  pose proof (instr_general E base s pre p bs Hp Hf W Hc Hr Hu) as X. rewrite R in X. exact X.
Qed.
(** So for example every instruction without a ModR/M byte is safe. *)
Theorem C46_safe E base s pre p bs : polite E -> fetched E base s pre p bs -> wf_state s -> 0 <= cpu (ar s) <= 2 ->
  opcode_read bs -> (forall r, ~ may_ub bs r) -> (exists s', run_one E s = Ok tt s') \/ (exists c s', run_one E s = Err c s' /\ 2 <= c <= 8).
Proof.
  intros Hp Hf W Hc Hr Hn. pose proof (C46_no_ub_partial E base s pre p bs) as X. pose proof (run_one_general E Hp s W) as G.
  destruct (run_one E s) as [[] s'|c s'|r|] eqn:R; [left; eauto| |exfalso; apply (Hn r); auto|contradiction].
  right. exists c, s'. split; [reflexivity|]. destruct G as [_ [(M & _)|G]]; [|tauto].
  destruct Hf as ([_ _ PC _] & _). unfold magic in M. unfold normal_pc in PC. lia.
Qed.
Example C46_case : let s := demo [] 2 [] [0x60] in polite demo_env /\ fetched demo_env HB s [] np [0x60] /\ wf_state s /\ 0 <= cpu (ar s) <= 2 /\
  opcode_read [0x60] /\ forall r, ~ may_ub [0x60] r.
Proof.
  cbv zeta. split; [apply demo_polite|]. split; [apply (demo_fetched demo_env _ 2 _ []); reflexivity|]. split; [apply demo_wf_state; reflexivity|].
  split; [cbn; lia|]. split; [opread|]. intros [| | | | | | | |]; unfold may_ub; cbn [In has_modrm]; try (clear; lia); intros H; apply H; reflexivity.
Qed.
(** The unrestricted claim fails: each of these runs into an operation undefined in C.  SHL AL,8;
    IMUL AX,AX,FFFFh with AX=FFFFh; IDIV CX with DX:AX=80000000h, CX=FFFFh; MOV AX,<segment 7>;
    MOV AX,[BX+SI] with DS=FFFF and BX=SI=FFFF. *)
Definition high_ds (s : st) : st := mkSt (a_ds 65535 (ar s)) (dc s) (dbg s) (icount s) (lastnull s).
Theorem C46_no_ub_refuted :
  (let s := demo [1] 2 [] [0xC0; 0xE0; 8] in fetched demo_env HB s [] np [0xC0; 0xE0; 8] /\ run_one demo_env s = UB UbShift) /\
  (let s := demo [0xFFFF] 2 [] [0x69; 0xC0; 0xFF; 0xFF] in fetched demo_env HB s [] np [0x69; 0xC0; 0xFF; 0xFF] /\ run_one demo_env s = UB UbMulOverflow) /\
  (let s := demo [0; 0xFFFF; 0x8000] 2 [] [0xF7; 0xF9] in fetched demo_env HB s [] np [0xF7; 0xF9] /\ run_one demo_env s = UB UbDivOverflow) /\
  (let s := demo [] 2 [] [0x8C; 0xF8] in fetched demo_env HB s [] np [0x8C; 0xF8] /\ run_one demo_env s = UB UbSegReg) /\
  (let s := high_ds (demo [0; 0; 0; 0xFFFF; 0; 0; 0xFFFF] 2 [] [0x8B; 0x00]) in wf_state s /\ flat demo_env HB (ar s) /\ run_one demo_env s = UB UbMapIndex).
Proof.
  cbv zeta. split; [|split; [|split; [|split]]].
  1-4: split; [apply (demo_fetched demo_env _ 2 _ []); reflexivity|apply is_ub_eq; vm_compute; reflexivity].
  set (regs := [0; 0; 0; 0xFFFF; 0; 0; 0xFFFF]). assert (K : demo_ok regs 2 [] [0x8B; 0x00] = true) by reflexivity.
  split; [|split; [apply flat_ds, demo_flat, K|apply is_ub_eq; vm_compute; reflexivity]].
  destruct (demo_wf_state _ _ _ _ K) as [A1 A2 A3 A4 A5]. constructor; auto. destruct A1. constructor; auto. all: unfold inrange; cbn; lia.
Qed.
Print Assumptions C46_no_ub_partial. Print Assumptions C46_safe. Print Assumptions C46_no_ub_refuted.

(** ** C47.  CWDE (66 98) takes AL, not AX, as its operand. *)
Theorem C47_cwde_refuted : let s := demo [0x1280] 2 [] [0x66; 0x98] in fetched demo_env HB s [0x66] p66 [0x98] /\
  signed 16 (reg 16 AX (ar s)) mod 2 ^ 32 = 0x1280 /\ exists s', run_one demo_env s = Ok tt s' /\ reg 32 AX (ar s') = 0xFFFFFF80.
Proof.
  cbv zeta. split; [apply (demo_fetched demo_env _ 2 _ [0x66]); reflexivity|]. split; [vm_compute; reflexivity|].
  witness (fun s => reg 32 AX (ar s) =? 0xFFFFFF80). apply Z.eqb_eq, H2.
Qed.
(** PUSH imm32 (66 68 + 4 bytes) takes only 2 bytes of immediate: IP moves by 4, and the dword pushed has a zero high half. *)
Theorem C47_push_imm32_refuted : let s := demo [0; 0; 0; 0; 0x100] 2 [] [0x66; 0x68; 0x78; 0x56; 0x34; 0x12] in
  fetched demo_env HB s [0x66] p66 [0x68; 0x78; 0x56; 0x34; 0x12] /\
  exists s', run_one demo_env s = Ok tt s' /\ r_ip (ar s') = r_ip (ar s) + 4 /\ stack_word 0 (ar s') = 0x5678 /\ stack_word 1 (ar s') = 0.
Proof.
  cbv zeta. split; [apply (demo_fetched demo_env _ 2 _ [0x66]); reflexivity|].
  witness (fun s => (r_ip (ar s) =? 0x104) && (stack_word 0 (ar s) =? 0x5678) && (stack_word 1 (ar s) =? 0)). rewrite !andb_true_iff, !Z.eqb_eq in H2. cbn [demo ar demo_arch r_ip]. lia.
Qed.
(** PUSH r/m32 (66 FF /6) pushes only 2 bytes. *)
Theorem C47_push_rm32_refuted : let s := demo [0x12345678; 0; 0; 0; 0x100] 2 [] [0x66; 0xFF; 0xF0] in
  fetched demo_env HB s [0x66] p66 [0xFF; 0xF0] /\ exists s', run_one demo_env s = Ok tt s' /\ reg 16 SP (ar s') = 0xFE.
Proof.
  cbv zeta. split; [apply (demo_fetched demo_env _ 2 _ [0x66]); reflexivity|]. witness (fun s => reg 16 SP (ar s) =? 0xFE). apply Z.eqb_eq, H2.
Qed.
(** BT, BTS, BTR, BTC r/m,imm8 (0F BA): always rejected, whatever the prefixes, operand and state. *)
Theorem C47_bit_test_rejected E base s pre p b t : fetched E base s pre p (0x0F :: 0xBA :: b :: t) -> stops E s E_UNDEF.
Proof.
  intros Hf. eapply (stop_once E base s pre p _ E_UNDEF (dec_of p (blen pre + 1 + 1))); eauto; try discriminate.
  rewrite (once_fetch E base s pre p 15 _ Hf). change (15 =? 241) with false. change (ca_op 15) with (DEF OExt0F). unfold DEF. cbv iota.
  unfold op_param. cbn [e_names e_arg e_op]. rewrite st_ret. cbn [exec].
  destruct Hf as (R & _ & C). destruct R as [F W _ _]. apply code_from_0 in C. apply code_from_app in C. apply code_from_cons in C. destruct C as [_ C].
  rewrite Z.add_0_l in C. erewrite bind_ok by (eapply fetch8_code; [eauto|eauto|exact C]). reflexivity.
Qed.
Example C47_case : fetched demo_env HB (demo [] 2 [] [0x0F; 0xBA; 0xE0; 3]) [] np [0x0F; 0xBA; 0xE0; 3].
Proof. apply (demo_fetched demo_env _ 2 _ []); reflexivity. Qed.
Print Assumptions C47_cwde_refuted. Print Assumptions C47_push_imm32_refuted. Print Assumptions C47_push_rm32_refuted. Print Assumptions C47_bit_test_rejected.
