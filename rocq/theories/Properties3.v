(** Property theorems C17-C22: arithmetic and logic. *)
From Verif Require Import Base Cpu Alu Ops Machine Spec SpecOps SpecOps2 SpecMul SpecTop PBase PMem PRun PFrame PAlu PExec PIAlu PIAlu2 PShift PStep PIUn PFlags PSmall3 Demo.

(** [decode_alu] / [decode_unary] (Spec.v, SpecOps.v) list the operand forms of each opcode;
    [operand_ok] excludes the memory operands of C14 that are mis-addressed and word operands that
    start on the last byte of a 4 KiB block. *)
Ltac alu_prop k0 := intros Hf Hd Ho; destruct (decode_alu_ok _ _ _ _ _ _ _ _ _ _ Hf Hd) as (Hw & Hr & Hs & Hdv);
  pose proof (width_pos _ Hw).

(** ** C17 *)
Theorem C17_add E base s pre p bs w dst src :
  fetched E base s pre p bs -> decode_alu p (ar s) bs = Some (0, w, dst, src) -> operand_ok p (ar s) bs ->
  let d := rd_rm w dst (ar s) in let v := (d + src) mod 2 ^ w in
  exists f', arith_flags w v (2 ^ w <=? d + src) (16 <=? d mod 16 + src mod 16)
                         (signed_overflow w (signed w d + signed w src)) (r_flags (ar s)) f' /\
    executes E s (pre ++ bs) (wr_rm w dst v (a_flags f' (ar s))).
Proof.
  alu_prop 0. cbv zeta. pose proof (alu_instr E base s pre p bs 0 w dst src Hf Hd Ho) as X.
  unfold alu_effect in X. cbn [alu_result Z.eqb orb] in X. unfold spec_add, low in X. rewrite !Z.add_0_r in X.
  eexists. split; [|exact X]. apply put6_flags; [lia|]. apply low_range; auto.
Qed.
Theorem C17_adc E base s pre p bs w dst src :
  fetched E base s pre p bs -> decode_alu p (ar s) bs = Some (2, w, dst, src) -> operand_ok p (ar s) bs ->
  let d := rd_rm w dst (ar s) in let c := if flag CF (r_flags (ar s)) then 1 else 0 in let v := (d + src + c) mod 2 ^ w in
  exists f', arith_flags w v (2 ^ w <=? d + src + c) (16 <=? d mod 16 + src mod 16 + c)
                         (signed_overflow w (signed w d + signed w src + c)) (r_flags (ar s)) f' /\
    executes E s (pre ++ bs) (wr_rm w dst v (a_flags f' (ar s))).
Proof.
  alu_prop 2. cbv zeta. pose proof (alu_instr E base s pre p bs 2 w dst src Hf Hd Ho) as X.
  unfold alu_effect in X. cbn [alu_result Z.eqb Pos.eqb orb] in X. unfold spec_add, low in X.
  eexists. split; [|exact X]. apply put6_flags; [lia|]. apply low_range; auto.
Qed.
(** ADC [BX+SI],DX with CF set, and ADD CH,[BP-1]. *)
Example C17_case1 : let bs := [0x11; 0x10] in let s := demo [0; 0; 0x8001; 0x10; 0; 0; 0x20] 3 [(0x20030, 0xFF); (0x20031, 0x7F)] bs in
  fetched demo_env HB s [] (mkPfx None false false 0) bs /\
  decode_alu (mkPfx None false false 0) (ar s) bs = Some (2, 16, RMem 0x2000 0x30, 0x8001) /\ operand_ok (mkPfx None false false 0) (ar s) bs.
Proof.
  cbv zeta. split; [apply (demo_fetched demo_env _ 3 _ []); reflexivity|]. split; [vm_compute; reflexivity|]. 
  split; [intros _; split; [vm_compute; split; congruence|intros _ H; exfalso; vm_compute in H; lia]|]. intros _. vm_compute. congruence.
Qed.
Example C17_case2 : let bs := [0x02; 0x6E; 0xFF] in let s := demo [0; 0xFF00; 0; 0x10; 0; 0x100] 2 [(0x300FF, 0x81)] bs in
  fetched demo_env HB s [] (mkPfx None false false 0) bs /\
  decode_alu (mkPfx None false false 0) (ar s) bs = Some (0, 8, RReg 5, 0x81) /\ operand_ok (mkPfx None false false 0) (ar s) bs.
Proof.
  cbv zeta. split; [apply (demo_fetched demo_env _ 2 _ []); reflexivity|]. split; [vm_compute; reflexivity|]. 
  split; [intros _; split; [vm_compute; split; congruence|intros H; vm_compute in H; discriminate]|]. intros H; vm_compute in H; discriminate.
Qed.
Print Assumptions C17_add. Print Assumptions C17_adc.

(** ** C18 *)
Theorem C18_sub E base s pre p bs w dst src :
  fetched E base s pre p bs -> decode_alu p (ar s) bs = Some (5, w, dst, src) -> operand_ok p (ar s) bs ->
  let d := rd_rm w dst (ar s) in let v := (d - src) mod 2 ^ w in
  exists f', arith_flags w v (d <? src) (d mod 16 <? src mod 16)
                         (signed_overflow w (signed w d - signed w src)) (r_flags (ar s)) f' /\
    executes E s (pre ++ bs) (wr_rm w dst v (a_flags f' (ar s))).
Proof.
  alu_prop 5. cbv zeta. pose proof (alu_instr E base s pre p bs 5 w dst src Hf Hd Ho) as X.
  unfold alu_effect in X. cbn [alu_result Z.eqb Pos.eqb orb] in X. unfold spec_sub, low in X. rewrite !Z.add_0_r, !Z.sub_0_r in X.
  eexists. split; [|exact X]. apply put6_flags; [lia|]. apply low_range; auto.
Qed.
Theorem C18_cmp E base s pre p bs w dst src :
  fetched E base s pre p bs -> decode_alu p (ar s) bs = Some (7, w, dst, src) -> operand_ok p (ar s) bs ->
  let d := rd_rm w dst (ar s) in let v := (d - src) mod 2 ^ w in
  exists f', arith_flags w v (d <? src) (d mod 16 <? src mod 16)
                         (signed_overflow w (signed w d - signed w src)) (r_flags (ar s)) f' /\
    executes E s (pre ++ bs) (a_flags f' (ar s)).
Proof.
  alu_prop 7. cbv zeta. pose proof (alu_instr E base s pre p bs 7 w dst src Hf Hd Ho) as X.
  unfold alu_effect in X. cbn [alu_result Z.eqb Pos.eqb orb] in X. unfold spec_sub, low in X. rewrite !Z.add_0_r, !Z.sub_0_r in X.
  eexists. split; [|exact X]. apply put6_flags; [lia|]. apply low_range; auto.
Qed.
(** SUB EAX,imm32 (66 2D) and CMP word ES:[DI],-1 (26 83 3D FF). *)
Example C18_case1 : let bs := [0x2D; 1; 0; 0; 0x80] in let s := demo [0x7FFFFFFF] 2 [] ([0x66] ++ bs) in
  fetched demo_env HB s [0x66] (mkPfx None true false 0) bs /\
  decode_alu (mkPfx None true false 0) (ar s) bs = Some (5, 32, RReg 0, 0x80000001) /\ operand_ok (mkPfx None true false 0) (ar s) bs.
Proof. cbv zeta. split; [apply (demo_fetched demo_env _ 2 _ [0x66]); reflexivity|]. split; [vm_compute; reflexivity|exact I]. Qed.
Example C18_case2 : let bs := [0x83; 0x3D; 0xFF] in let s := demo [0; 0; 0; 0; 0; 0; 0; 0x1234] 2 [(0x41234, 0xFF); (0x41235, 0xFF)] ([0x26] ++ bs) in
  fetched demo_env HB s [0x26] (mkPfx (Some 0) false false 0) bs /\
  decode_alu (mkPfx (Some 0) false false 0) (ar s) bs = Some (7, 16, RMem 0x4000 0x1234, 0xFFFF) /\ operand_ok (mkPfx (Some 0) false false 0) (ar s) bs.
Proof.
  cbv zeta. split; [apply (demo_fetched demo_env _ 2 _ [0x26]); reflexivity|]. split; [vm_compute; reflexivity|]. 
  split; [intros _; split; [vm_compute; split; congruence|discriminate]|]. intros _. vm_compute. congruence.
Qed.
Print Assumptions C18_sub. Print Assumptions C18_cmp.

(** ** C19: the result and ZF, SF, PF are always right; CF, AF and OF are each right exactly outside
    one corner case with the carry set. *)
Theorem C19_sbb_partial E base s pre p bs w dst src :
  fetched E base s pre p bs -> decode_alu p (ar s) bs = Some (3, w, dst, src) -> operand_ok p (ar s) bs ->
  let d := rd_rm w dst (ar s) in let c := if flag CF (r_flags (ar s)) then 1 else 0 in let v := (d - src - c) mod 2 ^ w in
  exists cf af of_ f', arith_flags w v cf af of_ (r_flags (ar s)) f' /\
    executes E s (pre ++ bs) (wr_rm w dst v (a_flags f' (ar s))) /\
    (cf = (d <? src + c) <-> ~ (c = 1 /\ w = 32 /\ src = 2 ^ 32 - 1)) /\
    (af = (d mod 16 <? src mod 16 + c) <-> ~ (c = 1 /\ d mod 16 = src mod 16 /\ src mod 16 < 15)) /\
    (of_ = signed_overflow w (signed w d - signed w src - c) <-> ~ (c = 1 /\ src = 2 ^ (w - 1) - 1)).
Proof.
  alu_prop 3. cbv zeta. pose proof (alu_instr E base s pre p bs 3 w dst src Hf Hd Ho) as X.
  unfold alu_effect in X. cbn [alu_result Z.eqb Pos.eqb orb] in X. unfold emu_sbb, low in X.
  eexists _, _, _, _. split; [apply put6_flags; [|apply low_range]; auto|]. split; [exact X|].
  fold (b2z (flag CF (r_flags (ar s)))). generalize (b2z (flag CF (r_flags (ar s)))). intros c.
  unfold sbb_cf_wrong, sbb_af_wrong, sbb_of_wrong.
  assert (K : forall b x (P : Prop), (b = true <-> P) -> (xorb b x = x <-> ~ P)).
  { intros b x P HP. destruct b, x; cbn; split; try congruence; try tauto; intros N; try (exfalso; apply N, HP; reflexivity); intros Q; apply HP in Q; discriminate. }
  split; [|split]; apply K.
  - destruct (Z.eqb_spec w 32) as [->|]; [cbn [andb]; lia|cbn [andb]; split; [discriminate|tauto]].
  - lia.
  - lia.
Qed.
Definition np : pfx := mkPfx None false false 0.
Definition op66 : pfx := mkPfx None true false 0.
(** SBB AL,BL: 20h - 10h - 1 borrows from bit 4 but AF is clear. *)
Theorem C19_af_refuted : let s := demo [0x20; 0; 0; 0x10] 3 [] [0x18; 0xD8] in
  decode_alu np (ar s) [0x18; 0xD8] = Some (3, 8, RReg 0, 0x10) /\
  exists s', run_one demo_env s = Ok tt s' /\ reg 8 0 (ar s') = 0x0F /\ flag AF (r_flags (ar s')) = false.
Proof.
  cbv zeta. split; [vm_compute; reflexivity|].
  match goal with |- exists s', ?r = _ /\ _ => destruct (okb_ex r (fun s => (reg 8 0 (ar s) =? 0x0F) && negb (flag AF (r_flags (ar s))))) as (s' & H1 & H2); [vm_compute; reflexivity|] end.
  exists s'. apply andb_true_iff in H2. destruct H2 as [H2 H3]. split; [exact H1|]. split; [lia|apply negb_true_iff, H3].
Qed.
(** SBB AL,BL: -1 - 7Fh - 1 = -129 overflows but OF is clear. *)
Theorem C19_of_refuted : let s := demo [0xFF; 0; 0; 0x7F] 3 [] [0x18; 0xD8] in
  signed_overflow 8 (signed 8 0xFF - signed 8 0x7F - 1) = true /\
  exists s', run_one demo_env s = Ok tt s' /\ flag OF (r_flags (ar s')) = false.
Proof.
  cbv zeta. split; [vm_compute; reflexivity|].
  match goal with |- exists s', ?r = _ /\ _ => destruct (okb_ex r (fun s => negb (flag OF (r_flags (ar s))))) as (s' & H1 & H2); [vm_compute; reflexivity|] end.
  exists s'. split; [exact H1|]. apply negb_true_iff, H2.
Qed.
(** SBB EAX,EBX: 0 - FFFFFFFFh - 1 borrows but CF is clear. *)
Theorem C19_cf_refuted : let s := demo [0; 0; 0; 0xFFFFFFFF] 3 [] [0x66; 0x19; 0xD8] in
  exists s', run_one demo_env s = Ok tt s' /\ reg 32 0 (ar s') = 0 /\ flag CF (r_flags (ar s')) = false.
Proof.
  cbv zeta.
  match goal with |- exists s', ?r = _ /\ _ => destruct (okb_ex r (fun s => (reg 32 0 (ar s) =? 0) && negb (flag CF (r_flags (ar s))))) as (s' & H1 & H2); [vm_compute; reflexivity|] end.
  exists s'. apply andb_true_iff in H2. destruct H2 as [H2 H3]. split; [exact H1|]. split; [lia|apply negb_true_iff, H3].
Qed.
Example C19_case : let bs := [0x18; 0xD8] in let s := demo [0x34; 0; 0; 0x12] 3 [] bs in
  fetched demo_env HB s [] np bs /\ decode_alu np (ar s) bs = Some (3, 8, RReg 0, 0x12) /\ operand_ok np (ar s) bs.
Proof.
  cbv zeta. split; [apply (demo_fetched demo_env _ 3 _ []); reflexivity|]. split; [vm_compute; reflexivity|].
  split; [intros H; exfalso; apply H; reflexivity|discriminate].
Qed.
Print Assumptions C19_sbb_partial. Print Assumptions C19_af_refuted. Print Assumptions C19_of_refuted. Print Assumptions C19_cf_refuted.

(** ** C20 *)
Theorem C20_or E base s pre p bs w dst src :
  fetched E base s pre p bs -> decode_alu p (ar s) bs = Some (1, w, dst, src) -> operand_ok p (ar s) bs ->
  let v := Z.lor (rd_rm w dst (ar s)) src in
  exists f', logic_flags w v (r_flags (ar s)) f' /\ executes E s (pre ++ bs) (wr_rm w dst v (a_flags f' (ar s))).
Proof.
  alu_prop 1. cbv zeta. pose proof (alu_instr E base s pre p bs 1 w dst src Hf Hd Ho) as X.
  pose proof (alu_result_range 1 w (rd_rm w dst (ar s)) src (r_flags (ar s)) Hw Hdv Hs) as R.
  eexists. split; [|exact X]. apply logic_put; [lia|exact R].
Qed.
Theorem C20_and E base s pre p bs w dst src :
  fetched E base s pre p bs -> decode_alu p (ar s) bs = Some (4, w, dst, src) -> operand_ok p (ar s) bs ->
  let v := Z.land (rd_rm w dst (ar s)) src in
  exists f', logic_flags w v (r_flags (ar s)) f' /\ executes E s (pre ++ bs) (wr_rm w dst v (a_flags f' (ar s))).
Proof.
  alu_prop 1. cbv zeta. pose proof (alu_instr E base s pre p bs 4 w dst src Hf Hd Ho) as X.
  pose proof (alu_result_range 4 w (rd_rm w dst (ar s)) src (r_flags (ar s)) Hw Hdv Hs) as R.
  eexists. split; [|exact X]. apply logic_put; [lia|exact R].
Qed.
Theorem C20_xor E base s pre p bs w dst src :
  fetched E base s pre p bs -> decode_alu p (ar s) bs = Some (6, w, dst, src) -> operand_ok p (ar s) bs ->
  let v := Z.lxor (rd_rm w dst (ar s)) src in
  exists f', logic_flags w v (r_flags (ar s)) f' /\ executes E s (pre ++ bs) (wr_rm w dst v (a_flags f' (ar s))).
Proof.
  alu_prop 1. cbv zeta. pose proof (alu_instr E base s pre p bs 6 w dst src Hf Hd Ho) as X.
  pose proof (alu_result_range 6 w (rd_rm w dst (ar s)) src (r_flags (ar s)) Hw Hdv Hs) as R.
  eexists. split; [|exact X]. apply logic_put; [lia|exact R].
Qed.
Theorem C20_test E base s pre p bs w dst src :
  fetched E base s pre p bs -> decode_alu p (ar s) bs = Some (8, w, dst, src) -> operand_ok p (ar s) bs ->
  let v := Z.land (rd_rm w dst (ar s)) src in
  exists f', logic_flags w v (r_flags (ar s)) f' /\ executes E s (pre ++ bs) (a_flags f' (ar s)).
Proof.
  alu_prop 1. cbv zeta. pose proof (alu_instr E base s pre p bs 8 w dst src Hf Hd Ho) as X.
  pose proof (alu_result_range 8 w (rd_rm w dst (ar s)) src (r_flags (ar s)) Hw Hdv Hs) as R.
  eexists. split; [|exact X]. apply logic_put; [lia|exact R].
Qed.
(** NOT: every bit of the operand is inverted. *)
Theorem C20_not E base s pre p bs w r :
  fetched E base s pre p bs -> decode_unary p (ar s) bs = Some (U_NOT, w, r) -> operand_ok p (ar s) bs ->
  exists v, (forall i, 0 <= i < w -> Z.testbit v i = negb (Z.testbit (rd_rm w r (ar s)) i)) /\ 0 <= v < 2 ^ w /\
    executes E s (pre ++ bs) (wr_rm w r v (ar s)).
Proof.
  intros Hf Hd Ho. destruct (decode_unary_ok _ _ _ _ _ _ _ _ _ Hf Hd) as (Hw & Hr & Hdv).
  pose proof (unary_instr E base s pre p bs U_NOT w r Hf Hd Ho) as X.
  unfold unary_effect in X. cbn [spec_unary] in X. rewrite a_flags_self in X.
  eexists. split; [|split; [|exact X]].
  - intros i Hi. apply not_bits; auto.
  - unfold inrange in Hdv. lia.
Qed.
(** XOR AX,AX and TEST byte [1234],80h; NOT EDX. *)
Example C20_case1 : let bs := [0x31; 0xC0] in let s := demo [0xBEEF] 0x8D7 [] bs in
  fetched demo_env HB s [] np bs /\ decode_alu np (ar s) bs = Some (6, 16, RReg 0, 0xBEEF) /\ operand_ok np (ar s) bs.
Proof. cbv zeta. split; [apply (demo_fetched demo_env _ 0x8D7 _ []); reflexivity|]. split; [vm_compute; reflexivity|]. split; [intros H; exfalso; apply H; reflexivity|intros _; exact I]. Qed.
Example C20_case2 : let bs := [0xF6; 0x06; 0x34; 0x12; 0x80] in let s := demo [] 2 [(0x21234, 0xFF)] bs in
  fetched demo_env HB s [] np bs /\ decode_alu np (ar s) bs = Some (8, 8, RMem 0x2000 0x1234, 0x80) /\ operand_ok np (ar s) bs.
Proof.
  cbv zeta. split; [apply (demo_fetched demo_env _ 2 _ []); reflexivity|]. split; [vm_compute; reflexivity|]. 
  split; [intros _; split; [vm_compute; split; congruence|intros _ H; exfalso; vm_compute in H; lia]|]. discriminate.
Qed.
Example C20_case3 : let bs := [0xF7; 0xD2] in let s := demo [0; 0; 0x12345678] 2 [] ([0x66] ++ bs) in
  fetched demo_env HB s [0x66] op66 bs /\ decode_unary op66 (ar s) bs = Some (U_NOT, 32, RReg 2) /\ operand_ok op66 (ar s) bs.
Proof. cbv zeta. split; [apply (demo_fetched demo_env _ 2 _ [0x66]); reflexivity|]. split; [vm_compute; reflexivity|]. split; [intros H; exfalso; apply H; reflexivity|intros _; exact I]. Qed.
Print Assumptions C20_or. Print Assumptions C20_and. Print Assumptions C20_xor. Print Assumptions C20_test. Print Assumptions C20_not.

(** ** C21 *)
Theorem C21_inc E base s pre p bs w r :
  fetched E base s pre p bs -> decode_unary p (ar s) bs = Some (U_INC, w, r) -> operand_ok p (ar s) bs ->
  let d := rd_rm w r (ar s) in let v := (d + 1) mod 2 ^ w in
  exists f', incdec_flags w v (d mod 16 =? 15) (signed_overflow w (signed w d + 1)) (r_flags (ar s)) f' /\
    executes E s (pre ++ bs) (wr_rm w r v (a_flags f' (ar s))).
Proof.
  intros Hf Hd Ho. cbv zeta. destruct (decode_unary_ok _ _ _ _ _ _ _ _ _ Hf Hd) as (Hw & Hr & Hdv). pose proof (width_pos _ Hw).
  pose proof (unary_instr E base s pre p bs U_INC w r Hf Hd Ho) as X.
  unfold unary_effect in X. cbn [spec_unary] in X. unfold spec_inc, low in X. rewrite inc_of in X by auto.
  eexists. split; [|exact X]. apply incdec_put; [lia|]. apply low_range; auto.
Qed.
Theorem C21_dec E base s pre p bs w r :
  fetched E base s pre p bs -> decode_unary p (ar s) bs = Some (U_DEC, w, r) -> operand_ok p (ar s) bs ->
  let d := rd_rm w r (ar s) in let v := (d - 1) mod 2 ^ w in
  exists f', incdec_flags w v (d mod 16 =? 0) (signed_overflow w (signed w d - 1)) (r_flags (ar s)) f' /\
    executes E s (pre ++ bs) (wr_rm w r v (a_flags f' (ar s))).
Proof.
  intros Hf Hd Ho. cbv zeta. destruct (decode_unary_ok _ _ _ _ _ _ _ _ _ Hf Hd) as (Hw & Hr & Hdv). pose proof (width_pos _ Hw).
  pose proof (unary_instr E base s pre p bs U_DEC w r Hf Hd Ho) as X.
  unfold unary_effect in X. cbn [spec_unary] in X. unfold spec_dec, low in X. rewrite dec_of_ in X by auto.
  eexists. split; [|exact X]. apply incdec_put; [lia|]. apply low_range; auto.
Qed.
(** INC DI; DEC byte [BX+SI+5]. *)
Example C21_case1 : let bs := [0x47] in let s := demo [0; 0; 0; 0; 0; 0; 0; 0x7FFF] 3 [] bs in
  fetched demo_env HB s [] np bs /\ decode_unary np (ar s) bs = Some (U_INC, 16, RReg 7) /\ operand_ok np (ar s) bs.
Proof. cbv zeta. split; [apply (demo_fetched demo_env _ 3 _ []); reflexivity|]. split; [vm_compute; reflexivity|exact I]. Qed.
Example C21_case2 : let bs := [0xFE; 0x48; 0x05] in let s := demo [0; 0; 0; 0x1000; 0; 0; 0x234] 3 [(0x21239, 0)] bs in
  fetched demo_env HB s [] np bs /\ decode_unary np (ar s) bs = Some (U_DEC, 8, RMem 0x2000 0x1239) /\ operand_ok np (ar s) bs.
Proof.
  cbv zeta. split; [apply (demo_fetched demo_env _ 3 _ []); reflexivity|]. split; [vm_compute; reflexivity|]. 
  split; [intros _; split; [vm_compute; split; congruence|intros H; vm_compute in H; discriminate]|]. discriminate.
Qed.
Print Assumptions C21_inc. Print Assumptions C21_dec.

(** ** C22: AF is wrong exactly when the low nibble is 8. *)
Theorem C22_neg_partial E base s pre p bs w r :
  fetched E base s pre p bs -> decode_unary p (ar s) bs = Some (U_NEG, w, r) -> operand_ok p (ar s) bs ->
  let d := rd_rm w r (ar s) in let v := (- d) mod 2 ^ w in
  exists af f', arith_flags w v (negb (d =? 0)) af (signed w d =? - 2 ^ (w - 1)) (r_flags (ar s)) f' /\
    executes E s (pre ++ bs) (wr_rm w r v (a_flags f' (ar s))) /\
    (d mod 16 <> 8 -> af = negb (d mod 16 =? 0)).
Proof.
  intros Hf Hd Ho. cbv zeta. destruct (decode_unary_ok _ _ _ _ _ _ _ _ _ Hf Hd) as (Hw & Hr & Hdv). pose proof (width_pos _ Hw).
  pose proof (unary_instr E base s pre p bs U_NEG w r Hf Hd Ho) as X.
  unfold unary_effect in X. cbn [spec_unary] in X. unfold emu_neg, low in X. rewrite neg_of in X by auto.
  eexists _, _. split; [apply put6_flags; [|apply low_range]; auto|]. split; [exact X|]. intros H8. lia.
Qed.
Theorem C22_af_refuted : let s := demo [0x18] 2 [] [0xF6; 0xD8] in
  decode_unary np (ar s) [0xF6; 0xD8] = Some (U_NEG, 8, RReg 0) /\
  exists s', run_one demo_env s = Ok tt s' /\ reg 8 0 (ar s') = 0xE8 /\ flag AF (r_flags (ar s')) = false.
Proof.
  cbv zeta. split; [vm_compute; reflexivity|].
  match goal with |- exists s', ?r = _ /\ _ => destruct (okb_ex r (fun s => (reg 8 0 (ar s) =? 0xE8) && negb (flag AF (r_flags (ar s))))) as (s' & H1 & H2); [vm_compute; reflexivity|] end.
  exists s'. apply andb_true_iff in H2. destruct H2 as [H2 H3]. split; [exact H1|]. split; [lia|apply negb_true_iff, H3].
Qed.
Example C22_case : let bs := [0xF7; 0xD9] in let s := demo [0; 0x8000] 2 [] bs in
  fetched demo_env HB s [] np bs /\ decode_unary np (ar s) bs = Some (U_NEG, 16, RReg 1) /\ operand_ok np (ar s) bs.
Proof. cbv zeta. split; [apply (demo_fetched demo_env _ 2 _ []); reflexivity|]. split; [vm_compute; reflexivity|]. split; [intros H; exfalso; apply H; reflexivity|intros _; exact I]. Qed.
Print Assumptions C22_neg_partial. Print Assumptions C22_af_refuted.
