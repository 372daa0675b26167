(** Property theorems C26-C29: multiplication, division, decimal arithmetic. *)
From Coq Require Import Zquot.
From Verif Require Import Base Cpu Alu Ops Machine Spec SpecOps SpecOps2 SpecMul SpecSys SpecBcd SpecTop PBase PMem PRun PFrame PAlu PExec PStep PFlags PSmall2 PSmall3 PSmall4 PIAlu PIAlu2 PIMul PAlg PIBcd PSmall5 Demo.

Definition np : pfx := mkPfx None false false 0.
Definition p66 : pfx := mkPfx None true false 0.
Ltac witness t := match goal with |- exists s', ?r = _ /\ _ => destruct (okb_ex r t) as (s' & H1 & H2); [vm_compute; reflexivity|]; exists s'; split; [exact H1|] end.
Ltac regform := split; [intros H; exfalso; apply H; reflexivity|intros; first [exact I|discriminate]].

(** ** C26.  [decode_muldiv] (SpecMul.v): groups 4 MUL, 5 IMUL, 6 DIV, 7 IDIV of F6/F7.
    [with_acc2 w v] puts the 2w-bit number v in AX, DX:AX or EDX:EAX. *)
Theorem C26_mul E base s pre p bs w r :
  fetched E base s pre p bs -> decode_muldiv p (ar s) bs = Some (4, w, r) -> operand_ok p (ar s) bs ->
  let v := reg w AX (ar s) * rd_rm w r (ar s) in
  exists f', flag CF f' = (2 ^ w <=? v) /\ flag OF f' = (2 ^ w <=? v) /\ other_flags [CF; PF; ZF; SF; OF] (r_flags (ar s)) f' /\
    executes E s (pre ++ bs) (a_flags f' (with_acc2 w v (ar s))).
Proof.
  intros Hf Hd Ho. cbv zeta. destruct (muldiv_ok E base s pre p bs _ w r Hf Hd Ho) as (Hw & Hr & Hx). pose proof (width_pos _ Hw).
  pose proof (mul_instr E base s pre p bs w r Hf Hd Ho) as X. unfold mul_effect in X. cbv zeta in X.
  destruct (mul_put w (low w (reg w 0 (ar s) * rd_rm w r (ar s))) (2 ^ w <=? reg w 0 (ar s) * rd_rm w r (ar s)) (r_flags (ar s)) ltac:(lia)
     ltac:(apply low_range; auto)) as (F1 & F2 & F3 & F4).
  eexists. split; [exact F1|]. split; [exact F2|]. split; [exact F4|exact X].
Qed.
Theorem C26_imul E base s pre p bs w r :
  fetched E base s pre p bs -> decode_muldiv p (ar s) bs = Some (5, w, r) -> operand_ok p (ar s) bs ->
  let v := signed w (reg w AX (ar s)) * signed w (rd_rm w r (ar s)) in
  exists f', flag CF f' = signed_overflow w v /\ flag OF f' = signed_overflow w v /\ other_flags [CF; PF; ZF; SF; OF] (r_flags (ar s)) f' /\
    executes E s (pre ++ bs) (a_flags f' (with_acc2 w (v mod 2 ^ (2 * w)) (ar s))).
Proof.
  intros Hf Hd Ho. cbv zeta. destruct (muldiv_ok E base s pre p bs _ w r Hf Hd Ho) as (Hw & Hr & Hx). pose proof (width_pos _ Hw).
  pose proof (imul_instr E base s pre p bs w r Hf Hd Ho) as X. unfold imul_effect in X. cbv zeta in X.
  set (v := signed w (reg w 0 (ar s)) * signed w (rd_rm w r (ar s))) in *.
  destruct (mul_put w (low w v) (overflows w v) (r_flags (ar s)) ltac:(lia) ltac:(apply low_range; auto)) as (F1 & F2 & F3 & F4).
  eexists. split; [exact F1|]. split; [exact F2|]. split; [exact F4|exact X].
Qed.
(** The product is the number in the accumulator, read as an unsigned or signed 2w-bit number. *)
Theorem C26_product_readable w v a : width w -> inrange (2 * w) v -> acc2 w (with_acc2 w v a) = v.
Proof. exact (acc2_with w v a). Qed.
Example C26_case : let bs := [0xF7; 0xE3] in let s := demo [0x8001; 0; 0; 0x1234] 2 [] bs in
  fetched demo_env HB s [] np bs /\ decode_muldiv np (ar s) bs = Some (4, 16, RReg 3) /\ operand_ok np (ar s) bs.
Proof. cbv zeta. split; [apply (demo_fetched demo_env _ 2 _ []); reflexivity|]. split; [vm_compute; reflexivity|]. regform. Qed.
Example C26_case2 : let bs := [0xF6; 0x2F] in let s := demo [0x80; 0; 0; 0x40] 2 [(0x20040, 0xFE)] bs in
  fetched demo_env HB s [] np bs /\ decode_muldiv np (ar s) bs = Some (5, 8, RMem 0x2000 0x40) /\ operand_ok np (ar s) bs /\
  signed 8 (reg 8 AX (ar s)) * signed 8 (rd_rm 8 (RMem 0x2000 0x40) (ar s)) = 256.
Proof.
  cbv zeta. split; [apply (demo_fetched demo_env _ 2 _ []); reflexivity|]. split; [vm_compute; reflexivity|].
  split; [|vm_compute; reflexivity].
  split; [intros _; split; [vm_compute; split; congruence|intros _ H; exfalso; vm_compute in H; lia]|]. intros _. vm_compute. congruence.
Qed.
Print Assumptions C26_mul. Print Assumptions C26_imul. Print Assumptions C26_product_readable.

(** ** C27.  [decode_imul2]: destination register and factors of 69, 6B and 0F AF. *)
(** The register result is right whenever the C code does not overflow; CF and OF are bit 15 of
    the truncated product, which is the right answer only for small products. *)
Theorem C27_imul_partial E base s pre p bs dst x y :
  fetched E base s pre p bs -> decode_imul2 p (ar s) bs = Some (dst, x, y) -> operand_ok p (ar s) bs -> p_os p = false ->
  x * y < 2 ^ 31 ->
  let v := (signed 16 x * signed 16 y) mod 65536 in
  exists f', flag CF f' = Z.testbit v 15 /\ flag OF f' = Z.testbit v 15 /\ other_flags [CF; PF; ZF; SF; OF] (r_flags (ar s)) f' /\
    (x < 32768 -> y < 32768 -> x * y < 65536 -> flag CF f' = signed_overflow 16 (signed 16 x * signed 16 y)) /\
    executes E s (pre ++ bs) (with_reg 16 dst v (a_flags f' (ar s))).
Proof.
  intros Hf Hd Ho Hp Hxy. cbv zeta. pose proof (imul2_exact E base s pre p bs dst x y Hf Hd Ho Hp Hxy) as X. unfold imul2_effect in X. cbv zeta in X.
  destruct (imul2_frame E base _ _ _ _ _ _ _ Hf Hd Ho Hp) as (Hx & Hy & _).
  pose proof (low_range 16 (signed 16 x * signed 16 y) ltac:(auto with width)) as Hv.
  destruct (mul_put 16 (low 16 (signed 16 x * signed 16 y)) (32767 <? low 16 (x * y)) (r_flags (ar s)) ltac:(lia) Hv) as (F1 & F2 & F3 & F4).
  assert (B : (32767 <? low 16 (x * y)) = Z.testbit ((signed 16 x * signed 16 y) mod 65536) 15).
  { change ((signed 16 x * signed 16 y) mod 65536) with (low 16 (signed 16 x * signed 16 y)). rewrite signed_prod in * by auto.
    change 15 with (16 - 1). rewrite <- sign_top by (auto; lia). change (2 ^ (16 - 1)) with 32768. lia. }
  eexists. split; [rewrite <- B; exact F1|]. split; [rewrite <- B; exact F2|]. split; [exact F4|]. split; [|exact X].
  intros A1 A2 A3. rewrite F1. unfold signed, inrange in *. change (2 ^ (16 - 1)) with 32768 in *. change (2 ^ 16) with 65536 in *.
  replace (x <? 32768) with true by lia. replace (y <? 32768) with true by lia.
  unfold signed_overflow, low. change (2 ^ (16 - 1)) with 32768. change (2 ^ 16) with 65536.
  rewrite Z.mod_small by nia. assert (0 <= x * y) by nia. lia.
Qed.
(** The factors are multiplied as unsigned 16-bit numbers in a C int: from 2^31 on, undefined behaviour. *)
Theorem C27_overflow_refuted E base s pre p bs dst x y :
  fetched E base s pre p bs -> decode_imul2 p (ar s) bs = Some (dst, x, y) -> operand_ok p (ar s) bs -> p_os p = false ->
  2 ^ 31 <= x * y -> run_one E s = UB UbMulOverflow.
Proof. exact (imul2_ub E base s pre p bs dst x y). Qed.
(** Not implemented with 32-bit operands. *)
Theorem C27_wide_refuted E base s pre p bs dst x y :
  fetched E base s pre p bs -> decode_imul2 p (ar s) bs = Some (dst, x, y) -> p_os p = true -> stops E s E_BUG.
Proof. exact (imul2_66 E base s pre p bs dst x y). Qed.
(** IMUL AX,BX with AX = -1, BX = 2: the product -2 fits, yet CF and OF are set;
    with AX = BX = 0x100 it does not fit, yet they are clear. *)
Theorem C27_flags_refuted :
  (exists s', run_one demo_env (demo [0xFFFF; 0; 0; 2] 2 [] [0x0F; 0xAF; 0xC3]) = Ok tt s' /\
     reg 16 AX (ar s') = 0xFFFE /\ flag CF (r_flags (ar s')) = true) /\
  (exists s', run_one demo_env (demo [0x100; 0; 0; 0x100] 2 [] [0x0F; 0xAF; 0xC3]) = Ok tt s' /\
     reg 16 AX (ar s') = 0 /\ flag CF (r_flags (ar s')) = false).
Proof.
  split.
  - witness (fun s => (reg 16 0 (ar s) =? 0xFFFE) && (flag CF (r_flags (ar s)))). apply andb_prop in H2 as [A B]. split; [lia|exact B].
  - witness (fun s => (reg 16 0 (ar s) =? 0) && negb (flag CF (r_flags (ar s)))). apply andb_prop in H2 as [A B]. split; [lia|apply negb_true_iff, B].
Qed.
Example C27_case : let bs := [0x6B; 0xC3; 0x85] in let s := demo [0; 0; 0; 0x123] 2 [] bs in
  fetched demo_env HB s [] np bs /\ decode_imul2 np (ar s) bs = Some (0, 0x123, 0xFF85) /\ operand_ok np (ar s) bs /\ 0x123 * 0xFF85 < 2 ^ 31.
Proof. cbv zeta. split; [apply (demo_fetched demo_env _ 2 _ []); reflexivity|]. split; [vm_compute; reflexivity|]. split; [regform|reflexivity]. Qed.
Example C27_case2 : let bs := [0x0F; 0xAF; 0xC3] in let s := demo [0xFFFF; 0; 0; 0xFFFF] 2 [] bs in
  fetched demo_env HB s [] np bs /\ decode_imul2 np (ar s) bs = Some (0, 0xFFFF, 0xFFFF) /\ operand_ok np (ar s) bs /\ 2 ^ 31 <= 0xFFFF * 0xFFFF.
Proof. cbv zeta. split; [apply (demo_fetched demo_env _ 2 _ []); reflexivity|]. split; [vm_compute; reflexivity|]. split; [regform|lia]. Qed.
Example C27_case3 : let bs := [0x0F; 0xAF; 0xC3] in let s := demo [0xFFFF; 0; 0; 0xFFFF] 2 [] (0x66 :: bs) in
  fetched demo_env HB s [0x66] p66 bs /\ decode_imul2 p66 (ar s) bs = Some (0, 0xFFFF, 0xFFFF).
Proof. cbv zeta. split; [apply (demo_fetched demo_env _ 2 _ [0x66]); reflexivity|]. vm_compute; reflexivity. Qed.
Print Assumptions C27_imul_partial. Print Assumptions C27_overflow_refuted. Print Assumptions C27_wide_refuted. Print Assumptions C27_flags_refuted.

(** ** C28.  [faults] (SpecSys.v): interrupt 0 is entered with FLAGS, CS and the address of the
    dividing instruction pushed, nothing else changed. *)
Theorem C28_div E base s pre p bs w r :
  fetched E base s pre p bs -> decode_muldiv p (ar s) bs = Some (6, w, r) -> operand_ok p (ar s) bs ->
  let n := acc2 w (ar s) in let x := rd_rm w r (ar s) in
  (exists q m, n = q * x + m /\ 0 <= m < x /\ 0 <= q < 2 ^ w /\ executes E s (pre ++ bs) (with_quot w q m (ar s))) \/
  ((x = 0 \/ 2 ^ w <= n / x) /\ faults E s).
Proof.
  intros Hf Hd Ho. cbv zeta. destruct (muldiv_ok E base s pre p bs _ w r Hf Hd Ho) as (Hw & Hr & Hx).
  pose proof (acc2_range w (ar s) Hw) as Hn.
  pose proof (div_fits_instr E base s pre p bs w r) as A. pose proof (div_fault_instr E base s pre p bs w r Hf Hd Ho) as B.
  unfold div_effect in *. cbv zeta in *. unfold inrange in *.
  destruct (Z.eqb_spec (rd_rm w r (ar s)) 0) as [H0|H0]; [right; split; [auto|apply B; reflexivity]|].
  destruct (acc2 w (ar s) / rd_rm w r (ar s) <? 2 ^ w) eqn:K.
  - left. specialize (A _ Hf Hd Ho eq_refl). eexists _, _. split; [|split; [|split; [|exact A]]].
    + rewrite Z.mul_comm. apply Z.div_mod. exact H0.
    + apply Z.mod_pos_bound. lia.
    + split; [apply Z.div_pos; lia|lia].
  - right. split; [right; lia|apply B; reflexivity].
Qed.
(** IDIV, 8 and 16 bits: quotient truncated towards zero, remainder with the sign of the numerator. *)
Theorem C28_idiv_fits_partial E base s pre p bs w r :
  fetched E base s pre p bs -> decode_muldiv p (ar s) bs = Some (7, w, r) -> operand_ok p (ar s) bs -> w <> 32 ->
  let n := signed (2 * w) (acc2 w (ar s)) in let x := signed w (rd_rm w r (ar s)) in
  forall q m, n = q * x + m -> Z.abs m < Z.abs x -> 0 <= m * n -> signed_overflow w q = false ->
  executes E s (pre ++ bs) (with_quot w (q mod 2 ^ w) (m mod 2 ^ w) (ar s)).
Proof.
  intros Hf Hd Ho H32. cbv zeta. intros q m Hnq Hm Hs Hv.
  pose proof (idiv_fits_instr E base s pre p bs w r) as A. unfold idiv_effect in A. cbv zeta in A.
  assert (Hx0 : signed w (rd_rm w r (ar s)) <> 0) by lia.
  assert (Hq : q = Z.quot (signed (2 * w) (acc2 w (ar s))) (signed w (rd_rm w r (ar s)))).
  { apply Zquot_unique_full with m; [|rewrite Hnq; lia]. unfold Remainder.
    destruct (Z_le_gt_dec 0 (signed (2 * w) (acc2 w (ar s)))) as [Hs1|Hs1].
    - destruct (Z.eq_dec (signed (2 * w) (acc2 w (ar s))) 0) as [Hz|Hz]; [|left; split; [lia|]; assert (0 <= m) by nia; lia].
      assert (q = 0) by (destruct (Z.eq_dec q 0); auto; exfalso; nia). subst q. left. lia.
    - right. split; [lia|]. assert (m <= 0) by nia. lia. }
  assert (Hr : m = Z.rem (signed (2 * w) (acc2 w (ar s))) (signed w (rd_rm w r (ar s)))).
  { pose proof (Z.quot_rem (signed (2 * w) (acc2 w (ar s))) (signed w (rd_rm w r (ar s))) Hx0). rewrite <- Hq in H. lia. }
  replace (signed w (rd_rm w r (ar s)) =? 0) with false in A by lia.
  rewrite <- Hq, <- Hr in A. change (overflows w q) with (signed_overflow w q) in A. rewrite Hv in A.
  exact (A _ Hf Hd Ho H32 eq_refl).
Qed.
(** A zero divisor or a quotient that does not fit raises interrupt 0, except for the most negative
    16-bit accumulator divided by -1. *)
Theorem C28_idiv_fault_partial E base s pre p bs w r :
  fetched E base s pre p bs -> decode_muldiv p (ar s) bs = Some (7, w, r) -> operand_ok p (ar s) bs ->
  let n := signed (2 * w) (acc2 w (ar s)) in let x := signed w (rd_rm w r (ar s)) in
  x = 0 \/ signed_overflow w (Z.quot n x) = true -> (w <> 8 -> ~ most_negative_by_minus_one w (rd_rm w r (ar s)) (ar s)) -> faults E s.
Proof.
  intros Hf Hd Ho. cbv zeta. intros Hc Hm. apply (idiv_fault_instr E base s pre p bs w r Hf Hd Ho); [|exact Hm].
  unfold idiv_effect. cbv zeta. destruct (Z.eqb_spec (signed w (rd_rm w r (ar s))) 0) as [H0|H0]; [reflexivity|].
  destruct Hc as [Hc|Hc]; [lia|]. change (overflows w) with (signed_overflow w). rewrite Hc. reflexivity.
Qed.
(** 32-bit IDIV raises interrupt 0 whatever the operands are. *)
Theorem C28_idiv32_refuted E base s pre p bs r :
  fetched E base s pre p bs -> decode_muldiv p (ar s) bs = Some (7, 32, r) -> operand_ok p (ar s) bs ->
  ~ most_negative_by_minus_one 32 (rd_rm 32 r (ar s)) (ar s) -> faults E s.
Proof. exact (idiv32_fault_instr E base s pre p bs r). Qed.
Example C28_case : let bs := [0xF7; 0xF3] in let s := demo [0x8001; 0; 2; 0x1234] 2 [] bs in
  fetched demo_env HB s [] np bs /\ decode_muldiv np (ar s) bs = Some (6, 16, RReg 3) /\ operand_ok np (ar s) bs.
Proof. cbv zeta. split; [apply (demo_fetched demo_env _ 2 _ []); reflexivity|]. split; [vm_compute; reflexivity|]. regform. Qed.
(** -7 / 2: quotient -3, remainder -1. *)
Example C28_case2 : let bs := [0xF7; 0xFB] in let s := demo [0xFFF9; 0; 0xFFFF; 2] 2 [] bs in
  fetched demo_env HB s [] np bs /\ decode_muldiv np (ar s) bs = Some (7, 16, RReg 3) /\ operand_ok np (ar s) bs /\
  signed 32 (acc2 16 (ar s)) = -7 /\ signed 16 (rd_rm 16 (RReg 3) (ar s)) = 2 /\
  -7 = -3 * 2 + -1 /\ Z.abs (-1) < Z.abs 2 /\ 0 <= -1 * -7 /\ signed_overflow 16 (-3) = false.
Proof. cbv zeta. split; [apply (demo_fetched demo_env _ 2 _ []); reflexivity|]. split; [vm_compute; reflexivity|]. split; [regform|]. split; [vm_compute; reflexivity|]. split; [vm_compute; reflexivity|]. repeat split; vm_compute; congruence. Qed.
(** DX:AX = 0x80000000, BX = -1. *)
Theorem C28_idiv_minint_refuted : let bs := [0xF7; 0xFB] in let s := demo [0; 0; 0x8000; 0xFFFF] 2 [] bs in
  decode_muldiv np (ar s) bs = Some (7, 16, RReg 3) /\ run_one demo_env s = UB UbDivOverflow.
Proof. cbv zeta. split; [vm_compute; reflexivity|]. apply is_ub_eq. vm_compute. reflexivity. Qed.
Print Assumptions C28_div. Print Assumptions C28_idiv_fits_partial. Print Assumptions C28_idiv_fault_partial. Print Assumptions C28_idiv32_refuted. Print Assumptions C28_idiv_minint_refuted.

(** ** C29.  The adjustment may come any number of instructions later: s2 is any state with the
    same AL and FLAGS.  [decimal] is the number (0..99) a [packed] byte stands for. *)
Definition carry_in (k f : Z) : Z := if (k =? 2) || (k =? 3) then b2z (flag CF f) else 0.
Lemma carry_01 k f : carry_in k f = 0 \/ carry_in k f = 1.
Proof. unfold carry_in. destruct (_ || _); [apply b2z_01|auto]. Qed.
(** ADD or ADC of packed bytes, then DAA. *)
Theorem C29_daa E base s1 pre1 p1 bs1 k y s1' s2 pre2 p2 :
  fetched E base s1 pre1 p1 bs1 -> decode_alu p1 (ar s1) bs1 = Some (k, 8, RReg AL, y) -> operand_ok p1 (ar s1) bs1 -> k = 0 \/ k = 2 ->
  let x := reg 8 AL (ar s1) in packed x -> packed y -> run_one E s1 = Ok tt s1' ->
  fetched E base s2 pre2 p2 [0x27] -> reg 8 AL (ar s2) = reg 8 AL (ar s1') -> r_flags (ar s2) = r_flags (ar s1') ->
  exists v f', packed v /\ decimal v + 100 * b2z (flag CF f') = decimal x + decimal y + carry_in k (r_flags (ar s1)) /\
    executes E s2 (pre2 ++ [0x27]) (a_flags f' (with_reg 8 AL v (ar s2))).
Proof.
  intros Hf1 Hd Ho Hk x Hx Hy Hr Hf2 Ha Hfl.
  pose proof (bcd_instr E base s2 pre2 p2 [0x27] _ Hf2 eq_refl) as X. unfold daa in X. cbv zeta in X.
  pose proof (daa_add x y (carry_in k (r_flags (ar s1))) (r_flags (ar s1)) Hx Hy (carry_01 _ _)) as D.
  assert (R : alu_result k 8 x y (r_flags (ar s1)) = spec_add 8 x y (carry_in k (r_flags (ar s1))) (r_flags (ar s1))) by (destruct Hk as [-> | ->]; reflexivity).
  pose proof (alu_al E base s1 pre1 p1 bs1 k y s1' Hf1 Hd Ho ltac:(lia) ltac:(lia)) as A. fold x in A. change (reg 8 0 (ar s1)) with x in A. rewrite R in A.
  specialize (A ltac:(unfold spec_add; apply low_range; auto with width) Hr). rewrite A in D.
  change (reg 8 0 (ar s1')) with (reg 8 AL (ar s1')) in D. rewrite <- Ha, <- Hfl in D.
  eexists _, _. split; [exact (proj1 D)|]. split; [|exact X].
  rewrite flag_put by lia. cbn [Z.eqb]. exact (proj2 D).
Qed.

(** SUB or SBB of packed bytes, then DAS. *)
Lemma sub_al E base s1 pre1 p1 bs1 k y s1' : fetched E base s1 pre1 p1 bs1 -> decode_alu p1 (ar s1) bs1 = Some (k, 8, RReg AL, y) -> operand_ok p1 (ar s1) bs1 -> k = 5 \/ k = 3 ->
  inrange 8 (reg 8 AL (ar s1)) -> inrange 8 y -> run_one E s1 = Ok tt s1' ->
  emu_sbb 8 (reg 8 AL (ar s1)) y (carry_in k (r_flags (ar s1))) (r_flags (ar s1)) = (reg 8 AL (ar s1'), r_flags (ar s1')).
Proof.
  intros Hf1 Hd Ho Hk Hx Hy Hr.
  pose proof (alu_al E base s1 pre1 p1 bs1 k y s1' Hf1 Hd Ho ltac:(lia) ltac:(lia)) as A.
  unfold AL. rewrite <- (A ltac:(destruct Hk as [-> | ->]; cbn [alu_result]; unfold spec_sub, emu_sbb; apply low_range; auto with width) Hr).
  destruct Hk as [-> | ->]; cbn [alu_result]; [|reflexivity].
  unfold carry_in, emu_sbb, spec_sub, sbb_cf_wrong, sbb_af_wrong, sbb_of_wrong. cbn [Z.eqb orb andb Pos.eqb]. rewrite !xorb_false_l. reflexivity.
Qed.
Theorem C29_das E base s1 pre1 p1 bs1 k y s1' s2 pre2 p2 :
  fetched E base s1 pre1 p1 bs1 -> decode_alu p1 (ar s1) bs1 = Some (k, 8, RReg AL, y) -> operand_ok p1 (ar s1) bs1 -> k = 5 \/ k = 3 ->
  let x := reg 8 AL (ar s1) in packed x -> packed y -> run_one E s1 = Ok tt s1' ->
  fetched E base s2 pre2 p2 [0x2F] -> reg 8 AL (ar s2) = reg 8 AL (ar s1') -> r_flags (ar s2) = r_flags (ar s1') ->
  exists v f', packed v /\ decimal v - 100 * b2z (flag CF f') = decimal x - decimal y - carry_in k (r_flags (ar s1)) /\
    executes E s2 (pre2 ++ [0x2F]) (a_flags f' (with_reg 8 AL v (ar s2))).
Proof.
  intros Hf1 Hd Ho Hk x Hx Hy Hr Hf2 Ha Hfl.
  pose proof (bcd_instr E base s2 pre2 p2 [0x2F] _ Hf2 eq_refl) as X. unfold das in X. cbv zeta in X.
  pose proof (das_sbb x y (carry_in k (r_flags (ar s1))) (r_flags (ar s1)) Hx Hy (carry_01 _ _)) as D.
  unfold x in D. rewrite (sub_al E base s1 pre1 p1 bs1 k y s1' Hf1 Hd Ho Hk (reg_range 8 AL _ ltac:(auto with width) ltac:(unfold AL; lia)) (packed_range _ Hy) Hr) in D.
  rewrite <- Ha, <- Hfl in D. eexists _, _. split; [exact (proj1 D)|]. split; [|exact X].
  rewrite flag_put by lia. cbn [Z.eqb]. exact (proj2 D).
Qed.
(** AAA after ADD or ADC, AAS after SUB or SBB, of unpacked digits; AH absorbs the carry or borrow. *)
Theorem C29_aaa E base s1 pre1 p1 bs1 k y s1' s2 pre2 p2 :
  fetched E base s1 pre1 p1 bs1 -> decode_alu p1 (ar s1) bs1 = Some (k, 8, RReg AL, y) -> operand_ok p1 (ar s1) bs1 -> k = 0 \/ k = 2 ->
  let x := reg 8 AL (ar s1) in digit x -> digit y -> run_one E s1 = Ok tt s1' ->
  fetched E base s2 pre2 p2 [0x37] -> reg 8 AL (ar s2) = reg 8 AL (ar s1') -> r_flags (ar s2) = r_flags (ar s1') ->
  exists v f', digit v /\ v + 10 * b2z (flag CF f') = x + y + carry_in k (r_flags (ar s1)) /\
    executes E s2 (pre2 ++ [0x37]) (a_flags f' (with_reg 8 AH ((reg 8 AH (ar s2) + b2z (flag CF f')) mod 256) (with_reg 8 AL v (ar s2)))).
Proof.
  intros Hf1 Hd Ho Hk x Hx Hy Hr Hf2 Ha Hfl.
  pose proof (bcd_instr E base s2 pre2 p2 [0x37] _ Hf2 eq_refl) as X. unfold aaa in X. cbv zeta in X.
  pose proof (aaa_add x y (carry_in k (r_flags (ar s1))) (r_flags (ar s1)) Hx Hy (carry_01 _ _)) as D.
  assert (R : alu_result k 8 x y (r_flags (ar s1)) = spec_add 8 x y (carry_in k (r_flags (ar s1))) (r_flags (ar s1))) by (destruct Hk as [-> | ->]; reflexivity).
  pose proof (alu_al E base s1 pre1 p1 bs1 k y s1' Hf1 Hd Ho ltac:(lia) ltac:(lia)) as A. change (reg 8 0 (ar s1)) with x in A. rewrite R in A.
  specialize (A ltac:(unfold spec_add; apply low_range; auto with width) Hr). rewrite A in D.
  change (reg 8 0 (ar s1')) with (reg 8 AL (ar s1')) in D. rewrite <- Ha, <- Hfl in D.
  eexists _, _. split; [exact (proj1 D)|]. split; [|match type of X with executes _ _ _ (a_flags ?f _) =>
    instantiate (1 := f); replace (flag CF f) with (adj_lo (reg 8 AL (ar s2)) (r_flags (ar s2))) by (rewrite flag_put by lia; reflexivity) end; exact X].
  rewrite flag_put by lia. cbn [Z.eqb]. exact (proj2 D).
Qed.
Theorem C29_aas E base s1 pre1 p1 bs1 k y s1' s2 pre2 p2 :
  fetched E base s1 pre1 p1 bs1 -> decode_alu p1 (ar s1) bs1 = Some (k, 8, RReg AL, y) -> operand_ok p1 (ar s1) bs1 -> k = 5 \/ k = 3 ->
  let x := reg 8 AL (ar s1) in digit x -> digit y -> run_one E s1 = Ok tt s1' ->
  fetched E base s2 pre2 p2 [0x3F] -> reg 8 AL (ar s2) = reg 8 AL (ar s1') -> r_flags (ar s2) = r_flags (ar s1') ->
  exists v f', digit v /\ v - 10 * b2z (flag CF f') = x - y - carry_in k (r_flags (ar s1)) /\
    executes E s2 (pre2 ++ [0x3F]) (a_flags f' (with_reg 8 AH ((reg 8 AH (ar s2) - b2z (flag CF f')) mod 256) (with_reg 8 AL v (ar s2)))).
Proof.
  intros Hf1 Hd Ho Hk x Hx Hy Hr Hf2 Ha Hfl.
  pose proof (bcd_instr E base s2 pre2 p2 [0x3F] _ Hf2 eq_refl) as X. unfold aas in X. cbv zeta in X.
  pose proof (aas_sbb x y (carry_in k (r_flags (ar s1))) (r_flags (ar s1)) Hx Hy (carry_01 _ _)) as D.
  unfold x in D. rewrite (sub_al E base s1 pre1 p1 bs1 k y s1' Hf1 Hd Ho Hk (reg_range 8 AL _ ltac:(auto with width) ltac:(unfold AL; lia)) ltac:(unfold digit, inrange in *; lia) Hr) in D.
  rewrite <- Ha, <- Hfl in D. eexists _, _. split; [exact (proj1 D)|]. split; [|match type of X with executes _ _ _ (a_flags ?f _) =>
    instantiate (1 := f); replace (flag CF f) with (adj_lo (reg 8 AL (ar s2)) (r_flags (ar s2))) by (rewrite flag_put by lia; reflexivity) end; exact X].
  rewrite flag_put by lia. cbn [Z.eqb]. exact (proj2 D).
Qed.
(** AAM i, i <> 0: AH = AL / i, AL = AL mod i.  AAD i recombines. *)
Theorem C29_aam E base s pre p i : fetched E base s pre p [0xD4; i] -> i <> 0 ->
  let x := reg 8 AL (ar s) in
  exists f', result_flags 8 (x mod i) f' /\ other_flags [PF; ZF; SF] (r_flags (ar s)) f' /\
    executes E s (pre ++ [0xD4; i]) (a_flags f' (with_reg 8 AL (x mod i) (with_reg 8 AH (x / i) (ar s)))).
Proof.
  intros Hf Hi. cbv zeta. 
  assert (S : step_bcd (ar s) [0xD4; i] = Some (aam i (ar s))) by (cbn; replace (i =? 0) with false by lia; reflexivity).
  pose proof (bcd_instr E base s pre p _ _ Hf S) as X. unfold aam in X. cbv zeta in X.
  destruct (instr_ctx _ _ _ _ _ _ _ Hf) as (F & W & Hp & C & Hb).
  pose proof (imm_byte E base s pre p 0xD4 i Hf) as Hi8.
  assert (Hx : inrange 8 (reg 8 AL (ar s))) by (apply reg_range; [auto with width|unfold AL; lia]). unfold inrange in Hx. change (2 ^ 8) with 256 in *.
  assert (Hv : inrange 8 (reg 8 AL (ar s) mod i)). { unfold inrange in *. pose proof (Z.mod_pos_bound (reg 8 AL (ar s)) i ltac:(lia)). lia. }
  eexists. split; [apply put_szp_flags; [lia|exact Hv]|]. split; [|exact X]. unfold put_szp. flagw. others.
Qed.
Theorem C29_aad E base s pre p i : fetched E base s pre p [0xD5; i] ->
  let v := (reg 8 AL (ar s) + reg 8 AH (ar s) * i) mod 256 in
  exists f', logic_flags 8 v (r_flags (ar s)) f' /\ executes E s (pre ++ [0xD5; i]) (a_flags f' (with_reg 8 AH 0 (with_reg 8 AL v (ar s)))).
Proof.
  intros Hf. cbv zeta. pose proof (bcd_instr E base s pre p [0xD5; i] _ Hf eq_refl) as X. unfold aad in X. cbv zeta in X.
  eexists. split; [|exact X]. apply logic_put; [lia|apply low_range; auto with width].
Qed.
(** AAD undoes AAM (same base). *)
Theorem C29_aad_aam E base s1 pre1 p1 s1' s2 pre2 p2 i :
  fetched E base s1 pre1 p1 [0xD4; i] -> i <> 0 -> run_one E s1 = Ok tt s1' ->
  fetched E base s2 pre2 p2 [0xD5; i] -> reg 8 AL (ar s2) = reg 8 AL (ar s1') -> reg 8 AH (ar s2) = reg 8 AH (ar s1') ->
  exists f', executes E s2 (pre2 ++ [0xD5; i]) (a_flags f' (with_reg 8 AH 0 (with_reg 8 AL (reg 8 AL (ar s1)) (ar s2)))).
Proof.
  intros Hf1 Hi Hr Hf2 Hl Hh. destruct (C29_aam E base s1 pre1 p1 i Hf1 Hi) as (f1 & _ & _ & X1).
  destruct (C29_aad E base s2 pre2 p2 i Hf2) as (f2 & _ & X2). exists f2.
  apply executes_run with (2 := Hr) in X1.
  assert (Hx : inrange 8 (reg 8 AL (ar s1))) by (apply reg_range; [auto with width|unfold AL; lia]).
  pose proof (imm_byte E base s1 pre1 p1 0xD4 i Hf1) as Hi8.
  assert (Hv : inrange 8 (reg 8 AL (ar s1) mod i)). { unfold inrange in *. change (2 ^ 8) with 256 in *. pose proof (Z.mod_pos_bound (reg 8 AL (ar s1)) i ltac:(lia)). lia. }
  assert (Hq : inrange 8 (reg 8 AL (ar s1) / i)). { unfold inrange in *. change (2 ^ 8) with 256 in *. split; [apply Z.div_pos; lia|]. apply Z.div_lt_upper_bound; nia. }
  rewrite Hl, Hh, !(same_reg _ _ _ _ X1) in X2.
  match type of X1 with same _ (next ?b ?a (a_flags ?f ?m)) => change (reg 8 AL (next b a (a_flags f m))) with (reg 8 AL m) in X2; change (reg 8 AH (next b a (a_flags f m))) with (reg 8 AH m) in X2 end.
  rewrite (reg_same 8 AL) in X2 by (auto with width; unfold AL; lia).
  rewrite (reg_other 8 AL) in X2 by (auto with width; unfold AL, AH, rpos; cbn; lia).
  rewrite (reg_same 8 AH) in X2 by (auto with width; unfold AH; lia).
  replace (reg 8 AL (ar s1) mod i + reg 8 AL (ar s1) / i * i) with (reg 8 AL (ar s1)) in X2 by (pose proof (Z.div_mod (reg 8 AL (ar s1)) i Hi); lia).
  rewrite (Z.mod_small (reg 8 AL (ar s1))) in X2 by exact Hx. exact X2.
Qed.
Theorem C29_aam_zero E base s pre p : fetched E base s pre p [0xD4; 0] -> faults E s.
Proof. exact (aam_zero E base s pre p). Qed.
(** 0x48 + 0x37 with carry-in. *)
Example C29_case : let bs := [0x14; 0x37] in let s := demo [0x48] 3 [] bs in
  fetched demo_env HB s [] np bs /\ decode_alu np (ar s) bs = Some (2, 8, RReg AL, 0x37) /\ operand_ok np (ar s) bs /\ packed (reg 8 AL (ar s)) /\ packed 0x37 /\
  exists s', run_one demo_env s = Ok tt s' /\ let s2 := demo [0x80] (r_flags (ar s')) [] [0x27] in
  fetched demo_env HB s2 [] np [0x27] /\ reg 8 AL (ar s2) = reg 8 AL (ar s') /\ r_flags (ar s2) = r_flags (ar s').
Proof.
  cbv zeta. split; [apply (demo_fetched demo_env _ 3 _ []); reflexivity|]. split; [vm_compute; reflexivity|]. split; [exact I|].
  split; [vm_compute; repeat split; congruence|]. split; [vm_compute; repeat split; congruence|].
  witness (fun s => (reg 8 AL (ar s) =? 0x80) && (r_flags (ar s) =? 0x892)).
  assert (B : reg 8 AL (ar s') = 0x80 /\ r_flags (ar s') = 0x892) by lia. destruct B as [B1 B2]. rewrite B1, B2. split; [apply (demo_fetched demo_env _ 0x892 _ []); reflexivity|].
  split; vm_compute; reflexivity.
Qed.
Example C29_case2 : let bs := [0xD4; 0x0A] in fetched demo_env HB (demo [0x48] 3 [] bs) [] np bs.
Proof. apply (demo_fetched demo_env _ 3 _ []); reflexivity. Qed.
Example C29_case3 : let bs := [0x1C; 0x37] in let s := demo [0x48] 3 [] bs in
  fetched demo_env HB s [] np bs /\ decode_alu np (ar s) bs = Some (3, 8, RReg AL, 0x37) /\ operand_ok np (ar s) bs /\ packed (reg 8 AL (ar s)) /\ packed 0x37.
Proof.
  cbv zeta. split; [apply (demo_fetched demo_env _ 3 _ []); reflexivity|]. split; [vm_compute; reflexivity|]. split; [exact I|].
  split; vm_compute; repeat split; congruence.
Qed.
Print Assumptions C29_daa. Print Assumptions C29_das. Print Assumptions C29_aaa. Print Assumptions C29_aas. Print Assumptions C29_aam. Print Assumptions C29_aad. Print Assumptions C29_aad_aam. Print Assumptions C29_aam_zero.
