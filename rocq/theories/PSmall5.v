(** Lemmas behind C26-C29. *)
From Verif Require Import Base Cpu Alu Ops Machine Spec SpecOps SpecOps2 SpecMul SpecSys SpecBcd SpecTop PBase PMem PRun PFrame PAlu PExec PStep PFlags PSmall2 PSmall3 PSmall4 PIAlu PIAlu2 PIMul PAlg PIBcd.

Lemma muldiv_ok E base s pre p bs rg w r : fetched E base s pre p bs -> decode_muldiv p (ar s) bs = Some (rg, w, r) -> operand_ok p (ar s) bs ->
  width w /\ rm_ok r /\ inrange w (rd_rm w r (ar s)).
Proof.
  intros Hf Hd Ho. destruct (muldiv_frame E base s pre p bs rg w r Hf Hd Ho) as (Hw & Hr & _).
  pose proof Hf as (R & _). destruct R as [F W PC Hc]. do 2 (split; [assumption|]). eapply rd_rm_range; eauto.
Qed.
Lemma mul_put w v c f : 0 < w -> inrange w v -> let f' := mul_flags c w v f in
  flag CF f' = c /\ flag OF f' = c /\ result_flags w v f' /\ other_flags [CF; PF; ZF; SF; OF] f f'.
Proof. exact (shf_put w v c c f). Qed.
Lemma imul2_exact E base s pre p bs dst x y :
  fetched E base s pre p bs -> decode_imul2 p (ar s) bs = Some (dst, x, y) -> operand_ok p (ar s) bs ->
  p_os p = false -> x * y < 2 ^ 31 ->
  executes E s (pre ++ bs) (imul2_effect dst x y (32767 <? low 16 (x * y)) (ar s)).
Proof.
  intros Hf Hdec Hop Ho Hxy. destruct (imul2_frame E base _ _ _ _ _ _ _ Hf Hdec Hop Ho) as (Hx & Hy & Hd & o & k & m & Hdi & He).
  pose proof Hf as ([F W _ _] & _ & _).
  eapply fr_straight; [exact Hf|exact Hdi| | | | |].
  + intros. rewrite He. apply imul2_ok with E; auto.
  + reflexivity.
  + auto with flat.
  + rewrite wr_m_ip. reflexivity.
  + unfold imul2_effect. cbv zeta. rewrite signed_prod by auto.
    eapply same_wr_m_reg; eauto using low_range with width flat. apply same_refl.
Qed.
Lemma imul2_ub E base s pre p bs dst x y :
  fetched E base s pre p bs -> decode_imul2 p (ar s) bs = Some (dst, x, y) -> operand_ok p (ar s) bs ->
  p_os p = false -> 2 ^ 31 <= x * y -> run_one E s = UB UbMulOverflow.
Proof.
  intros Hf Hdec Hop Ho Hxy. destruct (imul2_frame E base _ _ _ _ _ _ _ Hf Hdec Hop Ho) as (Hx & Hy & Hd & o & k & m & Hdi & He).
  eapply run_ub; [exact Hf|exact Hdi|]. rewrite He. unfold imul2. replace (2 ^ 31 <=? x * y) with true by lia. reflexivity.
Qed.
Lemma imul2_66 E base s pre p bs dst x y :
  fetched E base s pre p bs -> decode_imul2 p (ar s) bs = Some (dst, x, y) -> p_os p = true -> stops E s E_BUG.
Proof.
  intros Hf Hdec Ho. destruct bs as [|op t]; [discriminate|].
  assert (H : op = 105 \/ op = 107 \/ op = 15).
  { clear - Hdec. unfold decode_imul2 in Hdec.
    destruct op as [|q|q]; try discriminate. do 7 (destruct q as [q|q|]; try discriminate Hdec; auto). }
  assert (K : forall o k m, dispatch (op :: t) = Some (o, k, m) -> o = OImulMIX \/ o = OImulMI8X \/ o = OImulRMX -> stops E s E_BUG).
  { intros o k m Hd Hx. eapply run_stop with (d' := dec_of p (blen pre + m)); [exact Hf|exact Hd| |discriminate|discriminate].
    destruct Hx as [->|[->| ->]]; cbn [exec1]; unfold x_imul_mix, x_imul_mi8x, x_imul_rmx; rewrite st_getD; cbn [d_op dec_of]; rewrite Ho; reflexivity. }
  destruct H as [->|[->| ->]].
  - eapply K; [reflexivity|]. auto.
  - eapply K; [reflexivity|]. auto.
  - destruct t as [|op2 t2]; [discriminate|]. destruct (Z.eqb_spec op2 175) as [->|Hn].
    2:{ exfalso. clear - Hdec Hn. cbn [decode_imul2] in Hdec. destruct op2 as [|q|q]; try discriminate. 
        do 8 (destruct q as [q|q|]; try discriminate Hdec). lia. }
    eapply K; [reflexivity|]. auto.
Qed.

(** SBB followed by DAS or AAS: the wrong AF of SBB (C19) does no harm, because then the low digit is 15. *)
Lemma sbb_adj x y c f : inrange 8 x -> inrange 8 y -> c = 0 \/ c = 1 ->
  let v := fst (emu_sbb 8 x y c f) in let f1 := snd (emu_sbb 8 x y c f) in let f2 := snd (spec_sub 8 x y c f) in
  v = fst (spec_sub 8 x y c f) /\ adj_lo v f1 = adj_lo v f2 /\ adj_hi v f1 = adj_hi v f2.
Proof.
  intros Hx Hy Hc. cbv zeta. unfold emu_sbb, spec_sub. cbn [fst snd]. split; [reflexivity|].
  unfold adj_lo, adj_hi. rewrite !put6_AF, !put6_CF. unfold sbb_cf_wrong. cbn [Z.eqb andb].
  split; [|rewrite xorb_false_l; reflexivity].
  unfold sbb_af_wrong. destruct ((c =? 1) && (x mod 16 =? y mod 16) && (y mod 16 <? 15)) eqn:K; [|rewrite xorb_false_l; reflexivity].
  assert (c = 1 /\ x mod 16 = y mod 16) as [-> H] by lia. replace (9 <? low 8 (x - y - 1) mod 16) with true; [reflexivity|].
  unfold low, inrange in *. change (2 ^ 8) with 256 in *.
  assert (E0 : ((x - y - 1) mod 256) mod 16 = 15).
  { rewrite <- Znumtheory.Zmod_div_mod by (try lia; exists 16; lia).
    rewrite Zminus_mod. rewrite Zminus_mod with (a := x). rewrite H, Z.sub_diag. reflexivity. }
  rewrite E0. reflexivity.
Qed.
Lemma das_sbb x y c f : packed x -> packed y -> c = 0 \/ c = 1 ->
  let '(v, f1) := emu_sbb 8 x y c f in
  packed (das_value v f1) /\ decimal (das_value v f1) - 100 * b2z (adj_hi v f1 || adj_lo v f1 && (v <? 6)) = decimal x - decimal y - c.
Proof.
  intros Hx Hy Hc.
  assert (R : forall z, packed z -> inrange 8 z) by (intros z (A & [B1 B2] & [C1 C2]); unfold inrange; pose proof (Z.div_mod z 16); lia).
  destruct (sbb_adj x y c f (R _ Hx) (R _ Hy) Hc) as (A & B & C). pose proof (das_sub x y c f Hx Hy Hc) as D.
  destruct (emu_sbb 8 x y c f) as [v f1], (spec_sub 8 x y c f) as [v2 f2]. cbn [fst snd] in *. subst v2.
  unfold das_value in *. rewrite B, C. exact D.
Qed.
Lemma aas_sbb x y c f : digit x -> digit y -> c = 0 \/ c = 1 ->
  let '(v, f1) := emu_sbb 8 x y c f in
  digit ((v - (if adj_lo v f1 then 6 else 0)) mod 16) /\ (v - (if adj_lo v f1 then 6 else 0)) mod 16 - 10 * b2z (adj_lo v f1) = x - y - c.
Proof.
  intros Hx Hy Hc. unfold digit in Hx, Hy.
  destruct (sbb_adj x y c f ltac:(unfold inrange; lia) ltac:(unfold inrange; lia) Hc) as (A & B & C). pose proof (aas_sub x y c f Hx Hy Hc) as D.
  destruct (emu_sbb 8 x y c f) as [v f1], (spec_sub 8 x y c f) as [v2 f2]. cbn [fst snd] in *. subst v2.
  rewrite B. exact D.
Qed.
Lemma b2z_01 b : b2z b = 0 \/ b2z b = 1. Proof. destruct b; cbn; auto. Qed.
(** AL and FLAGS after the binary operation. *)
Lemma alu_al E base s pre p bs k y s' : fetched E base s pre p bs -> decode_alu p (ar s) bs = Some (k, 8, RReg 0, y) -> operand_ok p (ar s) bs ->
  k <> 7 -> k <> 8 -> inrange 8 (fst (alu_result k 8 (reg 8 0 (ar s)) y (r_flags (ar s)))) -> run_one E s = Ok tt s' ->
  alu_result k 8 (reg 8 0 (ar s)) y (r_flags (ar s)) = (reg 8 0 (ar s'), r_flags (ar s')).
Proof.
  intros Hf Hd Ho H7 H8 Hrg Hr. pose proof (alu_instr E base s pre p bs k 8 (RReg 0) y Hf Hd Ho) as X.
  apply executes_run with (2 := Hr) in X. unfold alu_effect in X. cbn [rd_rm wr_rm] in X.
  destruct (alu_result k 8 (reg 8 0 (ar s)) y (r_flags (ar s))) as [v f] eqn:K.
  replace ((k =? 7) || (k =? 8)) with false in X by lia. cbn [fst] in Hrg. f_equal.
  - rewrite (same_reg _ _ 8 0 X). symmetry. pose proof Hf as ([F _ _ _] & _ & _). assert (F2 : flat E base (a_flags f (ar s))) by auto with flat.
    exact (rd_wr_same E base 8 (RReg 0) v (a_flags f (ar s)) F2 ltac:(auto with width) ltac:(cbn; lia) Hrg).
  - rewrite (sm_flags _ _ X). reflexivity.
Qed.
Lemma acc2_range w a : width w -> inrange (2 * w) (acc2 w a).
Proof.
  intros Hw. unfold acc2. destruct (Z.eqb_spec w 8) as [->|Hn]; [apply reg_range; auto with width; lia|].
  pose proof (reg_range w 2 a Hw ltac:(lia)) as H1. pose proof (reg_range w 0 a Hw ltac:(lia)) as H2. unfold inrange in *.
  replace (2 * w) with (w + w) by lia. pose proof (width_pos w Hw). rewrite Z.pow_add_r by lia. nia.
Qed.
Lemma acc2_with w v a : width w -> inrange (2 * w) v -> acc2 w (with_acc2 w v a) = v.
Proof.
  intros Hw Hv. unfold acc2, with_acc2. destruct (Z.eqb_spec w 8) as [->|Hn].
  - apply reg_same; auto with width; lia.
  - pose proof (width_pos w Hw). unfold inrange in Hv. replace (2 * w) with (w + w) in Hv by lia. rewrite Z.pow_add_r in Hv by lia.
    assert (P : 0 < 2 ^ w) by (apply Z.pow_pos_nonneg; lia).
    assert (H0 : inrange w (v mod 2 ^ w)) by (apply Z.mod_pos_bound; lia).
    assert (H1 : inrange w (v / 2 ^ w)) by (split; [apply Z.div_pos; lia|apply Z.div_lt_upper_bound; lia]).
    rewrite (reg_same w 0) by (auto; lia). rewrite (reg_other w 0) by (auto; try lia; unfold rpos; destruct Hw as [->|[->| ->]]; cbn; lia).
    rewrite reg_same by (auto; lia). rewrite Z.mul_comm. symmetry. apply Z.div_mod. lia.
Qed.
Lemma packed_range z : packed z -> inrange 8 z.
Proof. intros (A & [B1 B2] & [C1 C2]); unfold inrange; pose proof (Z.div_mod z 16); lia. Qed.
Lemma imm_byte E base s pre p op i : fetched E base s pre p [op; i] -> inrange 8 i.
Proof.
  intros Hf. destruct (instr_ctx _ _ _ _ _ _ _ Hf) as (F & W & Hp & C & Hb). eapply imm_range with (w := 8) (t := [i]); eauto with width.
Qed.
