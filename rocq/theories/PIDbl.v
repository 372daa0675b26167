(** End-to-end theorem: SHLD, SHRD. *)
From Verif Require Import Base Cpu Alu Ops Machine Spec SpecOps SpecOps2 SpecDbl PBase PMem PRun PFrame PAlu PExec PIAlu PIAlu2 PShift PStep PIMov PIStack PIJump PAlg.

Lemma lor_disjoint x y n : 0 <= n -> 0 <= y < 2 ^ n -> x mod 2 ^ n = 0 -> Z.lor x y = x + y.
Proof.
  intros Hn Hy Hx. symmetry. rewrite Z.add_nocarry_lxor.
  - rewrite Z.lxor_lor; [reflexivity|].
    apply Z.bits_inj'. intros i Hi. rewrite Z.land_spec, Z.bits_0.
    destruct (Z.lt_ge_cases i n).
    + replace (Z.testbit x i) with false; [reflexivity|].
      symmetry. rewrite <- (Z.mod_pow2_bits_low x n i) by lia. rewrite Hx. apply Z.bits_0.
    + replace (Z.testbit y i) with false; [apply andb_false_r|].
      symmetry. rewrite <- (Z.mod_small y (2 ^ n)) by lia. apply Z.mod_pow2_bits_high. lia.
  - apply Z.bits_inj'. intros i Hi. rewrite Z.land_spec, Z.bits_0.
    destruct (Z.lt_ge_cases i n).
    + replace (Z.testbit x i) with false; [reflexivity|].
      symmetry. rewrite <- (Z.mod_pow2_bits_low x n i) by lia. rewrite Hx. apply Z.bits_0.
    + replace (Z.testbit y i) with false; [apply andb_false_r|].
      symmetry. rewrite <- (Z.mod_small y (2 ^ n)) by lia. apply Z.mod_pow2_bits_high. lia.
Qed.
Lemma dbl_value_ok (left : bool) w d s n : width w -> inrange w d -> inrange w s -> 1 <= n <= w ->
  low w (Z.lor (low w (if left then d * 2 ^ n else d / 2 ^ n))
               (if left then s / 2 ^ (w - n) else s * 2 ^ (w - n))) = dbl_value left w d s n /\
  inrange w (dbl_value left w d s n).
Proof.
  intros Hw Hd Hs Hn. unfold dbl_value, low, inrange in *.
  assert (Hpw : 2 ^ w = 2 ^ n * 2 ^ (w - n)) by (rewrite <- Z.pow_add_r by lia; f_equal; lia).
  assert (0 < 2 ^ n) by (apply Z.pow_pos_nonneg; lia).
  assert (0 < 2 ^ (w - n)) by (apply Z.pow_pos_nonneg; lia).
  destruct left.
  - assert (Hs' : 0 <= s / 2 ^ (w - n) < 2 ^ n).
    { split; [apply Z.div_pos; lia|]. apply Z.div_lt_upper_bound; lia. }
    assert (Hm : (d * 2 ^ n) mod 2 ^ w = 2 ^ n * (d mod 2 ^ (w - n))).
    { rewrite Hpw, (Z.mul_comm d). apply Z.mul_mod_distr_l; lia. }
    rewrite (lor_disjoint _ _ n); try lia.
    + pose proof (Z.mod_pos_bound d (2 ^ (w - n)) ltac:(lia)).
      rewrite Hm. assert (2 ^ n * (d mod 2 ^ (w - n)) + s / 2 ^ (w - n) < 2 ^ w) by (rewrite Hpw; nia).
      split; [apply Z.mod_small; nia|nia].
    + rewrite Hm, Z.mul_comm. apply Z.mod_mul. lia.
  - assert (Hd' : 0 <= d / 2 ^ n < 2 ^ (w - n)).
    { split; [apply Z.div_pos; lia|]. apply Z.div_lt_upper_bound; lia. }
    rewrite (Z.mod_small (d / 2 ^ n)) by nia.
    rewrite Z.lor_comm. rewrite (lor_disjoint _ _ (w - n)); try lia.
    2:{ apply Z.mod_mul. lia. }
    assert (Hm : (s * 2 ^ (w - n)) mod 2 ^ w = 2 ^ (w - n) * (s mod 2 ^ n)).
    { rewrite Hpw, (Z.mul_comm s), (Z.mul_comm (2 ^ n)). apply Z.mul_mod_distr_l; lia. }
    pose proof (Z.mod_pos_bound s (2 ^ n) ltac:(lia)).
    assert (d / 2 ^ n + 2 ^ (w - n) * (s mod 2 ^ n) < 2 ^ w) by (rewrite Hpw; nia).
    split; [|rewrite Hm; nia].
    rewrite Z.add_comm. rewrite <- Z.add_mod_idemp_r by lia. rewrite Hm. rewrite Z.mod_small by nia. reflexivity.
Qed.
Lemma top_bit w v : width w -> inrange w v -> top w v = Z.testbit v (w - 1).
Proof.
  intros Hw Hv. unfold top, inrange in *.
  rewrite Z.testbit_odd, Z.shiftr_div_pow2 by (widths Hw; lia).
  destruct Hw as [->|[->| ->]]; cbn -[Z.odd Z.div] in *;
  match goal with |- context [Z.odd (v / ?k)] =>
    assert (Hq : v / k = 0 \/ v / k = 1) by lia; destruct Hq as [Hq|Hq]; rewrite Hq; cbn; lia end.
Qed.
Lemma msb_bit w v : msb w v = Z.testbit v (w - 1).
Proof. reflexivity. Qed.

Lemma dbl_of1 (left : bool) w d s v : width w -> inrange w d -> inrange w s ->
  v = dbl_value left w d s 1 ->
  (if left then xorb (Z.testbit v (w - 1)) (Z.testbit d (w - 1))
   else xorb (Z.testbit v (w - 1)) (Z.testbit v (w - 2))) = xorb (top w d) (top w v).
Proof.
  intros Hw Hd Hs Hv.
  assert (Hvr : inrange w v) by (subst v; apply dbl_value_ok; auto; widths Hw; lia).
  rewrite !top_bit by auto. destruct left; [apply xorb_comm|].
  rewrite xorb_comm. f_equal. subst v. unfold dbl_value.
  assert (Hb : forall x y, 0 <= x < 2 ^ (w - 1) -> Z.testbit (x + 2 ^ (w - 1) * y) (w - 2) = Z.testbit x (w - 2)).
  { intros x y Hx. rewrite <- (Z.mod_pow2_bits_low _ (w - 1)) by (widths Hw; lia).
    rewrite Z.mul_comm, Z.mod_add by (apply Z.pow_nonzero; widths Hw; lia).
    rewrite Z.mod_small by auto. reflexivity. }
  replace ((s * 2 ^ (w - 1)) mod 2 ^ w) with (2 ^ (w - 1) * (s mod 2)).
  2:{ replace (2 ^ w) with (2 ^ (w - 1) * 2).
      - rewrite Z.mul_comm with (n := s). symmetry. apply Z.mul_mod_distr_l; [lia|]. apply Z.pow_nonzero; widths Hw; lia.
      - rewrite Z.mul_comm. rewrite <- Z.pow_succ_r by (widths Hw; lia). f_equal. lia. }
  rewrite Hb.
  - change (2 ^ 1) with 2. rewrite <- Z.div2_div, Z.div2_spec, Z.shiftr_spec by (widths Hw; lia). f_equal. lia.
  - unfold inrange in Hd. widths Hw; cbn in *; lia.
Qed.

Section WithEnv.
Context (E : env) (base : Z).

Lemma rd_wr_src w r src v a : width w -> 0 <= src < 8 -> rm_ok r -> w <> 8 ->
  match r with RReg d => d <> src | _ => True end -> inrange w v ->
  reg w src (wr_rm w r v a) = reg w src a.
Proof.
  intros Hw Hs Hr Hn Hd Hv. destruct r as [d|sg o]; cbn [wr_rm].
  - cbn [rm_ok] in Hr. apply reg_other; auto. unfold rpos. destruct Hw as [->|[->| ->]]; cbn -[Z.mul]; lia.
  - apply wmem_reg.
Qed.

Lemma do_dbl_ok (left : bool) w r src n a : flat E base a -> wf_regs a -> w = 16 \/ w = 32 -> rm_ok r -> 0 <= src < 8 -> 0 <= n ->
  dbl_supported w r src n ->
  exists a', flat E base a' /\ r_ip a' = r_ip a /\ same a' (dbl_effect left w r src n a) /\
  forall d g c l, do_dbl left w (ptr_of base w r) (ptr_of base w (RReg src)) n (mkSt a d g c l) =
    Ok tt (mkSt a' d g c l).
Proof.
  intros F W Hw' Hr Hsrc Hn (Hd & _ & Hnw & Hn32).
  assert (Hw : width w) by (destruct Hw'; subst; auto with width).
  unfold do_dbl, dbl_effect. destruct (Z.eqb_spec n 0) as [->|Hn0].
  { exists a. split; [auto|]. split; [auto|]. split; [apply same_refl|]. reflexivity. }
  replace (sh_dbl_bad w n) with false by (unfold sh_dbl_bad; lia). cbv zeta.
  set (dv := rd_rm w r a). set (sv := reg w src a).
  assert (Hdv : inrange w dv) by (eapply rd_rm_range'; eauto).
  assert (Hsv : inrange w sv) by (apply reg_range; auto).
  set (cf := Z.testbit dv (if left then w - n else n - 1)).
  set (f1 := fset cf M_CF (fclear (M_CF + M_OF + M_AF) (r_flags a))).
  set (a1 := a_flags f1 a).
  set (v1 := if left then dv * 2 ^ n else dv / 2 ^ n).
  set (a2 := wr_m base w r v1 a1).
  assert (F1 : flat E base a1) by (subst a1; auto with flat).
  assert (F2 : flat E base a2) by (subst a2; auto with flat).
  assert (S2 : same a2 (wr_rm w r (low w v1) a1)) by (subst a2; eapply wr_m_low; eauto).
  assert (Hd2 : rd_rm w r a2 = low w v1).
  { rewrite (same_rd_rm _ _ w r S2). eapply rd_wr_same; eauto using low_range. }
  assert (Hs2 : rd_rm w (RReg src) a2 = sv).
  { cbn [rd_rm]. rewrite (same_reg _ _ w src S2). rewrite rd_wr_src; auto using low_range; [lia|].
    destruct r; [|auto]. apply Hd. }
  set (v2 := Z.lor (low w v1) (if left then sv / 2 ^ (w - n) else sv * 2 ^ (w - n))).
  set (v := dbl_value left w dv sv n).
  destruct (dbl_value_ok left w dv sv n Hw Hdv Hsv ltac:(lia)) as [Hv2 Hvr].
  fold v1 v2 v in Hv2, Hvr.
  set (a3 := wr_m base w r v2 a2).
  assert (F3 : flat E base a3) by (subst a3; auto with flat).
  assert (S3 : same a3 (wr_rm w r v a1)).
  { subst a3. eapply same_trans; [eapply wr_m_low; eauto|]. rewrite Hv2.
    eapply same_trans; [apply same_wr_rm, S2|]. eapply wr_wr_same; eauto using low_range. }
  assert (Hd3 : rd_rm w r a3 = v).
  { rewrite (same_rd_rm _ _ w r S3). eapply rd_wr_same; eauto. }
  assert (Hf3 : r_flags a3 = f1).
  { rewrite (sm_flags _ _ S3). destruct r; cbn [wr_rm]; rewrite ?wreg_flags, ?wmem_flags; reflexivity. }
  eexists. split; [|split; [|split]].
  4:{ intros. rewrite (st_load E base) by auto. fold dv. rewrite st_getflags, st_set_flags. fold cf f1 a1 v1.
      rewrite (st_store E base) by auto. fold a2. rewrite !(st_load E base) by (auto; exact Hsrc). rewrite Hd2, Hs2.
      fold v2. rewrite (st_store E base) by auto. fold a3. rewrite (st_load E base) by auto. rewrite st_getflags.
      rewrite Hd3, Hf3. tail. rewrite st_set_flags. reflexivity. }
  - auto with flat.
  - change (r_ip (a_flags ?x ?y)) with (r_ip y). rewrite (sm_ip _ _ S3). destruct r; cbn [wr_rm]; rewrite ?wreg_ip, ?wmem_ip; reflexivity.
  - rewrite set_comm_ok by auto.
    match goal with |- same (a_flags ?x _) (wr_rm _ _ _ (a_flags ?y _)) => replace y with x end.
    + eapply same_trans; [apply same_a_flags, S3|]. 
      assert (Hsw : forall x, a_flags x (wr_rm w r v a1) = wr_rm w r v (a_flags x a1) \/ same (a_flags x (wr_rm w r v a1)) (wr_rm w r v (a_flags x a1))).
      { intros x. destruct r as [nn|sg o]; cbn [wr_rm].
        - left. rewrite wreg_aflags. reflexivity.
        - right. destruct Hr as [R1 R2]. destruct (lin_ok w sg o Hw R1 R2).
          eapply same_trans; [apply same_a_flags, same_sym; eapply smem_same; eauto|].
          eapply same_trans; [|eapply smem_same; eauto with flat]. apply same_refl. }
      destruct (Hsw (put_szp w v (if n =? 1 then fset (if left then xorb (msb w v) (ftest M_CF f1) else xorb (msb w v) (Z.testbit v (w - 2))) M_OF f1 else f1))) as [->|Hs'].
      * apply same_refl.
      * eapply same_trans; [exact Hs'|]. apply same_refl.
    + assert (Hcf : ftest M_CF f1 = cf).
      { rewrite ftest_CF. unfold flag, f1. rewrite tb_fset, tb_fclear. cbn -[Z.testbit]. 
        change (Z.testbit (M_CF + M_OF + M_AF) 0) with true. change (Z.testbit M_CF 0) with true.
        rewrite andb_false_r, andb_true_r. reflexivity. }
      destruct (Z.eqb_spec n 1) as [->|].
      * rewrite !msb_bit, Hcf.
        assert (Ho : (if left then xorb (Z.testbit v (w - 1)) cf else xorb (Z.testbit v (w - 1)) (Z.testbit v (w - 2))) = xorb (top w dv) (top w v)).
        { rewrite <- (dbl_of1 left w dv sv v Hw Hdv Hsv eq_refl). subst cf. destruct left; reflexivity. }
        rewrite Ho. cbn [andb]. unfold f1, put6, put_szp. generalize (xorb (top w dv) (top w v)). intros b. flags_eq.
      * cbn [andb]. unfold f1, put6, put_szp. flags_eq.
Qed.

Lemma dbl_instr s pre p bs (left : bool) w r src n :
  fetched E base s pre p bs -> decode_dbl p (ar s) bs = Some (left, w, r, src, n) ->
  operand_ok p (ar s) bs -> dbl_supported w r src n ->
  executes E s (pre ++ bs) (dbl_effect left w r src n (ar s)).
Proof.
  intros Hf Hdec Hop Hsup. destruct bs as [|op t]; [discriminate|].
  destruct (Z.eqb_spec op 15) as [->|Hne].
  2:{ exfalso. clear - Hdec Hne. unfold decode_dbl in Hdec. destruct op as [|q|q]; try discriminate.
      do 4 (destruct q as [q|q|]; try discriminate Hdec). lia. }
  destruct t as [|op2 t2]; [discriminate|].
  destruct (instr_ctx _ _ _ _ _ _ _ Hf) as (F & W & Hp & C & Hb).
  pose proof (instr_ctx2 _ _ _ _ _ _ _ _ Hf) as C2.
  cbn [decode_dbl] in Hdec.
  assert (H : op2 = 164 \/ op2 = 172 \/ op2 = 165 \/ op2 = 173).
  { destruct (parse_rm p (ar s) t2) as [[[? ?] ?]|]; [|discriminate].
    destruct (Z.eqb_spec op2 164); [auto|]. destruct (Z.eqb_spec op2 172); [auto|].
    destruct (Z.eqb_spec op2 165); [auto|]. destruct (Z.eqb_spec op2 173); [auto|discriminate]. }
  assert (Hm : has_modrm (15 :: op2 :: t2) = Some (false, t2)).
  { destruct H as [->|[->|[->| ->]]]; reflexivity. }
  destruct (parse_rm p (ar s) t2) as [[[rg r'] rest]|] eqn:Hr; [|discriminate].
  destruct t2 as [|mb t3]; [discriminate|].
  destruct (modrm_ctx2 _ _ _ _ _ _ _ _ _ _ _ _ Hf Hop Hm Hr) as (Hrok & Hgok & Hg & Hs & _ & Cr & Hrg).
  assert (fin : forall o off', dispatch (15 :: op2 :: mb :: t3) = Some (o, 0, 2) -> w = osz p -> r = r' -> src = rg -> 0 <= n ->
    (forall g c l, exec1 E o 0 (mkSt (ar s) (dec_of p (blen pre + 2)) g c l) =
       do_dbl left w (ptr_of base w r) (ptr_of base w (RReg src)) n (mkSt (ar s) (dec_of p off') g c l)) ->
    off' = blen pre + blen (15 :: op2 :: mb :: t3) ->
    executes E s (pre ++ 15 :: op2 :: mb :: t3) (dbl_effect left w r src n (ar s))).
  { intros o off' Hdi -> -> -> Hn Hx ->.
    destruct (do_dbl_ok left (osz p) r' rg n (ar s) F W) as (a' & F' & Hip & Hsm & He); auto.
    { unfold osz. destruct (p_os p); auto. }
    eapply fr_straight; [exact Hf|exact Hdi| | | | |].
    - intros. rewrite Hx. apply He.
    - reflexivity.
    - auto.
    - auto.
    - auto. }
  assert (Hptr : forall q, (match q with RReg d => d < 4 | _ => True end) -> rm_ok q -> ptr_of base 8 q = ptr_of base (osz p) q).
  { intros q Hq Hq2. destruct q as [m|]; [|reflexivity]. rewrite !ptr_reg by auto with width. f_equal.
    unfold rpos. cbn in Hq2. replace (m <? 4) with true by lia. cbn. unfold osz. destruct (p_os p); reflexivity. }
  destruct Hsup as (Hs1 & Hs2 & Hs3 & Hs4).
  assert (Hq : match r with RReg d => d < 4 | _ => True end) by (destruct r; tauto).
  destruct H as [->|[->|[->| ->]]]; cbv iota in Hdec; cbn [Z.eqb Pos.eqb] in Hdec.
  1, 2: destruct (imm 8 rest) as [i|] eqn:Hi; [|discriminate]; cbn [after] in Hdec; apply some_inj in Hdec; injection Hdec as <- <- <- <- <-;
    pose proof (imm_range E base 8 _ _ _ _ F W width8 Cr Hi) as Hir;
    destruct rest as [|i' [|? [|? [|? [|? ?]]]]]; try discriminate; injection Hi as ->;
    (eapply fin; [reflexivity|reflexivity|reflexivity|reflexivity|apply Hir| |]);
    [intros; cbn [exec1 e_op e_arg]; unfold x_dbl_i8; erewrite (st_parse8 E base) by eauto; cbn [fst snd];
     erewrite (st_fetch8 E base) by eauto; xs E base;
     rewrite !Hptr by auto; reflexivity|blia].
  1, 2: destruct rest; [|discriminate]; cbn [ifrest] in Hdec; apply some_inj in Hdec; injection Hdec as <- <- <- <- <-;
    (eapply fin; [reflexivity|reflexivity|reflexivity|reflexivity|apply reg_range; auto with width; lia| |]);
    [intros; cbn [exec1 e_op e_arg]; unfold x_dbl_cl; erewrite (st_parse8 E base) by eauto; cbn [fst snd];
     unfold R_CX; rewrite st_getL by lia; xs E base;
     rewrite !Hptr by auto; reflexivity|blia].
Qed.
End WithEnv.
