(** End-to-end theorem: jumps, calls, returns. *)
From Verif Require Import Base Cpu Alu Ops Machine Spec SpecOps SpecOps2 PBase PMem PRun PFrame PAlu PExec PIAlu PIAlu2 PShift PStep PIMov PIStack.

Definition cond_of (n : Z) : cond :=
  match n with
  | 0 => C_O | 1 => C_NO | 2 => C_C | 3 => C_NC | 4 => C_Z | 5 => C_NZ | 6 => C_BE | 7 => C_A
  | 8 => C_S | 9 => C_NS | 10 => C_PE | 11 => C_PO | 12 => C_L | 13 => C_GE | 14 => C_LE | _ => C_G
  end.
Lemma sixteen (m : Z) (P : Z -> Prop) : P 0 -> P 1 -> P 2 -> P 3 -> P 4 -> P 5 -> P 6 -> P 7 ->
  P 8 -> P 9 -> P 10 -> P 11 -> P 12 -> P 13 -> P 14 -> P 15 -> 0 <= m < 16 -> P m.
Proof.
  intros. assert (Hm : m = 0 \/ m = 1 \/ m = 2 \/ m = 3 \/ m = 4 \/ m = 5 \/ m = 6 \/ m = 7 \/ m = 8 \/ m = 9
    \/ m = 10 \/ m = 11 \/ m = 12 \/ m = 13 \/ m = 14 \/ m = 15) by lia.
  repeat destruct Hm as [->|Hm]; try assumption. subst; assumption.
Qed.
Lemma jcc_ok n f : 0 <= n < 16 -> cond_holds (cond_of n) f = jcc n f.
Proof.
  intros Hn. pattern n. apply sixteen; try exact Hn; clear n Hn; unfold cond_holds, cond_of, jcc; cbn -[ftest flag];
  rewrite ?ftest_CF, ?ftest_PF, ?ftest_ZF, ?ftest_SF, ?ftest_OF;
  repeat match goal with |- context [flag ?k f] => destruct (flag k f) end; reflexivity.
Qed.

Lemma wreg_aip w n v x a : with_reg w n v (a_ip x a) = a_ip x (with_reg w n v a).
Proof. unfold with_reg. destruct (w =? 8); [destruct (n <? 4)|]; reflexivity. Qed.
Lemma wreg_acs w n v x a : with_reg w n v (a_cs x a) = a_cs x (with_reg w n v a).
Proof. unfold with_reg. destruct (w =? 8); [destruct (n <? 4)|]; reflexivity. Qed.
Lemma wreg_aflags w n v x a : with_reg w n v (a_flags x a) = a_flags x (with_reg w n v a).
Proof. unfold with_reg. destruct (w =? 8); [destruct (n <? 4)|]; reflexivity. Qed.
Lemma reg_aip w n x a : reg w n (a_ip x a) = reg w n a. Proof. reflexivity. Qed.
Lemma reg_acs w n x a : reg w n (a_cs x a) = reg w n a. Proof. reflexivity. Qed.
Lemma reg_aflags w n x a : reg w n (a_flags x a) = reg w n a. Proof. reflexivity. Qed.
Lemma drop_aip n x a : drop n (a_ip x a) = a_ip x (drop n a).
Proof. unfold drop. rewrite wreg_aip. reflexivity. Qed.
Lemma drop_acs n x a : drop n (a_cs x a) = a_cs x (drop n a).
Proof. unfold drop. rewrite wreg_acs. reflexivity. Qed.
Lemma top16_aip x a : top16 (a_ip x a) = top16 a.
Proof. unfold top16. rewrite reg_aip. apply mem_ext; reflexivity. Qed.
Lemma top16_acs x a : top16 (a_cs x a) = top16 a.
Proof. unfold top16. rewrite reg_acs. apply mem_ext; reflexivity. Qed.
Lemma cs_ip_swap x y a : a_cs x (a_ip y a) = a_ip y (a_cs x a). Proof. reflexivity. Qed.
Lemma drop_fold n a : with_reg 16 4 (low 16 (reg 16 4 a + n)) a = drop n a. Proof. reflexivity. Qed.
Lemma some_inj {X} (x y : X) : Some x = Some y -> x = y.
Proof. congruence. Qed.

Section WithEnv.
Context (E : env) (base : Z).

Lemma fr_branch s pre p bs o k m a1 a2 (b : bool) (d d' off' : Z) :
  fetched E base s pre p bs -> dispatch bs = Some (o, k, m) ->
  (forall g n l, exec1 E o k (mkSt (ar s) (dec_of p (blen pre + m)) g n l) =
     Ok tt (mkSt (if b then a_ip (low 16 (r_ip a1 + d')) a1 else a1) (dec_of p off') g n l)) ->
  off' = blen pre + blen bs -> low 16 d' = low 16 d ->
  flat E base a1 -> r_ip a1 = r_ip (ar s) -> same a1 a2 ->
  executes_to E s (pre ++ bs) (branch b (blen (pre ++ bs)) d (ar s) a2).
Proof.
  intros Hf Hd Hx Ho Hdd F Hip Hs. eapply fr_rel; eauto.
  - destruct b; auto with flat.
  - unfold branch, fallthrough. rewrite blen_app. destruct b; cbn [r_ip a_ip].
    + change (a_ip (low 16 (low 16 (r_ip a1 + d') + (blen pre + blen bs))) (a_ip (low 16 (r_ip a1 + d')) a1))
        with (a_ip (low 16 (low 16 (r_ip a1 + d') + (blen pre + blen bs))) a1).
      replace (low 16 (low 16 (r_ip a1 + d') + (blen pre + blen bs)))
        with (low 16 (r_ip (ar s) + (blen pre + blen bs) + d)); [apply same_a_ip, Hs|].
      rewrite Hip. unfold low in *. change (2 ^ 16) with 65536 in *. lia.
    + rewrite Hip. apply same_a_ip, Hs.
Qed.
Ltac frb Hf Hd := eapply fr_branch; [exact Hf|exact Hd|intros; cbn [exec1 e_op e_arg]| | | | |].
Ltac fra Hf := eapply fr_abs; [exact Hf|try reflexivity|intros; cbn [exec1 e_op e_arg]| | |].

Ltac ftl := unfold fallthrough; rewrite ?blen_app;
  match goal with |- same (push16 (low 16 ?x) _) (push16 (low 16 ?y) _) => replace y with x by blia end.
Lemma far_eq sg o a : far sg o a = a_ip o (a_cs sg a).
Proof. reflexivity. Qed.
Lemma low16_wrap16 x : low 16 (wrap 16 x) = low 16 x.
Proof. apply low_low. lia. Qed.
Lemma low_signed w x : width w -> inrange w x -> low w (signed w x) = low w x.
Proof.
  intros Hw Hx. unfold signed, low. destruct (_ <? _); [reflexivity|].
  widths Hw; cbn; lia.
Qed.

Lemma st_farptr {Y} (k : Z * Z -> M Y) a p off g n l mb t rg sg o : flat E base a -> wf_regs a ->
  pfx_ok p -> code_from a off (mb :: t) ->
  parse_rm p a (mb :: t) = Some (rg, RMem sg o, []) -> ea_supported p a (mb :: t) ->
  bind (parse_farptr E) k (mkSt a (dec_of p off) g n l) =
  k (mem 16 a (lin sg (low 16 (o + 2))), mem 16 a (lin sg o)) (mkSt a (dec_of p (off + blen (mb :: t))) g n l).
Proof.
  intros F W Hp C Hr Hs. pose proof (rm_mem_mod3 _ _ _ _ _ _ _ _ Hr) as Hm3.
  pose proof (code_byte_range E base _ _ _ _ F W C) as Hmb.
  destruct (code_from_cons _ _ _ _ C) as [_ C'].
  destruct (parse_rm_ok _ _ _ _ _ _ W Hr) as [[Hsg Ho] Hg].
  unfold parse_farptr. rewrite st_bind. erewrite (st_get_modrm E base) by eauto. cbn [modrm_of m_mod].
  rewrite (proj2 (Z.eqb_neq _ _) Hm3). rewrite st_bind. erewrite (st_get_mmm E base) by eauto. cbn [fst snd].
  do 4 xs E base. rewrite st_ret. change wrap with low. rewrite (low_id 16 o) by auto.
  rewrite blen_cons. change (blen []) with 0. do 3 f_equal. lia.
Qed.

Lemma jump_instr s pre p bs a' :
  fetched E base s pre p bs -> step_jump p (blen (pre ++ bs)) (ar s) bs = Some a' ->
  operand_ok p (ar s) bs ->
  executes_to E s (pre ++ bs) a'.
Proof.
  intros Hf Hdec Hop. destruct bs as [|op t]; [discriminate|].
  destruct (instr_ctx _ _ _ _ _ _ _ Hf) as (F & W & Hp & C & Hb).
  unfold step_jump in Hdec.
  destruct ((112 <=? op) && (op <=? 127)) eqn:Hrng.
  { destruct (imm 8 t) as [i|] eqn:Hi; [|discriminate]. cbn [after] in Hdec. apply some_inj in Hdec; subst a'.
    pose proof (imm_range E base 8 _ _ _ _ F W width8 C Hi) as Hir.
    destruct t as [|i' [|? [|? [|? [|? ?]]]]]; try discriminate. injection Hi as ->.
    assert (Hd : dispatch [op; i] = Some (OJccS (cond_of (op - 112)), 0, 1)).
    { replace op with (112 + (op - 112)) at 1 by lia. assert (Hz : 0 <= op - 112 < 16) by lia.
      revert Hz. generalize (op - 112). intros z Hz. pattern z. apply sixteen; [reflexivity..|exact Hz]. }
    frb Hf Hd.
    - unfold x_jcc_s. erewrite (st_fetch8s E base) by eauto. rewrite st_getflags. unfold jump_if.
      rewrite jcc_ok by lia.
      destruct (jcc (op - 112) (r_flags (ar s))).
      + rewrite st_getA. tail. rewrite st_set_ip. reflexivity.
      + reflexivity.
    - blia.
    - apply low16_wrap16.
    - auto.
    - reflexivity.
    - apply same_refl. }

  destruct (Z.eqb_spec op 235) as [->|_].
  { destruct (imm 8 t) as [i|] eqn:Hi; [|discriminate]. cbn [after] in Hdec. apply some_inj in Hdec; subst a'.
    destruct t as [|i' [|? [|? [|? [|? ?]]]]]; try discriminate. injection Hi as ->.
    eapply fr_branch; [exact Hf|reflexivity|intros; cbn [exec1 e_op e_arg]| | | | |].
    - unfold x_jmp_s, jump_if. erewrite (st_fetch8s E base) by eauto. 
      rewrite st_getA. tail. rewrite st_set_ip. reflexivity.
    - blia.
    - apply low16_wrap16.
    - auto.
    - reflexivity.
    - apply same_refl. }
  destruct ((224 <=? op) && (op <=? 226) && negb (p_as p)) eqn:Hlp.
  { destruct (imm 8 t) as [i|] eqn:Hi; [|discriminate]. cbn [after] in Hdec. apply some_inj in Hdec; subst a'.
    destruct t as [|i' [|? [|? [|? [|? ?]]]]]; try discriminate. injection Hi as ->.
    assert (Hx : exists o gf, dispatch [op; i] = Some (o, 0, 1) /\ exec1 E o 0 = loop_with E gf /\
      gf (r_flags (ar s)) = (if op =? 224 then negb (flag ZF (r_flags (ar s)))
                       else if op =? 225 then flag ZF (r_flags (ar s)) else true)).
    { assert (Hc : op = 224 \/ op = 225 \/ op = 226) by lia.
      destruct Hc as [-> | [-> | ->]].
      - exists OLoopnz. eexists. split; [reflexivity|]. split; [reflexivity|]. cbn -[ftest flag]. rewrite ftest_ZF. reflexivity.
      - exists OLoopz. eexists. split; [reflexivity|]. split; [reflexivity|]. cbn -[ftest flag]. rewrite ftest_ZF. reflexivity.
      - exists OLoop. eexists. split; [reflexivity|]. split; [reflexivity|]. reflexivity. }
    destruct Hx as (o & gf & Hd & Hex & Hgf).
    rewrite <- Hgf.
    frb Hf Hd.
    - rewrite Hex. unfold loop_with. erewrite (st_fetch8s E base) by eauto. 
      unfold R_CX. rewrite st_getW, st_setW, st_getW by lia. rewrite st_getflags. unfold jump_if.
      rewrite reg16_same by (auto with wf; lia). rewrite wreg_flags.
      destruct (negb (low 16 (reg 16 1 (ar s) - 1) =? 0) && gf (r_flags (ar s))).
      + rewrite st_getA. tail. rewrite st_set_ip. reflexivity.
      + reflexivity.
    - blia.
    - apply low16_wrap16.
    - auto with flat.
    - apply wreg_ip.
    - apply same_refl. }
  destruct ((op =? 227) && Bool.eqb (p_os p) (p_as p)) eqn:Hjc.
  { assert (op = 227) as -> by lia.
    destruct (imm 8 t) as [i|] eqn:Hi; [|discriminate]. cbn [after] in Hdec. apply some_inj in Hdec; subst a'.
    destruct t as [|i' [|? [|? [|? [|? ?]]]]]; try discriminate. injection Hi as ->.
    eapply fr_branch; [exact Hf|reflexivity|intros; cbn [exec1 e_op e_arg]| | | | |].
    - unfold x_jcxz, jump_if. erewrite (st_fetch8s E base) by eauto. xs E base. xs E base.
      destruct (reg (osz p) 1 (ar s) =? 0).
      + rewrite st_getA. tail. rewrite st_set_ip. reflexivity.
      + reflexivity.
    - blia.
    - apply low16_wrap16.
    - auto.
    - reflexivity.
    - apply same_refl. }
  clear Hrng Hlp Hjc. destruct (p_os p) eqn:Ho; [discriminate|].
  destruct (Z.eqb_spec op 233) as [->|_].
  { destruct (imm 16 t) as [i|] eqn:Hi; [|discriminate]. cbn [after] in Hdec. apply some_inj in Hdec; subst a'.
    pose proof (imm_range E base 16 _ _ _ _ F W width16 C Hi) as Hir.
    eapply fr_branch; [exact Hf|reflexivity|intros; cbn [exec1 e_op e_arg]| | | | |].
    - unfold x_jmp_n, jump_if, fetch16. xs E base. rewrite st_getA. tail. rewrite st_set_ip. reflexivity.
    - blia.
    - symmetry. apply low_signed; auto with width.
    - auto.
    - reflexivity.
    - apply same_refl. }
  destruct (Z.eqb_spec op 232) as [->|_].
  { destruct (imm 16 t) as [i|] eqn:Hi; [|discriminate]. cbn [after] in Hdec. apply some_inj in Hdec; subst a'.
    pose proof (imm_range E base 16 _ _ _ _ F W width16 C Hi) as Hir.
    eapply fr_branch; [exact Hf|reflexivity|intros; cbn [exec1 e_op e_arg]| | | | |].
    - unfold x_call_n, fetch16. xs E base. rewrite (st_pushnext E base) by auto. rewrite st_getA. tail. rewrite st_set_ip. reflexivity.
    - blia.
    - symmetry. apply low_signed; auto with width.
    - auto with flat.
    - rewrite push_a_ip; reflexivity.
    - cbn [d_ipoff dec_of]. eapply same_trans; [eapply same_push16; eauto; apply same_refl|].
      ftl. apply same_refl. }
  destruct (Z.eqb_spec op 234) as [->|_].
  { destruct t as [|o0 [|o1 [|s0 [|s1 [|? ?]]]]]; try discriminate. apply some_inj in Hdec; subst a'.
    fra Hf; [unfold x_jmp_f| | |].
    - erewrite (st_fetch16c E base) by eauto. erewrite (st_fetch16c E base) by eauto using code_from_2.
      do 2 xs E base. tail. rewrite st_dont. reflexivity.
    - blia.
    - auto with flat.
    - rewrite !low_id by (eapply code_word_range; eauto using code_from_2). apply same_refl. }
  destruct (Z.eqb_spec op 154) as [->|_].
  { destruct t as [|o0 [|o1 [|s0 [|s1 [|? ?]]]]]; try discriminate. apply some_inj in Hdec; subst a'.
    fra Hf; [unfold x_call_f| | |].
    - erewrite (st_fetch16c E base) by eauto. erewrite (st_fetch16c E base) by eauto using code_from_2.
      rewrite (st_pushcs E base) by auto. rewrite (st_pushnext E base) by auto with flat wf.
      do 2 xs E base. tail. rewrite st_dont. reflexivity.
    - blia.
    - auto with flat.
    - rewrite !low_id by (eapply code_word_range; eauto using code_from_2). rewrite far_eq.
      apply same_a_ip, same_a_cs. cbn [d_ipoff dec_of]. rewrite push_a_ip.
      eapply same_trans; [apply same_push16 with (E := E); [auto with flat|auto with wf|apply same_push16 with (E := E); [auto..|apply same_refl]]|].
      ftl. apply same_refl. }
  destruct (Z.eqb_spec op 195) as [->|_].
  { destruct t; [|discriminate]. apply some_inj in Hdec; subst a'.
    fra Hf; [unfold x_ret_n| | |].
    - rewrite (st_popd E base) by auto. xs E base. tail. rewrite st_dont. reflexivity.
    - blia.
    - auto 12 using drop_flat with flat.
    - rewrite low_id by (eapply top16_range; eauto). apply same_refl. }
  destruct (Z.eqb_spec op 194) as [->|_].
  { destruct (imm 16 t) as [i|] eqn:Hi; [|discriminate]. apply some_inj in Hdec; subst a'.
    fra Hf; [unfold x_ret_in, fetch16| | |].
    - xs E base. rewrite (st_popd E base) by auto. xs E base. unfold R_SP. rewrite st_getW, st_setW by lia. rewrite ?wreg_aip, ?reg_aip, ?wreg_acs, ?reg_acs. tail. rewrite st_dont. reflexivity.
    - blia.
    - auto 12 using drop_flat with flat.
    - change wrap with low. rewrite (low_id 16 (top16 _)) by (eapply top16_range; eauto). rewrite drop_fold. apply same_refl. }
  destruct (Z.eqb_spec op 203) as [->|_].
  { destruct t; [|discriminate]. apply some_inj in Hdec; subst a'.
    fra Hf; [unfold x_ret_f| | |].
    - rewrite (st_popd E base) by auto. rewrite (st_popd E base) by (eauto using drop_flat, drop_wf). do 2 xs E base. tail. rewrite st_dont. reflexivity.
    - blia.
    - auto 12 using drop_flat with flat.
    - rewrite !low_id by (eapply top16_range; eauto using drop_flat, drop_wf). rewrite far_eq. apply same_refl. }
  destruct (Z.eqb_spec op 202) as [->|_].
  { destruct (imm 16 t) as [i|] eqn:Hi; [|discriminate]. apply some_inj in Hdec; subst a'.
    fra Hf; [unfold x_ret_if, fetch16| | |].
    - xs E base. rewrite (st_popd E base) by auto. rewrite (st_popd E base) by (eauto using drop_flat, drop_wf). do 2 xs E base. 
      unfold R_SP. rewrite st_getW, st_setW by lia. rewrite ?wreg_aip, ?reg_aip, ?wreg_acs, ?reg_acs. tail. rewrite st_dont. reflexivity.
    - blia.
    - auto 12 using drop_flat with flat.
    - change wrap with low. rewrite !(low_id 16 (top16 _)) by (eapply top16_range; eauto using drop_flat, drop_wf). rewrite drop_fold, far_eq. apply same_refl. }
  destruct (Z.eqb_spec op 207) as [->|_].
  { destruct t; [|discriminate]. apply some_inj in Hdec; subst a'.
    fra Hf; [unfold x_iret| | |].
    - rewrite (st_popd E base) by auto. xs E base.
      rewrite (st_popd E base) by (auto 12 using drop_flat, drop_wf with flat wf). xs E base.
      rewrite !drop_aip. rewrite (st_popd E base) by (auto using drop_flat, drop_wf with flat wf). xs E base.
      rewrite !drop_acs, !drop_aip, ?top16_acs, ?top16_aip. tail. rewrite st_dont. reflexivity.
    - blia.
    - auto 12 using drop_flat with flat.
    - change wrap with low. rewrite !(low_id 16 (top16 _)) by (apply (top16_range E base); auto using drop_flat, drop_wf).
      rewrite far_eq. rewrite cs_ip_swap. apply same_refl. }
  destruct (Z.eqb_spec op 15) as [->|_].
  { destruct t as [|op2 t2]; [discriminate|].
    destruct ((128 <=? op2) && (op2 <=? 143)) eqn:Hrng; [|discriminate].
    destruct (imm 16 t2) as [i|] eqn:Hi; [|discriminate]. cbn [after] in Hdec. apply some_inj in Hdec; subst a'.
    pose proof (instr_ctx2 _ _ _ _ _ _ _ _ Hf) as C2.
    pose proof (imm_range E base 16 _ _ _ _ F W width16 C2 Hi) as Hir.
    assert (Hd : dispatch (15 :: op2 :: t2) = Some (OJccN (cond_of (op2 - 128)), 0, 2)).
    { replace op2 with (128 + (op2 - 128)) at 1 by lia. assert (Hz : 0 <= op2 - 128 < 16) by lia.
      revert Hz. generalize (op2 - 128). intros z Hz. pattern z. apply sixteen; [reflexivity..|exact Hz]. }
    frb Hf Hd.
    - unfold x_jcc_n, fetch16. xs E base. rewrite st_getflags. unfold jump_if.
      rewrite jcc_ok by lia.
      destruct (jcc (op2 - 128) (r_flags (ar s))).
      + rewrite st_getA. tail. rewrite st_set_ip. reflexivity.
      + reflexivity.
    - blia.
    - symmetry. apply low_signed; auto with width.
    - auto.
    - reflexivity.
    - apply same_refl. }
  destruct (Z.eqb_spec op 255) as [->|_]; [|discriminate].
  mrform0 Hf Hop Hdec.
  destruct (Z.eqb_spec rg 2) as [H2|_].
  { destruct (Z.eqb_spec (rd_rm 16 r (push16 (fallthrough (blen (pre ++ 255 :: mb :: t0)) (ar s)) (ar s))) (rd_rm 16 r (ar s))) as [Heq|]; [|discriminate].
    apply some_inj in Hdec; subst a'.
    assert (Hd : dispatch (255 :: mb :: t0) = Some (OUnaryMX, 2, 1)) by (cbn; rewrite Hrg, H2; reflexivity).
    assert (Hs1 : same (push_a base (low 16 (r_ip (ar s) + (blen pre + 1 + blen (mb :: t0)))) (ar s))
              (push16 (fallthrough (blen (pre ++ 255 :: mb :: t0)) (ar s)) (ar s))).
    { eapply same_trans; [eapply same_push16; eauto; apply same_refl|].
      ftl. apply same_refl. }
    eapply fr_abs; [exact Hf|exact Hd|intros; cbn [exec1 e_op e_arg]; unfold x_unary_mx| | |].
    - rewrite st_getD. cbn [d_op dec_of]. rewrite Ho.
      erewrite (st_parsex E base 16) by eauto with width. cbn [fst snd].
      rewrite (st_pushnext E base) by auto. cbn [d_ipoff dec_of]. rewrite (st_load E base) by auto with flat width.
      xs E base. tail. rewrite st_dont. reflexivity.
    - blia.
    - auto with flat.
    - change (blen []) with 0. rewrite Z.sub_0_r.
      rewrite (same_rd_rm _ _ 16 r Hs1), Heq. rewrite low16_wrap16 || idtac.
      rewrite low_id by (eapply rd_rm_range'; eauto with width).
      apply same_a_ip. exact Hs1. }
  destruct (Z.eqb_spec rg 4) as [H4|_].
  { apply some_inj in Hdec; subst a'.
    assert (Hd : dispatch (255 :: mb :: t0) = Some (OUnaryMX, 4, 1)) by (cbn; rewrite Hrg, H4; reflexivity).
    eapply fr_abs; [exact Hf|exact Hd|intros; cbn [exec1 e_op e_arg]; unfold x_unary_mx| | |].
    - rewrite st_getD. cbn [d_op dec_of]. rewrite Ho.
      erewrite (st_parsex E base 16) by eauto with width. cbn [fst snd].
      rewrite (st_load E base) by auto with flat width.
      xs E base. tail. rewrite st_dont. reflexivity.
    - blia.
    - auto with flat.
    - rewrite low_id by (eapply rd_rm_range'; eauto with width). apply same_refl. }
  destruct r as [|sg o]; [discriminate|].
  destruct (Z.eqb_spec rg 3) as [H3|_].
  { apply some_inj in Hdec; subst a'.
    assert (Hd : dispatch (255 :: mb :: t0) = Some (OUnaryMX, 3, 1)) by (cbn; rewrite Hrg, H3; reflexivity).
    eapply fr_abs; [exact Hf|exact Hd|intros; cbn [exec1 e_op e_arg]; unfold x_unary_mx| | |].
    - rewrite st_getD. cbn [d_op dec_of]. rewrite Ho.
      erewrite st_farptr by eauto. cbn [fst snd].
      rewrite (st_pushcs E base) by auto. rewrite (st_pushnext E base) by auto with flat wf. cbn [d_ipoff dec_of].
      do 2 xs E base. tail. rewrite st_dont. reflexivity.
    - blia.
    - auto with flat.
    - destruct Hrok as [Hsg Hso].
      change wrap with low. rewrite !(low_id 16 (mem _ _ _)) by (eapply mem_lin_range; eauto using low_range with width; apply low_range; lia).
      rewrite far_eq, cs_ip_swap. apply same_a_ip, same_a_cs. rewrite push_a_ip.
      eapply same_trans; [apply same_push16 with (E := E); [auto with flat|auto with wf|apply same_push16 with (E := E); [auto..|apply same_refl]]|].
      ftl. apply same_refl. }
  destruct (Z.eqb_spec rg 5) as [H5|_]; [|discriminate].
  { apply some_inj in Hdec; subst a'.
    assert (Hd : dispatch (255 :: mb :: t0) = Some (OUnaryMX, 5, 1)) by (cbn; rewrite Hrg, H5; reflexivity).
    eapply fr_abs; [exact Hf|exact Hd|intros; cbn [exec1 e_op e_arg]; unfold x_unary_mx| | |].
    - rewrite st_getD. cbn [d_op dec_of]. rewrite Ho.
      erewrite st_farptr by eauto. cbn [fst snd].
      do 2 xs E base. tail. rewrite st_dont. reflexivity.
    - blia.
    - auto with flat.
    - destruct Hrok as [Hsg Hso].
      change wrap with low. rewrite !(low_id 16 (mem _ _ _)) by (eapply mem_lin_range; eauto using low_range with width; apply low_range; lia).
      rewrite far_eq, cs_ip_swap. apply same_refl. }
Qed.
End WithEnv.
