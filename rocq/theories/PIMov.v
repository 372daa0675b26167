(** End-to-end theorem: data movement. *)
From Verif Require Import Base Cpu Alu Ops Machine Spec SpecOps SpecOps2 PBase PMem PRun PFrame PAlu PExec PIAlu PIAlu2 PShift PStep.

(** Opens a ModR/M form in Hdec. *)
Ltac mrform Hf Hop Hdec :=
  match type of Hdec with
  | context [parse_rm ?p ?a ?t] =>
    let rg := fresh "rg" in let r := fresh "r" in let rest := fresh "rest" in let mb := fresh "mb" in
    let t' := fresh "t" in let Hr := fresh "Hr" in let Hnb := fresh "Hnb" in
    let Hrok := fresh "Hrok" in let Hgok := fresh "Hgok" in let Hg := fresh "Hg" in
    let Hs := fresh "Hs" in let Cr := fresh "Cr" in let Hrg := fresh "Hrg" in
    destruct (parse_rm p a t) as [[[rg r] rest]|] eqn:Hr; [|discriminate Hdec];
    destruct t as [|mb t']; [discriminate Hr|];
    first [destruct (modrm_ctx _ _ _ _ _ _ _ _ _ _ _ _ Hf Hop eq_refl Hr) as (Hrok & Hgok & Hg & Hs & Hnb & Cr & Hrg)
          |destruct (modrm_ctx2 _ _ _ _ _ _ _ _ _ _ _ _ Hf Hop eq_refl Hr) as (Hrok & Hgok & Hg & Hs & Hnb & Cr & Hrg)];
    try specialize (Hnb eq_refl)
  end.
Ltac mrform0 Hf Hop Hdec :=
  mrform Hf Hop Hdec; match goal with rest : list Z |- _ => destruct rest; [|discriminate Hdec] end.
Ltac frs Hf :=
  eapply fr_straight; [exact Hf|try reflexivity|intros; cbn [exec1 e_op e_arg]| | | |].

Ltac frd Hf Hd :=
  eapply fr_straight; [exact Hf|exact Hd|intros; cbn [exec1 e_op e_arg]| | | |].

Section WithEnv.
Context (E : env) (base : Z).

Definition lxs_st (w sr rg sg o : Z) (a : arch) : arch :=
  let a1 := wr_m base w (RReg rg) (mem w a (lin sg o)) a in
  with_sreg sr (low 16 (mem 16 a1 (lin sg (low 16 (o + w / 8))))) a1.
Lemma lxs_st_flat w sr rg sg o a : flat E base a -> flat E base (lxs_st w sr rg sg o a).
Proof. intros. unfold lxs_st. auto with flat. Qed.
Lemma lxs_st_ip w sr rg sg o a : r_ip (lxs_st w sr rg sg o a) = r_ip a.
Proof. unfold lxs_st. rewrite wsreg_ip, wr_m_ip. reflexivity. Qed.
Lemma lxs_st_same w sr rg sg o a : flat E base a -> width w -> 0 <= rg < 8 -> rm_ok (RMem sg o) ->
  same (lxs_st w sr rg sg o a)
       (with_sreg sr (mem 16 a (lin sg (low 16 (o + w / 8)))) (with_reg w rg (mem w a (lin sg o)) a)).
Proof.
  intros F Hw Hg [Hs Ho]. unfold lxs_st.
  rewrite (mem_ext 16 _ a) by reflexivity.
  rewrite (low_id 16 (mem 16 _ _)) by (eapply mem_lin_range; eauto with width wf).
  apply same_with_sreg. eapply same_wr_m_reg; eauto with wf. apply same_refl.
Qed.
Lemma x_lxs_ok a p off g n l mb t sr rg sg o : flat E base a -> wf_regs a -> pfx_ok p -> 0 <= sr < 6 ->
  code_from a off (mb :: t) -> parse_rm p a (mb :: t) = Some (rg, RMem sg o, []) ->
  ea_supported p a (mb :: t) ->
  x_lxs E sr (mkSt a (dec_of p off) g n l) =
  Ok tt (mkSt (lxs_st (osz p) sr rg sg o a) (dec_of p (off + blen (mb :: t))) g n l).
Proof.
  intros F W Hp Hsr C Hr Hs. pose proof (rm_mem_mod3 _ _ _ _ _ _ _ _ Hr) as Hm3.
  pose proof (code_byte_range E base _ _ _ _ F W C) as Hmb.
  destruct (code_from_cons _ _ _ _ C) as [_ C'].
  destruct (parse_rm_ok _ _ _ _ _ _ W Hr) as [[Hsg Ho] Hg].
  assert (Hrg : (mb / 8) mod 8 = rg) by (symmetry; eapply parse_rm_rg; eauto).
  unfold x_lxs. erewrite (st_get_modrm_nocheck E base) by eauto. cbn [modrm_of m_mod].
  rewrite (proj2 (Z.eqb_neq _ _) Hm3).
  erewrite (st_get_mmm E base) by eauto. xs E base. cbn [fst snd m_rrr modrm_of]. rewrite Hrg.
  xs E base. rewrite (regW_ptr base (osz p)) by auto with width. xs E base. xs E base.
  tail. rewrite st_setseg by auto. unfold ret, lxs_st. rewrite blen_cons. change (blen []) with 0.
  change wrap with low. rewrite (low_id 16 o) by auto. do 3 f_equal. lia.
Qed.

Lemma width_asz p : width (asz p).
Proof. unfold asz. destruct (p_as p); auto with width. Qed.
Lemma mov_instr s pre p bs a' :
  fetched E base s pre p bs -> step_mov p (ar s) bs = Some a' -> operand_ok p (ar s) bs ->
  executes E s (pre ++ bs) a'.
Proof.
  intros Hf Hdec Hop. destruct bs as [|op t]; [discriminate|].
  destruct (instr_ctx _ _ _ _ _ _ _ Hf) as (F & W & Hp & C & Hb).
  cbn [step_mov] in Hdec.
  destruct (Z.eqb_spec op 136) as [->|_].
  { mrform0 Hf Hop Hdec. injection Hdec as <-.
    frs Hf; [unfold x_mov_mr, copy; xrun E base| | | |].
    - blia.
    - auto with flat.
    - rewrite wr_m_ip; reflexivity.
    - eapply same_wr_m; eauto with width wf. apply same_refl. }
  destruct (Z.eqb_spec op 137) as [->|_].
  { mrform0 Hf Hop Hdec. injection Hdec as <-.
    frs Hf; [unfold x_mov_mrx, copy; xrun E base| | | |].
    - blia.
    - auto with flat.
    - rewrite wr_m_ip; reflexivity.
    - eapply same_wr_m; eauto with width wf. apply same_refl. }
  destruct (Z.eqb_spec op 138) as [->|_].
  { mrform0 Hf Hop Hdec. injection Hdec as <-.
    frs Hf; [unfold x_mov_rm, copy; xrun E base| | | |].
    - blia.
    - auto with flat.
    - rewrite wr_m_ip; reflexivity.
    - eapply same_wr_m_reg; eauto with width wf. apply same_refl. }
  destruct (Z.eqb_spec op 139) as [->|_].
  { mrform0 Hf Hop Hdec. injection Hdec as <-.
    frs Hf; [unfold x_mov_rmx, copy; xrun E base| | | |].
    - blia.
    - auto with flat.
    - rewrite wr_m_ip; reflexivity.
    - eapply same_wr_m_reg; eauto with width wf. apply same_refl. }
  destruct (Z.eqb_spec op 198) as [->|_].
  { mrform Hf Hop Hdec. destruct (rg =? 0); [|discriminate].
    destruct (imm 8 rest) as [i|] eqn:Hi; [|discriminate]. injection Hdec as <-.
    pose proof (imm_range E base 8 _ _ _ _ F W width8 Cr Hi).
    frs Hf; [unfold x_mov_mi, fetch8; xrun E base| | | |].
    - blia.
    - auto with flat.
    - rewrite wr_m_ip; reflexivity.
    - eapply same_wr_m; eauto with width wf. apply same_refl. }
  destruct (Z.eqb_spec op 199) as [->|_].
  { mrform Hf Hop Hdec. destruct (rg =? 0); [|discriminate].
    destruct (imm (osz p) rest) as [i|] eqn:Hi; [|discriminate]. injection Hdec as <-.
    pose proof (imm_range E base (osz p) _ _ _ _ F W (osz_width p) Cr Hi).
    frs Hf; [unfold x_mov_mix; xrun E base| | | |].
    - blia.
    - auto with flat.
    - rewrite wr_m_ip; reflexivity.
    - eapply same_wr_m; eauto with width wf. apply same_refl. }
  destruct ((176 <=? op) && (op <=? 183)) eqn:Hrng.
  { destruct (imm 8 t) as [i|] eqn:Hi; [|discriminate]. injection Hdec as <-.
    pose proof (imm_range E base 8 _ _ _ _ F W width8 C Hi).
    assert (Hrr : 0 <= op - 176 < 8) by lia.
    assert (Hd : dispatch (op :: t) = Some (OMovRegB, op - 176, 1)).
    { regop 176 op t. }
    frd Hf Hd; [unfold x_mov_regb, fetch8; rewrite (regB_ptr base); xrun E base| | | |].
    - blia.
    - auto with flat.
    - rewrite wr_m_ip; reflexivity.
    - eapply same_wr_m_reg; eauto with width wf. apply same_refl. }
  destruct ((184 <=? op) && (op <=? 191)) eqn:Hrng2.
  { destruct (imm (osz p) t) as [i|] eqn:Hi; [|discriminate]. injection Hdec as <-.
    pose proof (imm_range E base (osz p) _ _ _ _ F W (osz_width p) C Hi).
    assert (Hrr : 0 <= op - 184 < 8) by lia.
    assert (Hd : dispatch (op :: t) = Some (OMovReg, op - 184, 1)).
    { regop 184 op t. }
    frd Hf Hd; [unfold x_mov_reg; rewrite (to_bind (bind _ _)); do 4 xs E base; rewrite (regW_ptr base (osz p)) by auto with width; xrun E base| | | |].
    - blia.
    - auto with flat.
    - rewrite wr_m_ip; reflexivity.
    - eapply same_wr_m_reg; eauto with width wf. apply same_refl. }
  clear Hrng Hrng2.
  pose proof (data_sreg_range p Hp) as Hds.
  assert (Hdr : inrange 16 (sreg (data_sreg p) (ar s))) by (apply sreg_range, W).
  destruct (Z.eqb_spec op 160) as [->|_].
  { destruct (imm (asz p) t) as [i|] eqn:Hi; [|discriminate]. cbn [after] in Hdec. destruct (Z.ltb_spec i 65536) as [Hi6|]; [|discriminate]. injection Hdec as <-.
    assert (Hir : inrange 16 i) by (pose proof (imm_range E base (asz p) _ _ _ _ F W (width_asz p) C Hi); unfold inrange in *; lia).
    frs Hf; [unfold x_mov_amo, R_AX; xrun E base| | | |].
    - blia.
    - auto with flat.
    - rewrite wreg_ip; reflexivity.
    - rewrite (low_id 16 i) by auto. apply same_with_reg_low; eauto with width wf. apply same_refl. }
  destruct (Z.eqb_spec op 161) as [->|_].
  { destruct (imm (asz p) t) as [i|] eqn:Hi; [|discriminate]. cbn [after] in Hdec. destruct (Z.ltb_spec i 65536) as [Hi6|]; [|discriminate]. injection Hdec as <-.
    assert (Hir : inrange 16 i) by (pose proof (imm_range E base (asz p) _ _ _ _ F W (width_asz p) C Hi); unfold inrange in *; lia).
    frs Hf; [unfold x_mov_amox; xrun E base| | | |].
    - blia.
    - auto with flat.
    - rewrite wreg_ip; reflexivity.
    - rewrite (low_id 16 i) by auto. apply same_with_reg_low; eauto with width wf. apply same_refl. }
  destruct (Z.eqb_spec op 162) as [->|_].
  { destruct (imm (asz p) t) as [i|] eqn:Hi; [|discriminate]. cbn [after] in Hdec. destruct (Z.ltb_spec i 65536) as [Hi6|]; [|discriminate]. injection Hdec as <-.
    assert (Hir : inrange 16 i) by (pose proof (imm_range E base (asz p) _ _ _ _ F W (width_asz p) C Hi); unfold inrange in *; lia).
    frs Hf; [unfold x_mov_moa, R_AX; xrun E base| | | |].
    - blia.
    - auto with flat.
    - reflexivity.
    - rewrite (low_id 16 i) by auto. eapply same_smem; eauto with width wf. apply same_refl. }
  destruct (Z.eqb_spec op 163) as [->|_].
  { destruct (imm (asz p) t) as [i|] eqn:Hi; [|discriminate]. cbn [after] in Hdec. destruct (Z.ltb_spec i 65536) as [Hi6|]; [|discriminate]. injection Hdec as <-.
    assert (Hir : inrange 16 i) by (pose proof (imm_range E base (asz p) _ _ _ _ F W (width_asz p) C Hi); unfold inrange in *; lia).
    frs Hf; [unfold x_mov_moax; xrun E base| | | |].
    - blia.
    - auto with flat.
    - reflexivity.
    - rewrite (low_id 16 i) by auto. eapply same_smem; eauto with width wf. apply same_refl. }

  destruct (Z.eqb_spec op 140) as [->|_].
  { mrform0 Hf Hop Hdec. destruct (p_os p) eqn:Ho; [discriminate|]. cbn [orb] in Hdec.
    destruct (Z.ltb_spec 5 rg) as [|Hrg5]; [discriminate|]. injection Hdec as <-.
    frs Hf; [unfold x_mov_rs| | | |].
    - rewrite st_getD. cbn [d_op dec_of]. rewrite Ho.
      erewrite (st_peek8 E base) by eauto. rewrite Hrg.
      erewrite (st_parsex E base 16) by eauto with width. rewrite st_getseg by lia. cbn [fst snd].
      xrun E base.
    - blia.
    - auto with flat.
    - rewrite wr_m_ip; reflexivity.
    - eapply same_wr_m; eauto with width wf. apply same_refl. }
  destruct (Z.eqb_spec op 142) as [->|_].
  { mrform0 Hf Hop Hdec. destruct (p_os p) eqn:Ho; [discriminate|]. cbn [orb] in Hdec.
    destruct (Z.ltb_spec 5 rg) as [|Hrg5]; [discriminate|].
    destruct (Z.eqb_spec rg 1) as [|Hrg1]; [discriminate|]. injection Hdec as <-.
    frs Hf; [unfold x_mov_sr| | | |].
    - rewrite st_getD. cbn [d_op dec_of]. rewrite Ho.
      erewrite (st_peek8 E base) by eauto. rewrite Hrg. rewrite st_chkseg by lia.
      erewrite (st_parsex E base 16) by eauto with width. cbn [fst snd].
      rewrite (st_load E base) by xside. tail. rewrite st_setseg by lia. reflexivity.
    - blia.
    - auto with flat.
    - rewrite wsreg_ip; reflexivity.
    - rewrite low_id by (eapply rd_rm_range'; eauto with width). apply same_refl. }

  destruct (Z.eqb_spec op 134) as [->|_].
  { mrform0 Hf Hop Hdec. injection Hdec as <-.
    frs Hf; [unfold x_xchg_rm, xchg; xrun E base| | | |].
    - blia.
    - auto with flat.
    - rewrite !wr_m_ip; reflexivity.
    - eapply same_wr_m; eauto with width wf flat.
      eapply same_wr_m_reg; eauto with width wf. apply same_refl. }
  destruct (Z.eqb_spec op 135) as [->|_].
  { mrform0 Hf Hop Hdec. injection Hdec as <-.
    frs Hf; [unfold x_xchg_rmx, xchg; xrun E base| | | |].
    - blia.
    - auto with flat.
    - rewrite !wr_m_ip; reflexivity.
    - eapply same_wr_m; eauto with width wf flat.
      eapply same_wr_m_reg; eauto with width wf. apply same_refl. }
  destruct ((144 <=? op) && (op <=? 151)) eqn:Hrng.
  { destruct t; [|discriminate]. cbn [ifrest] in Hdec. injection Hdec as <-.
    assert (Hrr : 0 <= op - 144 < 8) by lia.
    assert (Hd : dispatch [op] = Some (OXchgReg, op - 144, 1)).
    { regop 144 op (@nil Z). }
    destruct (Z.eqb_spec (op - 144) 0) as [H0|H0].
    - frd Hf Hd; [unfold x_xchg_reg; rewrite H0; reflexivity| | | |].
      + blia.
      + auto with flat.
      + reflexivity.
      + rewrite H0. eapply same_sym, same_trans; [apply same_with_reg, with_reg_self; auto with width; lia|].
        apply with_reg_self; auto with width; lia.
    - frd Hf Hd; [unfold x_xchg_reg; rewrite (proj2 (Z.eqb_neq _ _) H0); unfold xchg|..].
      { xs E base. rewrite (regW_ptr base (osz p)) by auto with width.
        rewrite (regW_ptr base (osz p)) by auto with width. xrun E base. }
      + blia.
      + auto with flat.
      + rewrite !wr_m_ip; reflexivity.
      + eapply same_wr_m_reg; eauto with width wf flat.
        eapply same_wr_m_reg; eauto with width wf. apply same_refl. }
  clear Hrng.
  destruct (Z.eqb_spec op 141) as [->|_].
  { mrform0 Hf Hop Hdec. destruct r as [|sg o]; [discriminate|]. injection Hdec as <-.
    pose proof (rm_mem_mod3 _ _ _ _ _ _ _ _ Hr) as Hm3.
    pose proof (code_byte_range E base _ _ _ _ F W C) as Hmb.
    destruct (code_from_cons _ _ _ _ C) as [_ C'].
    frs Hf; [unfold x_lea| | | |].
    - erewrite (st_get_modrm E base) by eauto. cbn [modrm_of m_mod].
      rewrite (proj2 (Z.eqb_neq _ _) Hm3).
      erewrite (st_get_mmm E base) by eauto. xs E base. cbn [fst snd m_rrr modrm_of]. rewrite Hrg.
      rewrite (regW_ptr base (osz p)) by auto with width. xrun E base.
    - blia.
    - auto with flat.
    - rewrite wr_m_ip; reflexivity.
    - destruct Hrok as [_ Hro]. eapply same_wr_m_reg; eauto with width wf.
      + eapply inrange_osz; eauto.
      + apply same_refl. }

  destruct (Z.eqb_spec op 196) as [->|_].
  { mrform0 Hf Hop Hdec. destruct r as [|sg o]; [discriminate|]. injection Hdec as <-.
    frs Hf; [erewrite x_lxs_ok by (eauto; unfold S_ES, S_DS, S_SS, S_FS, S_GS; lia); reflexivity| | | |].
    - blia.
    - apply lxs_st_flat, F.
    - apply lxs_st_ip.
    - apply lxs_st_same; auto with width. }
  destruct (Z.eqb_spec op 197) as [->|_].
  { mrform0 Hf Hop Hdec. destruct r as [|sg o]; [discriminate|]. injection Hdec as <-.
    frs Hf; [erewrite x_lxs_ok by (eauto; unfold S_ES, S_DS, S_SS, S_FS, S_GS; lia); reflexivity| | | |].
    - blia.
    - apply lxs_st_flat, F.
    - apply lxs_st_ip.
    - apply lxs_st_same; auto with width. }
  destruct (Z.eqb_spec op 215) as [->|_].
  { match type of Hdec with (if ?x <? _ then _ else _) = _ => destruct (Z.ltb_spec x 65536) as [Hlt|]; [|discriminate] end.
    destruct t; [|discriminate]. cbn [ifrest] in Hdec. injection Hdec as <-.
    frs Hf; [unfold x_xlat| | | |].
    - xs E base. xs E base. fold (asz p). rewrite (st_getr 96 (asz p) 3) by (first [apply width_asz|lia|unfold asz; destruct (p_as p); reflexivity]). xrun E base.
    - blia.
    - auto with flat.
    - rewrite wreg_ip; reflexivity.
    - cbn [reg]. match goal with |- same (with_reg _ _ (low 8 (mem 8 _ (lin _ ?x))) _) (with_reg _ _ (mem 8 _ (lin _ ?y)) _) =>
        replace x with y end.
      + apply same_with_reg_low; [|apply same_refl]. eapply mem_lin_range; eauto with width.
        unfold inrange. unfold low in *. pose proof (width_pos _ (width_asz p)). lia.
      + change wrap with low. unfold low, R_AX, asz in *. change (2 ^ 16) with 65536 in *. change (2 ^ 32) with 4294967296 in *.
        destruct (p_as p); change (2 ^ 16) with 65536 in *; change (2 ^ 32) with 4294967296 in *; lia. }
  destruct (Z.eqb_spec op 15) as [->|_]; [|discriminate].
  destruct t as [|op2 t]; [discriminate|].
  pose proof (instr_ctx2 _ _ _ _ _ _ _ _ Hf) as C2.
  destruct (Z.eqb_spec op2 182) as [->|_].
  { mrform0 Hf Hop Hdec. injection Hdec as <-.
    pose proof (code_byte_range E base _ _ _ _ F W C2) as Hmb.
    destruct (code_from_cons _ _ _ _ C2) as [_ C'].
    frs Hf; [unfold x_mov_z| | | |].
    - erewrite (st_get_modrm E base) by eauto. erewrite bind_ok.
      2:{ refine (proj1 (decode_ok E base false _ _ _ _ _ _ _ _ _ _ _ F W Hp Hmb C' Hr Hs _)). discriminate. }
      cbn [m_rrr modrm_of]. rewrite Hrg. xs E base. 
      rewrite (regW_ptr base (osz p)) by auto with width. xrun E base.
    - blia.
    - auto with flat.
    - rewrite wr_m_ip; reflexivity.
    - eapply same_wr_m_reg; eauto with width wf; [|apply same_refl].
      apply (inrange_osz 8); auto. eapply rd_rm_range'; eauto with width. }
  destruct (Z.eqb_spec op2 183) as [->|_].
  { mrform0 Hf Hop Hdec. injection Hdec as <-.
    pose proof (code_byte_range E base _ _ _ _ F W C2) as Hmb.
    destruct (code_from_cons _ _ _ _ C2) as [_ C'].
    frs Hf; [unfold x_mov_zx| | | |].
    - erewrite (st_get_modrm E base) by eauto. erewrite bind_ok.
      2:{ refine (proj1 (decode_ok E base true _ _ _ _ _ _ _ _ _ _ _ F W Hp Hmb C' Hr Hs _)). auto. }
      cbn [m_rrr modrm_of]. rewrite Hrg. xs E base. 
      rewrite (regW_ptr base (osz p)) by auto with width. xrun E base.
    - blia.
    - auto with flat.
    - rewrite wr_m_ip; reflexivity.
    - eapply same_wr_m_reg; eauto with width wf; [|apply same_refl].
      apply (inrange_osz 16); auto. eapply rd_rm_range'; eauto with width. }
  destruct (Z.eqb_spec op2 178) as [->|_].
  { mrform0 Hf Hop Hdec. destruct r as [|sg o]; [discriminate|]. injection Hdec as <-.
    frs Hf; [erewrite x_lxs_ok by (eauto; unfold S_ES, S_DS, S_SS, S_FS, S_GS; lia); reflexivity| | | |].
    - blia.
    - apply lxs_st_flat, F.
    - apply lxs_st_ip.
    - apply lxs_st_same; auto with width. }
  destruct (Z.eqb_spec op2 180) as [->|_].
  { mrform0 Hf Hop Hdec. destruct r as [|sg o]; [discriminate|]. injection Hdec as <-.
    frs Hf; [erewrite x_lxs_ok by (eauto; unfold S_ES, S_DS, S_SS, S_FS, S_GS; lia); reflexivity| | | |].
    - blia.
    - apply lxs_st_flat, F.
    - apply lxs_st_ip.
    - apply lxs_st_same; auto with width. }
  destruct (Z.eqb_spec op2 181) as [->|_]; [|discriminate].
  { mrform0 Hf Hop Hdec. destruct r as [|sg o]; [discriminate|]. injection Hdec as <-.
    frs Hf; [erewrite x_lxs_ok by (eauto; unfold S_ES, S_DS, S_SS, S_FS, S_GS; lia); reflexivity| | | |].
    - blia.
    - apply lxs_st_flat, F.
    - apply lxs_st_ip.
    - apply lxs_st_same; auto with width. }
Qed.

(** LEA with a 16-bit result needs no condition on a 16-bit effective address. *)
Lemma lea_instr s pre p t rg o :
  fetched E base s pre p (141 :: t) -> lea_offset p (ar s) t = Some (rg, o) -> lea_supported p (ar s) t ->
  executes E s (pre ++ 141 :: t) (with_reg (osz p) rg (low (osz p) o) (ar s)).
Proof.
  intros Hf Hr Hs. destruct t as [|mb t]; [discriminate|].
  destruct (instr_ctx _ _ _ _ _ _ _ Hf) as (F & W & Hp & C & Hb).
  pose proof (code_byte_range E base _ _ _ _ F W C) as Hmb.
  destruct (code_from_cons _ _ _ _ C) as [_ C'].
  cbn [lea_offset lea_supported] in *. destruct (Z.eqb_spec (mb / 64) 3) as [|Hm3]; [discriminate|].
  assert (Hg : 0 <= rg < 8 /\ (mb / 8) mod 8 = rg /\ exists sg o', (forall g n l, get_mmm E (modrm_of mb) (mkSt (ar s) (dec_of p (blen pre + 2)) g n l) =
     Ok (sg, o') (mkSt (ar s) (dec_of p (blen pre + 2 + blen t)) g n l)) /\ low (osz p) o' = low (osz p) o).
  { destruct (p_as p) eqn:Ha.
    - destruct (snd (ea32 (mb / 64) (mb mod 8) (ar s) t)) as [[x [|]]|] eqn:He; try discriminate. injection Hr as Hrg <-.
      split; [lia|]. split; [exact Hrg|]. destruct Hs as [S1 S2].
      assert (Hg : forall g n l, _) by (intros g n l; refine (get_mmm32_gen E base (ar s) p (blen pre + 2) g n l mb t x [] F W Hp Ha Hmb Hm3 _ He S1);
        replace (blen pre + 2) with (blen pre + 1 + 1) by lia; exact C').
      cbv zeta in Hg. change (blen []) with 0 in Hg. rewrite Z.sub_0_r in Hg. destruct (Hg 0 0 true) as (_ & H1 & H2).
      eexists _, _. split; [intros g n l; apply (Hg g n l)|].
      unfold osz. destruct (p_os p); [rewrite H2 by auto; unfold low; rewrite Z.mod_mod by lia; reflexivity|rewrite low16_32; exact H1].
    - destruct (disp (mb / 64) (mb mod 8) t) as [[d [|]]|] eqn:Hd; try discriminate. injection Hr as Hrg <-.
      split; [lia|]. split; [exact Hrg|].
      eexists _, _. split; [intros g n l; rewrite (get_mmm_ok E base (ar s) p (blen pre + 2) g n l mb t d [] F W Hp Ha Hmb Hm3);
        [change (blen []) with 0; rewrite Z.sub_0_r; reflexivity|replace (blen pre + 2) with (blen pre + 1 + 1) by lia; exact C'|exact Hd]|].
      unfold ea_raw, osz. pose proof (ea_base_range (mb mod 8) (ar s)).
      assert (Hz : (mb / 64 =? 0) = true -> (mb mod 8 =? 6) = false -> d = 0).
      { intros H0 H6. unfold disp in Hd. replace (mb / 64 =? 1) with false in Hd by lia.
        replace ((mb / 64 =? 2) || (mb mod 8 =? 6)) with false in Hd by lia. injection Hd as <- _. reflexivity. }
      destruct (p_os p); [specialize (Hs eq_refl)|clear Hs]; change wrap with low; unfold low in *;
        change (2 ^ 32) with 4294967296 in *; change (2 ^ 16) with 65536 in *;
        destruct (mb / 64 =? 0) eqn:H0; cbn [andb] in *; try (destruct (mb mod 8 =? 6) eqn:H6; try (rewrite (Hz eq_refl eq_refl) in *)); lia. }
  destruct Hg as (Hg & Hrg & sg & o' & Hgm & Ho).
  frs Hf; [unfold x_lea| | | |].
  - erewrite (st_get_modrm E base) by eauto. cbn [modrm_of m_mod].
    rewrite (proj2 (Z.eqb_neq _ _) Hm3).
    replace (blen pre + 1 + 1) with (blen pre + 2) by lia.
    erewrite bind_ok by (exact (Hgm _ _ _)).
    rewrite st_opw. cbn [d_op dec_of fst snd m_rrr modrm_of]. rewrite Hrg. fold (osz p).
    rewrite (regW_ptr base (osz p)) by auto with width. xrun E base.
  - blia.
  - auto with flat.
  - rewrite wr_m_ip; reflexivity.
  - eapply same_trans; [eapply wr_m_gen with (E := E); auto with width; apply same_refl|].
    cbn [wr_rm]. rewrite Ho. apply same_refl.
Qed.
Lemma lea16 s pre p t rg sg o : fetched E base s pre p (141 :: t) -> p_os p = false -> p_as p = false ->
  parse_rm p (ar s) t = Some (rg, RMem sg o, []) -> executes E s (pre ++ 141 :: t) (with_reg 16 rg o (ar s)).
Proof.
  intros Hf Ho Ha Hr. destruct t as [|b t]; [discriminate|].
  cbn [parse_rm] in Hr. destruct (b / 64 =? 3) eqn:H3; [discriminate|]. rewrite Ha in Hr.
  destruct (disp (b / 64) (b mod 8) t) as [[d [|]]|] eqn:Hd; try discriminate. injection Hr as Hrg _ Hofs.
  assert (Hl : lea_offset p (ar s) (b :: t) = Some (rg, o)) by (cbn [lea_offset]; rewrite H3, Ha, Hd, Hrg, Hofs; reflexivity).
  pose proof (lea_instr s pre p (b :: t) rg o Hf Hl) as X. unfold osz in X. rewrite Ho in X.
  replace (low 16 o) with o in X; [apply X|].
  - cbn [lea_supported]. rewrite Ha, Ho. discriminate.
  - rewrite <- Hofs. unfold low. rewrite Z.mod_mod by lia. reflexivity.
Qed.
End WithEnv.
