(** The reference machine, the list of refusals and the list of exceptions cover all instructions (C87): groups of opcodes. *)
From Verif Require Import Base Cpu Alu Ops Machine Spec SpecOps SpecOps2 SpecSys SpecMul SpecBcd SpecDbl SpecStr SpecStr2 SpecRun SpecTop SpecStop SpecEa SpecUb SpecIsa SpecRefuse SpecOutside PBase PMem PRun PFrame PAlu PExec PIAlu PIStack PStep PIInt PIStr PTop PTop2 PStop PStop2 PEa PEa2 PEa3 PEa4 PIsa PProg PWhole.
Local Open Scope Z_scope.

Section Cover.
Context (E : env) (base : Z) (inp : list ioev -> Z -> Z -> Z) (svc : Z -> Z -> arch -> arch) (s : st) (pre : list Z) (p : pfx).
Notation a := (ar s).
Notation step i R := (isa inp svc p (blen (pre ++ i)) a i R).
Definition covered (bs : list Z) : Prop :=
  (exists i j R, bs = i ++ j /\ step i R) \/ (exists c, refused p a bs c) \/ outside p (blen pre) a bs.
Lemma c_isa i j R : step i R -> covered (i ++ j).
Proof. intros H. left. eauto. Qed.
Lemma c_ref bs c : refused p a bs c -> covered bs.
Proof. intros H. right. left. eauto. Qed.
Lemma c_out bs : outside p (blen pre) a bs -> covered bs.
Proof. intros H. right. right. exact H. Qed.

(** ** By decoder *)
Lemma g_alu i j k w dst src : decode_alu p a i = Some (k, w, dst, src) -> operand_ok p a i -> covered (i ++ j).
Proof.
  intros H Ho. destruct (Z.eq_dec k 3) as [->|Hk]; [|eapply c_isa, I_alu; eauto].
  destruct (sbb_cf_wrong w src (b2z (flag CF (r_flags a)))) eqn:Hs; [|eapply c_isa, I_sbb; eauto].
  unfold sbb_cf_wrong in Hs. apply andb_prop in Hs. destruct Hs as [Hs H3]. apply andb_prop in Hs. destruct Hs as [H1 H2].
  apply Z.eqb_eq in H1, H2, H3. subst w. change (2 ^ 32 - 1) with 0xFFFFFFFF in H3. subst src. apply c_out. eapply out_sbb; [exact H|]. destruct (flag CF (r_flags a)); [reflexivity|discriminate].
Qed.
Lemma g_unary i j o w r : decode_unary p a i = Some (o, w, r) -> operand_ok p a i -> covered (i ++ j).
Proof. intros H Ho. destruct o; try (eapply c_isa, I_unary; [exact H|discriminate|exact Ho]). eapply c_isa, I_neg; eauto. Qed.
Lemma g_shift i j op w r cnt : decode_shift p a i = Some (op, w, r, cnt) -> operand_ok p a i -> covered (i ++ j).
Proof. intros H Ho. destruct (shift_dec op w cnt); [eapply c_isa, I_shift; eauto|eapply c_out, out_shift; eauto]. Qed.
Lemma g_dbl i j left w r src n : decode_dbl p a i = Some (left, w, r, src, n) -> operand_ok p a i -> covered (i ++ j).
Proof. intros H Ho. destruct (dbl_dec w r src n); [eapply c_isa, I_double; eauto|eapply c_out, out_double; eauto]. Qed.
Lemma g_imul2 i j dst x y : decode_imul2 p a i = Some (dst, x, y) -> operand_ok p a i -> p_os p = false -> covered (i ++ j).
Proof.
  intros H Ho Hp. destruct (Z.lt_ge_cases x 32768) as [Hx|Hx]; [|eapply c_out, out_imul2; eauto]. destruct (Z.lt_ge_cases y 32768) as [Hy|Hy]; [|eapply c_out, out_imul2; eauto].
  destruct (Z.lt_ge_cases (x * y) 65536) as [Hxy|Hxy]; [|eapply c_out, out_imul2; eauto]. eapply c_isa, I_imul2; eauto.
Qed.
Lemma g_muldiv i j rg w r : decode_muldiv p a i = Some (rg, w, r) -> rg < 8 -> operand_ok p a i -> covered (i ++ j).
Proof.
  intros H H8 Ho. assert (H4 : 4 <= rg).
  { unfold decode_muldiv in H. destruct i as [|op t]; [discriminate|]. destruct (parse_rm p a t) as [[[g q] [|]]|]; try discriminate. destruct (Z.leb_spec 4 g); [|discriminate].
    destruct (op =? 0xF6); [injection H as <- _ _; auto|]. destruct (op =? 0xF7); [injection H as <- _ _; auto|discriminate]. }
  assert (Hg : rg = 4 \/ rg = 5 \/ rg = 6 \/ rg = 7) by lia. destruct Hg as [->|[->|[->| ->]]].
  - eapply c_isa, I_mul; eauto.
  - eapply c_isa, I_imul; eauto.
  - destruct (div_effect w (rd_rm w r a) a) as [a'|] eqn:D; [eapply c_isa, I_div; eauto|eapply c_isa, I_div_fault; eauto].
  - assert (MD : most_negative_by_minus_one w (rd_rm w r a) a \/ ~ most_negative_by_minus_one w (rd_rm w r a) a) by (unfold most_negative_by_minus_one; lia).
    destruct (Z.eq_dec w 8) as [->|W8].
    { destruct (idiv_effect 8 (rd_rm 8 r a) a) as [a'|] eqn:D; [eapply c_isa, I_idiv; eauto; discriminate|eapply c_isa, I_idiv_fault; eauto; tauto]. }
    destruct MD as [MD|MD]; [eapply c_out, out_idiv; eauto|]. destruct (idiv_effect w (rd_rm w r a) a) as [a'|] eqn:D; [|eapply c_isa, I_idiv_fault; eauto].
    destruct (Z.eq_dec w 32) as [->|W32]; [eapply c_out, out_idiv; [exact H|left; split; [reflexivity|rewrite D; discriminate]]|eapply c_isa, I_idiv; eauto].
Qed.
Lemma g_bcd i j a' : step_bcd a i = Some a' -> covered (i ++ j).
Proof. intros H. eapply c_isa, I_bcd; eauto. Qed.
Lemma g_mov i j a' : step_mov p a i = Some a' -> operand_ok p a i -> covered (i ++ j).
Proof. intros H Ho. eapply c_isa, I_mov; eauto. Qed.
Lemma g_misc i j a' : step_misc p a i = Some a' -> operand_ok p a i -> covered (i ++ j).
Proof. intros H Ho. eapply c_isa, I_misc; eauto. Qed.
Lemma g_io i j a' : step_io inp p a i = Some a' -> covered (i ++ j).
Proof. intros H. eapply c_isa, I_io; eauto. Qed.
Lemma g_jump i j a' : step_jump p (blen (pre ++ i)) a i = Some a' -> operand_ok p a i -> covered (i ++ j).
Proof. intros H Ho. eapply c_isa, I_jump; eauto. Qed.
Lemma g_stack i j k : decode_stack p a i = Some k -> operand_ok p a i -> (k = K_PopF -> cpu a = 0 \/ cpu a = 1 \/ cpu a = 2) -> (forall z, k <> K_Enter z 1) -> covered (i ++ j).
Proof. intros H Ho H1 H2. eapply c_isa, I_stack; eauto. Qed.
Lemma g_str o w op j : wf_regs a -> decode_str (mkPfx (p_seg p) (p_os p) false (p_rep p)) [op] = Some (o, w) -> covered ([op] ++ j).
Proof.
  intros W H. assert (R16 : 0 <= reg 16 CX a) by (pose proof (reg_range 16 1 a ltac:(auto with width) ltac:(lia)) as Q; unfold inrange in Q; change CX with 1; lia).
  assert (R32 : 0 <= reg 32 CX a) by (pose proof (reg_range 32 1 a ltac:(auto with width) ltac:(lia)) as Q; unfold inrange in Q; change CX with 1; lia).
  destruct (p_as p) eqn:Ha.
  - assert (D : decode_str67 p [op] = Some (o, w)) by (unfold decode_str67; rewrite Ha; exact H).
    destruct (Z.eq_dec (p_rep p) 0) as [P0|P0].
    + destruct (within_dec o w a 1) as [Wi|Wi]; [eapply c_isa, I_str67; eauto|]. apply c_out. apply (out_str p _ a o w op j D). left. rewrite P0. exact Wi.
    + destruct (Z.lt_ge_cases (reg 32 CX a) 65536) as [C|C]; [|apply c_out; apply (out_str p _ a o w op j D); right; split; auto].
      destruct (within_dec o w a (Z.to_nat (reg 32 CX a))) as [Wi|Wi]; [|apply c_out; apply (out_str p _ a o w op j D); left; replace (p_rep p =? 0) with false by lia; exact Wi].
      destruct (compares o) eqn:Co; [|eapply c_isa, I_rep67; eauto]. destruct (scan67_exists p o w a R32) as [n Hn]. eapply c_isa, I_scan67; eauto.
  - assert (D : decode_str p [op] = Some (o, w)) by (rewrite <- H; unfold decode_str; rewrite Ha; reflexivity).
    destruct (Z.eq_dec (p_rep p) 0) as [P0|P0]; [eapply c_isa, I_str; eauto|]. destruct (compares o) eqn:Co; [|eapply c_isa, I_rep; eauto].
    destruct (scan_exists p o w a R16) as [n Hn]. eapply c_isa, I_scan; eauto.
Qed.
Lemma g_int i j n : int_number i = Some n -> (i = [0xCE] -> flag OF (r_flags a) = true) -> software_int a (i ++ j) n -> covered (i ++ j).
Proof.
  intros H Hf Hs. destruct (vector n a) as [sg o] eqn:Hv. destruct (Z.eq_dec o 0) as [O0|O0]; [destruct (Z.eq_dec sg 0) as [S0|S0]|].
  - subst. unfold vector in Hv. injection Hv as V1 V2. eapply c_ref, rf_vector; eauto.
  - destruct (Z.eq_dec sg 0xB800) as [S8|S8]; [destruct (Z.eq_dec o n) as [On|On]|].
    + eapply c_isa, I_service; eauto. unfold hle_vector. rewrite Hv, S8, On. reflexivity.
    + eapply c_isa, I_int; eauto; intros [= A B]; congruence.
    + eapply c_isa, I_int; eauto; intros [= A B]; congruence.
  - destruct (Z.eq_dec sg 0xB800) as [S8|S8]; [destruct (Z.eq_dec o n) as [On|On]|].
    + eapply c_isa, I_service; eauto. unfold hle_vector. rewrite Hv, S8, On. reflexivity.
    + eapply c_isa, I_int; eauto; intros [= A B]; congruence.
    + eapply c_isa, I_int; eauto; intros [= A B]; congruence.
Qed.

(** ** Instructions with a ModR/M byte *)
Lemma m_split h t wide : h <> [] -> fetched E base s pre p (h ++ t) -> (6 <= length t)%nat -> (forall y, has_modrm (h ++ y) = Some (wide, y)) -> hd 0 h <> 0x8D ->
  (far_indirect (h ++ t) = true -> h = [0xFF]) ->
  (invalid_form (h ++ t) = false -> unsupported_form p (h ++ t) = false -> imul_wide p (h ++ t) = false -> sreg_exists (h ++ t) ->
   forall u v rg r, splits p a t u v rg r -> (forall x, operand_ok p a (h ++ u ++ x)) -> operand_read p a wide t -> covered (h ++ t)) -> covered (h ++ t).
Proof.
  intros Hh Hf Hl Hm Hx Hfar K. pose proof Hf as [Rd _]. destruct Rd as [F W PC Hc].
  destruct (invalid_form (h ++ t)) eqn:Hi; [eapply c_ref, rf_invalid; exact Hi|].
  destruct (unsupported_form p (h ++ t)) eqn:Hu; [eapply c_ref, rf_unsupported; exact Hu|].
  destruct (imul_wide p (h ++ t)) eqn:Hw; [eapply c_ref, rf_imul; exact Hw|].
  assert (HX : hd 0 (h ++ t) <> 0x8D) by (destruct h; [congruence|exact Hx]).
  assert (SD : sreg_exists (h ++ t) \/ exists t', h ++ t = 0x8E :: t' /\ 6 <= reg_field t').
  { unfold sreg_exists. destruct (h ++ t) as [|op t'] eqn:Q; [auto|]. destruct (Z.eq_dec op 142) as [->|]; [|left; tauto]. destruct (Z.lt_ge_cases (reg_field t') 6); [left; auto|right; eauto]. }
  destruct SD as [SD|(t' & Q & SD)]; [|rewrite Q; apply c_out, out_sreg; [cbn; tauto|auto]].
  destruct (split_rm p a t Hl) as [(u & v & rg & r & S)|(b & u & x & r & -> & B1 & B2 & B3 & B4)]; [|eapply c_out, out_beyond; eauto].
  destruct (ea_dec p a t) as [Ea|Ea]; [|eapply c_out, out_address; eauto].
  pose proof S as (S1 & S2 & S3 & S4 & S5 & S6 & S7 & S8 & S9 & S10).
  assert (Hp : parse_rm p a t = Some (rg, r, v)) by (rewrite S1; apply S7).
  assert (Ct : exists off, code_from a off t).
  { destruct Hf as (_ & _ & C). apply code_from_0, code_from_app, code_from_app in C. eauto. }
  destruct Ct as [off Ct].
  assert (Bd : (wide = true -> not_block_end 16 r) \/ (wide = true /\ exists sg o, r = RMem sg o /\ lin sg o mod 4096 = 4095)).
  { destruct wide; [|left; discriminate]. destruct r as [n|sg o]; [left; intros _; exact I|]. destruct (Z.eq_dec (lin sg o mod 4096) 4095); [right; eauto|left; intros _ _; assumption]. }
  destruct Bd as [Bd|(-> & sg & o & -> & Bd)].
  - apply (K eq_refl eq_refl eq_refl SD u v rg r S).
    + intros x. unfold operand_ok. rewrite Hm, S7. split; [apply S8, Ea|exact Bd].
    + destruct (Z.eq_dec (mod_field t) 3) as [M3|M3]; [left; exact M3|right]. destruct (S10 M3) as (sg & o & ->).
      exists rg, (lin sg o), v. split; [exact (real_agrees E base s pre p (h ++ t) t rg sg o v off Hf Ct Hp Ea)|].
      destruct (parse_rm_ok _ _ _ _ _ _ W Hp) as [[Hsg Hoo] _]. pose proof (lin_bound sg o Hsg Hoo) as L. split; [unfold map_size; lia|].
      intros Hwd. apply (Bd Hwd). discriminate.
  - destruct (far_indirect (h ++ t)) eqn:Hfi.
    + rewrite (Hfar eq_refl) in *. apply c_out. cbn [app] in *. eapply out_far; eauto. unfold far_indirect in Hfi. change (0xFF =? 255) with true in Hfi. cbn [andb] in Hfi.
      unfold mem_z in Hfi. apply existsb_exists in Hfi. destruct Hfi as (z & Hz & Hz2). apply Z.eqb_eq in Hz2. rewrite Hz2. exact Hz.
    + eapply c_ref, rf_boundary; eauto. exact (real_agrees E base s pre p (h ++ t) t rg sg o v off Hf Ct Hp Ea).
Qed.
End Cover.
