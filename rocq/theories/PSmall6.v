(** Lemmas behind C30-C38: comparisons and stack round trips. *)
From Verif Require Import Base Cpu Alu Ops Machine Spec SpecOps SpecOps2 SpecSys SpecRun SpecTop PBase PMem PRun PFrame PAlu PExec PStep PFlags PSmall PSmall2 PSmall3 PSmall4 PIAlu PIAlu2 PAlg PIMov PIStack PIJump PIInt PIStr.

(** ** Conditions *)
Lemma condition_jcc n f : 0 <= n < 16 -> jcc n f = condition n f.
Proof.
  intros Hn. revert f. pattern n.
  apply sixteen; auto; intros f; unfold jcc, condition;
  match goal with |- context [?a / 2] => let v := eval vm_compute in (a / 2) in change (a / 2) with v end;
  match goal with |- context [Z.odd ?a] => let v := eval vm_compute in (Z.odd a) in change (Z.odd a) with v end; cbv iota;
  rewrite ?xorb_false_l, ?xorb_true_l; reflexivity.
Qed.
Lemma cmp_condition n w x y f' f : 0 <= n < 16 -> width w -> inrange w x -> inrange w y ->
  arith_flags w ((x - y) mod 2 ^ w) (x <? y) (x mod 16 <? y mod 16) (signed_overflow w (signed w x - signed w y)) f f' ->
  condition n f' = compares_as n w x y.
Proof.
  intros Hn Hw Hx Hy (C & _ & O & (Z1 & S1 & P1) & _).
  set (v := (x - y) mod 2 ^ w) in *.
  assert (Hz : (v =? 0) = (x =? y)). { unfold v, inrange in *. widths Hw; lia. }
  assert (Hv : inrange w v) by (apply low_range; auto).
  assert (Hl : xorb (Z.testbit v (w - 1)) (signed_overflow w (signed w x - signed w y)) = (signed w x <? signed w y)).
  { rewrite <- sign_top by (try exact Hv; pose proof (width_pos w Hw); lia). unfold v, inrange, signed_overflow, signed in *. clear - Hw Hx Hy.
    widths Hw; destruct (x <? _) eqn:?, (y <? _) eqn:?;
    match goal with |- xorb ?a ?b = ?c => destruct a eqn:?, b eqn:?, c eqn:?; cbn; try reflexivity; exfalso; lia end. }
  assert (He : (x =? y) = (signed w x =? signed w y)).
  { unfold signed, inrange in *. clear - Hw Hx Hy. widths Hw; destruct (x <? _) eqn:?, (y <? _) eqn:?; lia. }
  revert Hl He. pattern n. apply sixteen; auto; intros Hl He; cbn [condition compares_as]; rewrite ?C, ?O, ?Z1, ?S1, ?P1, ?Hz; try reflexivity; rewrite ?Hl; try lia. all: rewrite ?He; try lia.
Qed.

(** ** Stack words *)
Section WithEnv.
Context (E : env) (base : Z).
Lemma push_sp v a : reg 16 4 (push16 v a) = low 16 (reg 16 4 a - 2).
Proof. unfold push16. cbv zeta. rewrite wmem_reg. apply reg_same; auto with width; try lia. apply low_range; auto with width. Qed.
Lemma push_reg v a n : 0 <= n < 8 -> n <> 4 -> reg 16 n (push16 v a) = reg 16 n a.
Proof. intros. unfold push16. cbv zeta. rewrite wmem_reg. apply reg16_other; auto; try lia. apply low_range; auto with width. Qed.
Lemma push_ss v a : r_ss (push16 v a) = r_ss a.
Proof. unfold push16. cbv zeta. rewrite wmem_ss, with_reg_setf by (auto with width; try lia; apply low_range; auto with width). reflexivity. Qed.
Lemma push_flat v a : flat E base a -> wf_regs a -> flat E base (push16 v a).
Proof.
  intros F W. unfold push16. cbv zeta. apply wmem_flat; auto with flat width.
  apply inmem_lin; auto with width; [apply W|apply low_range; auto with width].
Qed.
Lemma push_wf v a : wf_regs a -> wf_regs (push16 v a).
Proof. intros W. unfold push16. cbv zeta. apply wmem_wf. apply wf_with_reg; auto with width; try lia. apply low_range; auto with width. Qed.
Lemma word_push0 v a : flat E base a -> wf_regs a -> inrange 16 v -> stack_word 0 (push16 v a) = v.
Proof.
  intros F W Hv. unfold stack_word. rewrite push_ss, push_sp. rewrite Z.mul_0_r, Z.add_0_r.
  assert (L : low 16 (low 16 (reg 16 4 a - 2)) = low 16 (reg 16 4 a - 2)) by (unfold low; apply Zmod_mod).
  rewrite L. unfold push16. cbv zeta. eapply mem_same; eauto with flat width. apply inmem_lin; auto with width; [apply W|apply low_range; auto with width].
Qed.
Lemma word_pushS k v a : flat E base a -> wf_regs a -> 0 <= k < 32766 -> stack_word (k + 1) (push16 v a) = stack_word k a.
Proof.
  intros F W Hk. unfold stack_word. rewrite push_ss, push_sp.
  assert (L : low 16 (low 16 (reg 16 4 a - 2) + 2 * (k + 1)) = low 16 (reg 16 4 a + 2 * k)).
  { unfold low. rewrite Zplus_mod_idemp_l. f_equal. lia. }
  rewrite L. unfold push16. cbv zeta.
  assert (Hsp : inrange 16 (reg 16 4 a)) by (apply reg_range; [auto with width|lia]).
  assert (H1 : inrange 16 (low 16 (reg 16 4 a - 2))) by (apply low_range; auto with width).
  assert (H2 : inrange 16 (low 16 (reg 16 4 a + 2 * k))) by (apply low_range; auto with width).
  rewrite (mem_other E base) with (w' := 16).
  - apply mem_wreg.
  - auto with flat.
  - auto with width.
  - auto with width.
  - apply inmem_lin; auto with width; apply W.
  - apply inmem_lin; auto with width; apply W.
  - change (16 / 8) with 2. unfold lin. unfold inrange, low in *. change (2 ^ 16) with 65536 in *. lia.
Qed.
Lemma word_drop k a : stack_word k (drop 2 a) = stack_word (k + 1) a.
Proof.
  unfold stack_word, drop. rewrite reg_same by (auto with width; try lia; apply low_range; auto with width).
  rewrite mem_wreg. rewrite with_reg_setf by (auto with width; try lia; apply low_range; auto with width). cbn [a_gprs r_ss]. do 2 f_equal. unfold low. rewrite Zplus_mod_idemp_l. f_equal. lia.
Qed.
Lemma top16_word a : inrange 16 (reg 16 4 a) -> top16 a = stack_word 0 a.
Proof. intros H. unfold top16, stack_word. rewrite Z.mul_0_r, Z.add_0_r. f_equal. f_equal. symmetry. apply Z.mod_small, H. Qed.
Lemma word_same k a b : same a b -> stack_word k a = stack_word k b.
Proof. intros S. unfold stack_word. rewrite (sm_ss _ _ S), (same_reg _ _ _ _ S), (same_mem _ _ _ _ S). reflexivity. Qed.
Lemma sp_range a : inrange 16 (reg 16 4 a). Proof. apply reg_range; [auto with width|lia]. Qed.
Lemma drop_sp n a : reg 16 4 (drop n a) = low 16 (reg 16 4 a + n).
Proof. unfold drop. apply reg_same; auto with width; try lia. apply low_range; auto with width. Qed.
Lemma drop_drop m n a : drop n (drop m a) = drop (m + n) a.
Proof.
  unfold drop at 1. rewrite drop_sp. unfold drop. rewrite wreg_twice by (auto with width; try lia; apply low_range; auto with width).
  f_equal. unfold low. rewrite Zplus_mod_idemp_l. f_equal. lia.
Qed.
Lemma low_sub_add x n : inrange 16 x -> low 16 (low 16 (x - n) + n) = x.
Proof. intros H. unfold low. rewrite Zplus_mod_idemp_l. rewrite Z.mod_small; [lia|]. unfold inrange in H. lia. Qed.
(** With SS:SP as left by pushing v: dropping the word gives SP back. *)
Lemma drop_back n sp a : reg 16 4 a = low 16 (sp - n) -> inrange 16 sp -> drop n a = with_reg 16 4 sp a.
Proof. intros H Hs. unfold drop. rewrite H, low_sub_add by exact Hs. reflexivity. Qed.
End WithEnv.

Lemma jump_to E base s pre p bs a' a2 : fetched E base s pre p bs -> step_jump p (blen (pre ++ bs)) (ar s) bs = Some a' -> operand_ok p (ar s) bs ->
  same a' a2 -> executes_to E s (pre ++ bs) a2.
Proof. intros. eapply executes_to_same; [eapply jump_instr; eauto|assumption]. Qed.
