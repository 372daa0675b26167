(** End-to-end: the two-operand ALU group. *)
From Verif Require Import Base Cpu Alu Ops Machine Spec PBase PMem PRun PFrame PAlu PExec.

Lemma blen_nil t : blen t - blen [] = blen t.
Proof. unfold blen. cbn. lia. Qed.
Lemma code_rest p a t rg r rest off : parse_rm p a t = Some (rg, r, rest) -> code_from a off t ->
  code_from a (off + (blen t - blen rest)) rest.
Proof.
  intros Hr C. destruct (parse_rm_split p a t rg r rest Hr) as (u & Hu & _).
  rewrite Hu in C |- *. rewrite blen_app. replace (blen u + blen rest - blen rest) with (blen u) by lia.
  apply code_from_app, C.
Qed.

Section WithEnv.
Context (E : env) (base : Z).

Definition alu_m (k w : Z) (dst : rm) (src : Z) (a : arch) : arch :=
  let '(v, f) := alu_result k w (rd_rm w dst a) src (r_flags a) in
  if (k =? 7) || (k =? 8) then a_flags f a else wr_m base w dst v (a_flags f a).

Lemma alu_m_same k w dst src a : flat E base a -> width w -> rm_ok dst -> inrange w src ->
  same (alu_m k w dst src a) (alu_effect k w dst src a).
Proof.
  intros F Hw Hd Hs. unfold alu_m, alu_effect.
  pose proof (alu_result_range k w (rd_rm w dst a) src (r_flags a) Hw (rd_rm_range E base a w dst F Hw Hd) Hs) as Hr.
  destruct (alu_result k w (rd_rm w dst a) src (r_flags a)) as [v f]. cbn [fst] in Hr.
  destruct ((k =? 7) || (k =? 8)); [apply same_refl|].
  apply wr_m_same with (E := E); auto with flat.
Qed.
Lemma alu_m_flat k w dst src a : flat E base a -> flat E base (alu_m k w dst src a).
Proof.
  intros F. unfold alu_m. destruct (alu_result _ _ _ _ _). destruct (_ || _); auto with flat.
Qed.
Lemma alu_m_ip k w dst src a : r_ip (alu_m k w dst src a) = r_ip a.
Proof.
  unfold alu_m. destruct (alu_result _ _ _ _ _). destruct (_ || _); [reflexivity|].
  destruct (wr_m_fields base (a_flags z0 a) w dst z) as (-> & _). reflexivity.
Qed.

Lemma alu_writes_k k : 0 <= k <= 8 -> alu_writes (op_of k) = negb ((k =? 7) || (k =? 8)).
Proof.
  intros H. assert (k = 0 \/ k = 1 \/ k = 2 \/ k = 3 \/ k = 4 \/ k = 5 \/ k = 6 \/ k = 7 \/ k = 8) as Hc by lia.
  destruct Hc as [-> | [-> | [-> | [-> | [-> | [-> | [-> | [-> | ->]]]]]]]]; reflexivity.
Qed.

(** [fl] is the FLAGS value in force, which may lack OF ZF SF PF of the original. *)
Lemma alu_vals_ok k w dst src a d g n l : flat E base a -> width w -> rm_ok dst -> inrange w src ->
  0 <= k <= 8 ->
  alu_vals (op_of k) w (ptr_of base w dst) (rd_rm w dst a) src (mkSt a d g n l) =
  Ok tt (mkSt (alu_m k w dst src a) d g n l).
Proof.
  intros F Hw Hd Hs Hk. unfold alu_vals. msteps.
  rewrite alu_op_ok; auto.
  2:{ eapply rd_rm_range; eauto. }
  unfold alu_m. rewrite alu_writes_k by auto.
  destruct (alu_result k w (rd_rm w dst a) src (r_flags a)) as [v f]. msteps.
  destruct ((k =? 7) || (k =? 8)); cbn [negb]; [reflexivity|].
  apply store_rm with (E := E); auto with flat.
Qed.
Lemma alu_vals_clr k w dst src a d g n l : flat E base a -> width w -> rm_ok dst -> inrange w src ->
  0 <= k <= 8 ->
  alu_vals (op_of k) w (ptr_of base w dst) (rd_rm w dst a) src
    (mkSt (a_flags (fclear (M_OF + M_ZF + M_SF + M_PF) (r_flags a)) a) d g n l) =
  Ok tt (mkSt (alu_m k w dst src a) d g n l).
Proof.
  intros F Hw Hd Hs Hk. unfold alu_vals. msteps. cbn [r_flags a_flags].
  assert (Hr : inrange w (rd_rm w dst a)) by (eapply rd_rm_range; eauto).
  rewrite alu_preclear by auto.
  rewrite alu_op_ok; auto.
  unfold alu_m. rewrite alu_writes_k by auto.
  destruct (alu_result k w (rd_rm w dst a) src (r_flags a)) as [v f]. msteps.
  change (a_flags f (a_flags ?x a)) with (a_flags f a).
  destruct ((k =? 7) || (k =? 8)); cbn [negb]; [reflexivity|].
  apply store_rm with (E := E); auto with flat.
Qed.

Section Handlers.
Context (a : arch) (p : pfx) (off g n : Z) (l : bool) (t : list Z) (k : Z).
Context (F : flat E base a) (W : wf_regs a) (Hp : pfx_ok p) (C : code_from a off t) (Hk : 0 <= k <= 8).

(** Operand width selected by a boolean: byte or word/dword. *)
Definition ww (wide : bool) : Z := if wide then osz p else 8.
Lemma ww_width wide : width (ww wide).
Proof. destruct wide; cbn; auto with width. Qed.

Lemma x_rm_reg (wide : bool) rg r : parse_rm p a t = Some (rg, r, []) -> ea_supported p a t ->
  (wide = true -> not_block_end 16 r) ->
  x_alu E (op_of k) (if wide then F_MRX else F_MR) (mkSt a (dec_of p off) g n l) =
  Ok tt (mkSt (alu_m k (ww wide) r (reg (ww wide) rg a) a) (dec_of p (off + blen t)) g n l).
Proof.
  intros Hr Hs Hn. destruct (parse_rm_ok p a t rg r [] W Hr) as [Hrok Hrg].
  assert (Hgok : rm_ok (RReg rg)) by exact Hrg.
  destruct wide; cbn [x_alu ww] in *.
  - rewrite (st_parsex E base (osz p) _ a p off g n l t rg r []) by auto with width. rewrite blen_nil.
    rewrite st_opw. cbn [d_op dec_of fst snd]. fold (osz p). unfold alu2.
    rewrite st_load with (E := E) by auto with width.
    rewrite st_load with (E := E) by auto with width. cbn [rd_rm].
    apply alu_vals_ok; auto with width. apply reg_range; auto with width.
  - rewrite (st_parse8 E base _ a p off g n l t rg r []) by auto. rewrite blen_nil.
    cbn [fst snd]. unfold alu2.
    rewrite st_load with (E := E) by auto with width.
    rewrite st_load with (E := E) by auto with width. cbn [rd_rm].
    apply alu_vals_ok; auto with width. apply reg_range; auto with width.
Qed.
Lemma x_reg_rm (wide : bool) rg r : parse_rm p a t = Some (rg, r, []) -> ea_supported p a t ->
  (wide = true -> not_block_end 16 r) ->
  x_alu E (op_of k) (if wide then F_RMX else F_RM) (mkSt a (dec_of p off) g n l) =
  Ok tt (mkSt (alu_m k (ww wide) (RReg rg) (rd_rm (ww wide) r a) a) (dec_of p (off + blen t)) g n l).
Proof.
  intros Hr Hs Hn. destruct (parse_rm_ok p a t rg r [] W Hr) as [Hrok Hrg].
  assert (Hgok : rm_ok (RReg rg)) by exact Hrg.
  destruct wide; cbn [x_alu ww] in *.
  - rewrite (st_parsex E base (osz p) _ a p off g n l t rg r []) by auto with width. rewrite blen_nil.
    rewrite st_opw. cbn [d_op dec_of fst snd]. fold (osz p). unfold alu2.
    rewrite st_load with (E := E) by auto with width.
    rewrite st_load with (E := E) by auto with width.
    apply alu_vals_ok; auto with width. eapply rd_rm_range; eauto with width.
  - rewrite (st_parse8 E base _ a p off g n l t rg r []) by auto. rewrite blen_nil.
    cbn [fst snd]. unfold alu2.
    rewrite st_load with (E := E) by auto with width.
    rewrite st_load with (E := E) by auto with width.
    apply alu_vals_ok; auto with width. eapply rd_rm_range; eauto with width.
Qed.
Lemma x_acc_imm (wide : bool) i : imm (ww wide) t = Some i ->
  x_alu E (op_of k) (if wide then F_AIX else F_AI) (mkSt a (dec_of p off) g n l) =
  Ok tt (mkSt (alu_m k (ww wide) (RReg AX) i a) (dec_of p (off + blen t)) g n l).
Proof.
  intros Hi. assert (Hgok : rm_ok (RReg AX)) by (cbn; lia).
  pose proof (imm_range E base (ww wide) a off t i F W (ww_width wide) C Hi) as Hir.
  destruct wide; cbn [x_alu ww] in *.
  - rewrite st_opw. cbn [d_op dec_of]. fold (osz p).
    rewrite (st_fetch E base (osz p) _ a p off g n l t i) by auto with width. unfold alu2i.
    replace (regW 0) with (ptr_of base (osz p) (RReg AX)) by (cbn; unfold osz; destruct (p_os p); reflexivity).
    rewrite st_load with (E := E) by auto with width.
    apply alu_vals_ok; auto with width.
  - change (fetch8 E) with (fetch E 8).
    rewrite (st_fetch E base 8 _ a p off g n l t i) by auto with width. unfold alu2i.
    change (regB 0) with (ptr_of base 8 (RReg AX)).
    rewrite st_load with (E := E) by auto with width.
    apply alu_vals_ok; auto with width.
Qed.

(** Group 80/81/83: r/m, immediate. *)
Lemma op_of_8 : k <= 7 -> op_of k = aluop_of k.
Proof. intros. unfold op_of. replace (k =? 8) with false by lia. reflexivity. Qed.
Lemma x_rm_imm8 rg r rest i : k <= 7 -> parse_rm p a t = Some (rg, r, rest) -> ea_supported p a t ->
  imm 8 rest = Some i ->
  x_arith_mi E k (mkSt a (dec_of p off) g n l) =
  Ok tt (mkSt (alu_m k 8 r i a) (dec_of p (off + blen t)) g n l).
Proof.
  intros Hk7 Hr Hs Hi. destruct (parse_rm_ok p a t rg r rest W Hr) as [Hrok Hrg].
  pose proof (code_rest p a t rg r rest off Hr C) as Cr.
  unfold x_arith_mi. rewrite (st_parse8 E base _ a p off g n l t rg r rest) by auto.
  change (fetch8 E) with (fetch E 8).
  rewrite (st_fetch E base 8 _ a p _ g n l rest i) by auto with width. cbn [snd].
  unfold alu2i. rewrite st_load with (E := E) by auto with width.
  rewrite <- op_of_8 by auto. rewrite <- Z.add_assoc. replace (blen t - blen rest + blen rest) with (blen t) by lia.
  apply alu_vals_ok; auto with width. apply (imm_range E base _ a (off + (blen t - blen rest)) rest); auto with width.
Qed.
Lemma x_rm_immx rg r rest i : k <= 7 -> parse_rm p a t = Some (rg, r, rest) -> ea_supported p a t ->
  not_block_end 16 r ->
  imm (osz p) rest = Some i ->
  x_arith_mix E k (mkSt a (dec_of p off) g n l) =
  Ok tt (mkSt (alu_m k (osz p) r i a) (dec_of p (off + blen t)) g n l).
Proof.
  intros Hk7 Hr Hs Hn Hi. destruct (parse_rm_ok p a t rg r rest W Hr) as [Hrok Hrg].
  pose proof (code_rest p a t rg r rest off Hr C) as Cr.
  unfold x_arith_mix. rewrite (st_parsex E base (osz p) _ a p off g n l t rg r rest) by auto with width.
  rewrite st_getflags, st_set_flags, st_opw. cbn [d_op dec_of]. fold (osz p).
  set (a1 := a_flags _ a).
  assert (F1 : flat E base a1) by (apply flat_flags, F).
  assert (W1 : code_from a1 (off + (blen t - blen rest)) rest) by exact Cr.
  assert (Hf : bind (fetch E (osz p)) (fun i => alu2i (aluop_of k) (osz p) (snd (ptr_of base (osz p) (RReg rg), ptr_of base (osz p) r)) i)
     (mkSt a1 (dec_of p (off + (blen t - blen rest))) g n l) =
     alu2i (aluop_of k) (osz p) (ptr_of base (osz p) r) i (mkSt a1 (dec_of p (off + (blen t - blen rest) + blen rest)) g n l)).
  { assert (W2 : wf_regs a1).
    { apply wf_flags_upd; auto. apply fclear_range, W. }
    rewrite (st_fetch E base (osz p) _ a1 p _ g n l rest i) by auto with width. reflexivity. }
  rewrite Hf. unfold alu2i. rewrite st_load with (E := E) by auto with width.
  unfold a1. rewrite rd_rm_flags. fold a1.
  rewrite <- op_of_8 by auto. rewrite <- Z.add_assoc. replace (blen t - blen rest + blen rest) with (blen t) by lia.
  apply alu_vals_clr; auto with width. apply (imm_range E base _ a (off + (blen t - blen rest)) rest); auto with width.
Qed.

Lemma x_rm_immx8 rg r rest i : k <= 7 -> parse_rm p a t = Some (rg, r, rest) -> ea_supported p a t ->
  not_block_end 16 r ->
  imm 8 rest = Some i ->
  x_arith_mi8x E k (mkSt a (dec_of p off) g n l) =
  Ok tt (mkSt (alu_m k (osz p) r (low (osz p) (signed 8 i)) a) (dec_of p (off + blen t)) g n l).
Proof.
  intros Hk7 Hr Hs Hn Hi. destruct (parse_rm_ok p a t rg r rest W Hr) as [Hrok Hrg].
  pose proof (code_rest p a t rg r rest off Hr C) as Cr.
  destruct rest as [|b [|? [|? [|? [|? ?]]]]]; try discriminate Hi. injection Hi as <-.
  unfold x_arith_mi8x. rewrite (st_parsex E base (osz p) _ a p off g n l t rg r [b]) by auto with width.
  rewrite st_getflags, st_set_flags, st_opw. cbn [d_op dec_of]. fold (osz p).
  set (a1 := a_flags _ a).
  assert (F1 : flat E base a1) by (apply flat_flags, F).
  assert (W2 : wf_regs a1) by (apply wf_flags_upd; auto; apply fclear_range, W).
  rewrite (st_fetch8s E base _ a1 p _ g n l b []) by auto. cbn [snd].
  unfold alu2i. rewrite st_load with (E := E) by auto with width.
  unfold a1. rewrite rd_rm_flags. fold a1.
  rewrite <- op_of_8 by auto. rewrite <- Z.add_assoc.
  replace (blen t - blen [b] + 1) with (blen t) by (unfold blen; cbn; lia).
  apply alu_vals_clr; auto with width. apply low_range; auto with width.
Qed.
(** F6/F7 with reg field 0: TEST r/m, immediate.  The operands are swapped in the code. *)
Lemma x_rm_test (wide : bool) rg r rest i : k = 8 -> parse_rm p a t = Some (rg, r, rest) -> ea_supported p a t ->
  (wide = true -> not_block_end 16 r) -> imm (ww wide) rest = Some i ->
  (if wide then x_misc_mix E 0 else x_misc_mi E 0) (mkSt a (dec_of p off) g n l) =
  Ok tt (mkSt (alu_m k (ww wide) r i a) (dec_of p (off + blen t)) g n l).
Proof.
  intros Hk8 Hr Hs Hn Hi. destruct (parse_rm_ok p a t rg r rest W Hr) as [Hrok Hrg].
  pose proof (code_rest p a t rg r rest off Hr C) as Cr.
  pose proof (imm_range E base (ww wide) a _ rest i F W (ww_width wide) Cr Hi) as Hir.
  assert (Hfin : forall d g n l, alu_vals TEST (ww wide) (ptr_of base (ww wide) r) i (rd_rm (ww wide) r a) (mkSt a d g n l)
     = Ok tt (mkSt (alu_m k (ww wide) r i a) d g n l)).
  { intros. unfold alu_vals. msteps.
    pose proof (rd_rm_range E base a (ww wide) r F (ww_width wide) Hrok).
    rewrite alu_test_ok by (auto using ww_width).
    unfold alu_m. rewrite Hk8. cbn [alu_result Z.eqb Pos.eqb orb spec_logic]. unfold spec_logic. msteps.
    cbn [alu_writes]. rewrite Z.land_comm. reflexivity. }
  destruct wide; cbn [ww] in *.
  - unfold x_misc_mix. rewrite (st_parsex E base (osz p) _ a p off g n l t rg r rest) by auto with width.
    rewrite st_opw. cbn [d_op dec_of]. fold (osz p). cbn [misc_select snd].
    rewrite (st_fetch E base (osz p) _ a p _ g n l rest i) by auto with width.
    rewrite st_load with (E := E) by auto with width.
    rewrite <- Z.add_assoc. replace (blen t - blen rest + blen rest) with (blen t) by lia. apply Hfin.
  - unfold x_misc_mi. rewrite (st_parse8 E base _ a p off g n l t rg r rest) by auto with width.
    cbn [misc_select snd].
    rewrite (st_fetch E base 8 _ a p _ g n l rest i) by auto with width.
    rewrite st_load with (E := E) by auto with width.
    rewrite <- Z.add_assoc. replace (blen t - blen rest + blen rest) with (blen t) by lia. apply Hfin.
Qed.
End Handlers.
End WithEnv.
