(** End-to-end theorem: stack instructions. *)
From Verif Require Import Base Cpu Alu Ops Machine Spec SpecOps SpecOps2 PBase PMem PRun PFrame PAlu PExec PIAlu PIAlu2 PShift PStep PIMov.

Lemma reg_smem base w x v a w' n : reg w' n (smem base w x v a) = reg w' n a.
Proof. reflexivity. Qed.
Lemma reg16_other n m v a : 0 <= n < 8 -> 0 <= m < 8 -> n <> m -> inrange 16 v ->
  reg 16 n (with_reg 16 m v a) = reg 16 n a.
Proof. intros. apply reg_other; auto with width. cbn. lia. Qed.
Lemma reg16_same n v a : 0 <= n < 8 -> inrange 16 v -> reg 16 n (with_reg 16 n v a) = v.
Proof. intros. apply reg_same; auto with width. Qed.
Lemma reg_push_a base v a n : 0 <= n < 8 -> n <> SP -> reg 16 n (push_a base v a) = reg 16 n a.
Proof. intros. unfold push_a. cbv zeta. rewrite reg_smem. apply reg16_other; auto with wf; lia. Qed.
Lemma reg_push_a_sp base v a : reg 16 SP (push_a base v a) = low 16 (reg 16 SP a - 2).
Proof. unfold push_a. cbv zeta. rewrite reg_smem. apply reg16_same; auto with wf; lia. Qed.
Lemma push_a_ss base v a : r_ss (push_a base v a) = r_ss a.
Proof. unfold push_a. cbv zeta. cbn. apply wreg_ss. Qed.
Lemma push_a_cs base v a : r_cs (push_a base v a) = r_cs a.
Proof. unfold push_a. cbv zeta. cbn. apply wreg_cs. Qed.
Lemma push_a_ip base v a : r_ip (push_a base v a) = r_ip a.
Proof. unfold push_a. cbv zeta. cbn. apply wreg_ip. Qed.
Lemma push_a_flags base v a : r_flags (push_a base v a) = r_flags a.
Proof. unfold push_a. cbv zeta. cbn. apply wreg_flags. Qed.
Lemma push_a_cpu base v a : cpu (push_a base v a) = cpu a.
Proof. unfold push_a. cbv zeta. cbn. apply wreg_cpu. Qed.
Lemma push_a_hle base v a : hle (push_a base v a) = hle a.
Proof. unfold push_a. cbv zeta. cbn. apply wreg_hle. Qed.
Lemma same_push16 E base v a b : flat E base a -> wf_regs a -> same a b ->
  same (push_a base v a) (push16 v b).
Proof. intros. eapply same_push_a; eauto. Qed.

(** Values pushed. *)
Section Push.
Context (E : env) (base : Z) {Y : Type}.
Lemma getW_push n a d g c l : 0 <= n < 8 ->
  getW n (mkSt (with_reg 16 SP (low 16 (reg 16 SP a - 2)) a) d g c l) =
  Ok (pushed n a) (mkSt (with_reg 16 SP (low 16 (reg 16 SP a - 2)) a) d g c l).
Proof.
  intros Hn. rewrite getW_ok by auto. f_equal. unfold pushed.
  destruct (Z.eqb_spec n SP) as [->|H].
  - apply reg16_same; auto with wf; lia.
  - apply reg16_other; auto with wf; lia.
Qed.
Lemma st_pushW n (k : unit -> M Y) a d g c l : flat E base a -> wf_regs a -> 0 <= n < 8 ->
  bind (push E (getW n)) k (mkSt a d g c l) = k tt (mkSt (push_a base (pushed n a) a) d g c l).
Proof. intros. erewrite (st_push E base) by (eauto; apply getW_push; auto). reflexivity. Qed.
Lemma st_pushret v (k : unit -> M Y) a d g c l : flat E base a -> wf_regs a ->
  bind (push E (ret v)) k (mkSt a d g c l) = k tt (mkSt (push_a base v a) d g c l).
Proof. intros. erewrite (st_push E base) by (eauto; reflexivity). reflexivity. Qed.
Lemma st_pushflags (k : unit -> M Y) a d g c l : flat E base a -> wf_regs a ->
  bind (push E getflags) k (mkSt a d g c l) = k tt (mkSt (push_a base (r_flags a) a) d g c l).
Proof.
  intros. erewrite (st_push E base) by (eauto; unfold getflags, getA, gets; cbn [ar]; rewrite wreg_flags; reflexivity).
  reflexivity.
Qed.
Lemma st_pushcs (k : unit -> M Y) a d g c l : flat E base a -> wf_regs a ->
  bind (push E (getA r_cs)) k (mkSt a d g c l) = k tt (mkSt (push_a base (r_cs a) a) d g c l).
Proof.
  intros. erewrite (st_push E base) by (eauto; unfold getA, gets; cbn [ar]; rewrite wreg_cs; reflexivity).
  reflexivity.
Qed.
Lemma st_puship (k : unit -> M Y) a d g c l : flat E base a -> wf_regs a ->
  bind (push E (getA r_ip)) k (mkSt a d g c l) = k tt (mkSt (push_a base (r_ip a) a) d g c l).
Proof.
  intros. erewrite (st_push E base) by (eauto; unfold getA, gets; cbn [ar]; rewrite wreg_ip; reflexivity).
  reflexivity.
Qed.
Lemma st_pushnext (k : unit -> M Y) a d g c l : flat E base a -> wf_regs a ->
  bind (push E next_ip) k (mkSt a d g c l) =
  k tt (mkSt (push_a base (low 16 (r_ip a + d_ipoff d)) a) d g c l).
Proof.
  intros. rewrite (st_push E base _ (low 16 (r_ip a + d_ipoff d))); auto.
Qed.
Lemma sreg_with_reg n w m v a : sreg n (with_reg w m v a) = sreg n a.
Proof.
  unfold sreg. repeat (match goal with |- context [match ?x with _ => _ end] => destruct x end);
  rewrite ?wreg_es, ?wreg_cs, ?wreg_ss, ?wreg_ds, ?wreg_fs, ?wreg_gs; reflexivity.
Qed.
Lemma st_pushseg n (k : unit -> M Y) a d g c l : flat E base a -> wf_regs a -> 0 <= n < 6 ->
  bind (push E (getseg n)) k (mkSt a d g c l) = k tt (mkSt (push_a base (sreg n a) a) d g c l).
Proof.
  intros. rewrite (st_push E base _ (sreg n a)); auto. rewrite getseg_ok by auto. rewrite sreg_with_reg. reflexivity.
Qed.
Lemma st_pushrm r (k : unit -> M Y) a d g c l : flat E base a -> wf_regs a -> rm_ok r ->
  bind (push E (load 16 (ptr_of base 16 r))) k (mkSt a d g c l) =
  k tt (mkSt (push_a base (match r with RReg n => pushed n a | _ => rd_rm 16 r a end) a) d g c l).
Proof.
  intros F W Hr.
  rewrite (st_push E base _ (match r with RReg n => pushed n a | _ => rd_rm 16 r a end)); auto.
  erewrite (load_rm E base); auto with width flat.
  destruct r as [n|sg o].
  - f_equal. cbn [rd_rm rm_ok] in *. unfold pushed. destruct (Z.eqb_spec n SP) as [->|Hn].
    + apply reg16_same; auto with wf; lia.
    + apply reg16_other; auto with wf; lia.
  - reflexivity.
Qed.
End Push.

Lemma reg32_mod n a : reg 32 n a mod 65536 = reg 16 n a.
Proof.
  unfold reg. cbn [Z.eqb Pos.eqb]. unfold gpr. change (2 ^ 32) with 4294967296. change (2 ^ 16) with 65536.
  generalize (gprs a / 2 ^ (32 * n)). intros. lia.
Qed.
Lemma setf_split p l h g : 0 <= p -> inrange 16 l -> inrange 16 h ->
  setf (p + 16) 16 h (setf p 16 l g) = setf p 32 (l + 65536 * h) g.
Proof.
  intros Hp [Hl Hl'] [Hh Hh']. apply Z.bits_inj'. intros i Hi.
  rewrite !setf_testbit by lia.
  assert (Hlow : forall j, 0 <= j < 16 -> Z.testbit (l + 65536 * h) j = Z.testbit l j).
  { intros j Hj. rewrite <- (Z.mod_pow2_bits_low _ 16 j) by lia. f_equal. change (2 ^ 16) with 65536 in *. lia. }
  assert (Hhigh : forall j, 16 <= j -> Z.testbit (l + 65536 * h) j = Z.testbit h (j - 16)).
  { intros j Hj. replace j with (j - 16 + 16) at 1 by lia. rewrite <- Z.div_pow2_bits by lia.
    f_equal. change (2 ^ 16) with 65536 in *. lia. }
  destruct (Z.leb_spec (p + 16) i), (Z.ltb_spec i (p + 16 + 16)), (Z.leb_spec p i), (Z.ltb_spec i (p + 16)), (Z.ltb_spec i (p + 32)); cbn [andb]; try lia; auto.
  - rewrite Hhigh by lia. f_equal. lia.
  - rewrite Hlow by lia. reflexivity.
Qed.

Section FetchWords.
Context (E : env) (base : Z).
Lemma code_from_2 a o b0 b1 t : code_from a o (b0 :: b1 :: t) -> code_from a (o + 2) t.
Proof.
  intros C. destruct (code_from_cons _ _ _ _ C) as [_ C1]. destruct (code_from_cons _ _ _ _ C1) as [_ C2].
  replace (o + 2) with (o + 1 + 1) by lia. exact C2.
Qed.
Lemma st_fetch16c {Y} (k : Z -> M Y) a p off g n l b0 b1 t : flat E base a -> wf_regs a ->
  code_from a off (b0 :: b1 :: t) ->
  bind (fetch16 E) k (mkSt a (dec_of p off) g n l) = k (b0 + 256 * b1) (mkSt a (dec_of p (off + 2)) g n l).
Proof. intros. erewrite bind_ok by (eapply fetch16_code; eauto). reflexivity. Qed.
Lemma code_word_range a o b0 b1 t : flat E base a -> wf_regs a -> code_from a o (b0 :: b1 :: t) ->
  inrange 16 (b0 + 256 * b1).
Proof.
  intros F W C. destruct (code_from_cons _ _ _ _ C) as [_ C1].
  pose proof (code_byte_range E base _ _ _ _ F W C). pose proof (code_byte_range E base _ _ _ _ F W C1).
  unfold inrange. change (2 ^ 16) with 65536. lia.
Qed.
End FetchWords.
Lemma pop32_regs n l h s2 a : 0 <= n < 8 -> n <> SP -> inrange 16 l -> inrange 16 h -> inrange 16 s2 ->
  let a3 := with_reg 16 SP s2 (with_reg 16 n l a) in
  same (a_gprs (setf (32 * n + 16) 16 h (gprs a3)) a3)
       (with_reg 32 n (l + 65536 * h) (with_reg 16 SP s2 a)).
Proof.
  intros Hn Hsp Hl Hh Hs a3. subst a3.
  assert (inrange 32 (l + 65536 * h)).
  { unfold inrange in *. change (2 ^ 32) with 4294967296. change (2 ^ 16) with 65536 in *. lia. }
  rewrite !with_reg_setf by (auto with width; lia). constructor; try reflexivity.
  cbn [gprs a_gprs]. unfold rpos. cbn [Z.eqb Pos.eqb].
  rewrite (setf_comm (32 * SP) 16 s2 (32 * n)) by lia.
  rewrite setf_split by (auto; lia). reflexivity.
Qed.

Lemma iter_succ_r {X} k (f : X -> X) x : Nat.iter (S k) f x = Nat.iter k f (f x).
Proof. induction k; [reflexivity|]. cbn in *. f_equal. exact IHk. Qed.
Lemma bits16 x y : inrange 16 x -> inrange 16 y ->
  (forall i, In i [0;1;2;3;4;5;6;7;8;9;10;11;12;13;14;15] -> Z.testbit x i = Z.testbit y i) -> x = y.
Proof.
  intros Hx Hy H. apply Z.bits_inj'. intros i Hi.
  destruct (Z.ltb_spec i 16).
  - apply H. cbn. lia.
  - rewrite (Z.bits_above_log2 x i), (Z.bits_above_log2 y i); auto; try apply Hx; try apply Hy.
    + destruct (Z.eq_dec y 0) as [->|]; [cbn; lia|]. apply Z.lt_le_trans with 16; auto. apply Z.log2_lt_pow2; unfold inrange in *; lia.
    + destruct (Z.eq_dec x 0) as [->|]; [cbn; lia|]. apply Z.lt_le_trans with 16; auto. apply Z.log2_lt_pow2; unfold inrange in *; lia.
Qed.
Lemma popf_ok c t m cl : inrange 16 t -> popf_masks c = Some (m, cl) ->
  wrap 16 (Z.ldiff (Z.lor t m) cl) = popf_value c t.
Proof.
  intros Ht Hm. apply bits16.
  - apply wrap_range. lia.
  - unfold popf_value. repeat match goal with |- context [match ?x with _ => _ end] => destruct x end;
    repeat (apply put_range; [lia|]); auto.
  - intros i Hi. rewrite tb_wrap by (cbn in Hi; lia).
    rewrite Z.ldiff_spec, Z.lor_spec. unfold popf_value.
    unfold popf_masks in Hm.
    repeat match type of Hm with match ?x with _ => _ end = _ => destruct x; try discriminate Hm end;
    injection Hm as <- <-; cbn [In] in Hi; rewrite !tb_put by lia;
    repeat destruct Hi as [<-|Hi]; try contradiction; cbn -[Z.testbit];
    match goal with |- context [Z.testbit t ?k] => destruct (Z.testbit t k); reflexivity | _ => reflexivity end.
Qed.

Section WithEnv.
Context (E : env) (base : Z).

Lemma drop_flat n a : flat E base a -> flat E base (drop n a).
Proof. unfold drop. auto with flat. Qed.
Lemma drop_wf n a : wf_regs a -> wf_regs (drop n a).
Proof. intros. unfold drop. auto with wf width. Qed.
Lemma top16_range a : flat E base a -> wf_regs a -> inrange 16 (top16 a).
Proof. intros. unfold top16. eapply mem_lin_range; eauto with width wf; lia. Qed.
Lemma pop_into_flat n a : flat E base a -> flat E base (pop_into n a).
Proof. unfold pop_into, drop. auto with flat. Qed.
Lemma pop_into_wf n a : 0 <= n < 8 -> flat E base a -> wf_regs a -> wf_regs (pop_into n a).
Proof.
  intros. unfold pop_into. apply wf_with_reg; auto with width.
  - apply top16_range; auto.
  - apply drop_wf; auto.
Qed.
Lemma st_popd {Y} (k : Z -> M Y) a d g n l : flat E base a -> wf_regs a ->
  bind (pop E) k (mkSt a d g n l) = k (top16 a) (mkSt (drop 2 a) d g n l).
Proof. intros. rewrite (st_pop E base) by auto. reflexivity. Qed.
Lemma st_pop_to {Y} r (k : unit -> M Y) a d g n l : flat E base a -> wf_regs a -> 0 <= r < 8 ->
  bind (pop_to E r) k (mkSt a d g n l) = k tt (mkSt (pop_into r a) d g n l).
Proof.
  intros. unfold pop_to. rewrite st_bind, st_popd by auto. rewrite st_setW by auto.
  rewrite low_id by (apply top16_range; auto). reflexivity.
Qed.
Definition dispm (a : arch) : arch :=
  let a1 := with_reg 16 BP (low 16 (reg 16 BP a - 2)) a in
  push_a base (mem 16 a1 (lin (r_ss a1) (low 16 (reg 16 BP a1)))) a1.
Lemma dispm_flat a : flat E base a -> flat E base (dispm a).
Proof. unfold dispm. auto with flat. Qed.
Lemma dispm_wf a : wf_regs a -> wf_regs (dispm a).
Proof. intros. unfold dispm. cbv zeta. auto with wf width. Qed.
Lemma dispm_ip a : r_ip (dispm a) = r_ip a.
Proof. unfold dispm. cbv zeta. rewrite push_a_ip, wreg_ip. reflexivity. Qed.
Lemma dispm_same a b : flat E base a -> wf_regs a -> same a b -> same (dispm a) (enter_display b).
Proof.
  intros F W Hs. unfold dispm, enter_display. cbv zeta.
  set (a1 := with_reg 16 BP (low 16 (reg 16 BP a - 2)) a).
  assert (F1 : flat E base a1) by (subst a1; auto with flat).
  assert (W1 : wf_regs a1) by (subst a1; auto with wf width).
  assert (Hs1 : same a1 (with_reg 16 BP (low 16 (reg 16 BP b - 2)) b)).
  { subst a1. rewrite <- (same_reg a b) by exact Hs. apply same_with_reg, Hs. }
  rewrite <- (same_mem _ _ 16 _ Hs1), <- (sm_ss _ _ Hs1).
  replace (low 16 (reg 16 BP b - 2)) with (low 16 (reg 16 BP a1)) at 1.
  - eapply same_push16; eauto.
  - subst a1. rewrite reg16_same by (auto with wf; lia). rewrite (same_reg a b) by exact Hs.
    apply low_id, low16_range.
Qed.
Lemma st_enter_loop k : forall (f : unit -> M unit) a d g n l, flat E base a -> wf_regs a -> d_op d = false ->
  bind (enter_loop E k) f (mkSt a d g n l) = f tt (mkSt (Nat.iter k dispm a) d g n l).
Proof.
  induction k as [|k IH]; intros f a d g n l F W Hd.
  { cbn [enter_loop Nat.iter]. apply st_ret. }
  cbn [enter_loop].
  rewrite st_bind, st_getD, Hd. rewrite st_bind. unfold R_BP. rewrite st_getW by lia.
  rewrite st_bind, st_setW by lia. rewrite st_bind, st_getA, st_bind, st_getW by lia.
  rewrite st_bind. rewrite (st_rd E base) by auto with width wf flat.
  rewrite st_bind, (st_pushret E base) by auto with wf flat width.
  rewrite IH by auto with wf flat width. rewrite iter_succ_r. reflexivity.
Qed.
Lemma iter_dispm k : forall a b, flat E base a -> wf_regs a -> same a b ->
  flat E base (Nat.iter k dispm a) /\ wf_regs (Nat.iter k dispm a) /\
  r_ip (Nat.iter k dispm a) = r_ip a /\ same (Nat.iter k dispm a) (Nat.iter k enter_display b).
Proof.
  induction k as [|k IH]; intros a b F W Hs.
  { cbn. auto. }
  rewrite !iter_succ_r. destruct (IH (dispm a) (enter_display b)) as (H1 & H2 & H3 & H4);
    auto using dispm_flat, dispm_wf, dispm_same.
Qed.

Lemma stack_instr s pre p bs k :
  fetched E base s pre p bs -> decode_stack p (ar s) bs = Some k -> operand_ok p (ar s) bs ->
  (k = K_PopF -> cpu (ar s) = 0 \/ cpu (ar s) = 1 \/ cpu (ar s) = 2) ->
  (forall size, k <> K_Enter size 1) ->
  executes E s (pre ++ bs) (stack_effect p k (ar s)).
Proof.
  intros Hf Hdec Hop Hcpu Hent. destruct bs as [|op t]; [discriminate|].
  destruct (instr_ctx _ _ _ _ _ _ _ Hf) as (F & W & Hp & C & Hb).
  unfold decode_stack in Hdec.
  destruct (push_seg_op (op :: t)) as [n|] eqn:Hps.
  { destruct (p_os p) eqn:Ho; [discriminate|]. injection Hdec as <-.
    assert (Hd : exists m, dispatch (op :: t) = Some (OPushSeg, n, m) /\ blen (op :: t) = m /\ 0 <= n < 6).
    { clear - Hps. unfold push_seg_op in Hps.
      repeat match type of Hps with
      | match ?x with _ => _ end = _ => destruct x; try discriminate Hps
      end; injection Hps as <-; eexists; (split; [reflexivity|split; [reflexivity|lia]]). }
    destruct Hd as (m & Hd & Hm & Hn).
    frd Hf Hd; [unfold x_push_seg; rewrite st_chkseg by auto; tail; rewrite (st_pushseg E base) by auto; reflexivity| | | |].
    - lia.
    - auto with flat.
    - apply push_a_ip.
    - eapply same_push16; eauto. apply same_refl. }
  destruct (pop_seg_op (op :: t)) as [n|] eqn:Hqs.
  { destruct (p_os p) eqn:Ho; [discriminate|]. injection Hdec as <-.
    assert (Hd : exists m, dispatch (op :: t) = Some (OPopSeg, n, m) /\ blen (op :: t) = m /\ 0 <= n < 6).
    { clear - Hqs. unfold pop_seg_op in Hqs.
      repeat match type of Hqs with
      | match ?x with _ => _ end = _ => destruct x; try discriminate Hqs
      end; injection Hqs as <-; eexists; (split; [reflexivity|split; [reflexivity|lia]]). }
    destruct Hd as (m & Hd & Hm & Hn).
    frd Hf Hd; [unfold x_pop_seg; rewrite st_chkseg by auto; xs E base; tail; rewrite st_setseg by auto; reflexivity| | | |].
    - lia.
    - auto with flat.
    - rewrite wsreg_ip, wreg_ip. reflexivity.
    - rewrite low_id by (eapply mem_lin_range; eauto with width wf; lia). apply same_refl. }
  clear Hps Hqs.

  destruct ((80 <=? op) && (op <=? 87)) eqn:Hrng.
  { assert (Hrr : 0 <= op - 80 < 8) by lia.
    assert (Hd : dispatch (op :: t) = Some (OPushReg, op - 80, 1)) by (regop 80 op t).
    destruct (p_os p && (op =? 84)) eqn:Hsp; [discriminate|].
    destruct t; [|discriminate]. injection Hdec as <-. cbn [stack_effect].
    destruct (p_os p) eqn:Ho; cbn [andb] in Hsp.
    - assert (Hnsp : op - 80 <> SP) by lia.
      frd Hf Hd; [unfold x_push_reg| | | |].
      + rewrite st_getD. cbn [d_op dec_of]. rewrite Ho.
        rewrite (st_push E base _ (reg 32 (op - 80) (ar s) / 65536)); auto.
        * tail. rewrite (st_pushW E base) by auto with flat wf. reflexivity.
        * unfold get_gpr, getA, gets. cbn [ar]. f_equal.
          rewrite with_reg_setf by (auto with width wf; lia). cbn [gprs a_gprs].
          rewrite getf_setf_disjoint by (cbn; lia).
          rewrite reg_getf by auto with width. unfold getf. cbn [rpos Z.eqb Pos.eqb].
          rewrite Z.pow_add_r by lia. rewrite <- Z.div_div by lia. change (2 ^ 16) with 65536. change (2 ^ 32) with (65536 * 65536).
          generalize (gprs (ar s) / 2 ^ (32 * (op - 80))). intros x. lia.
      + blia.
      + auto with flat.
      + rewrite !push_a_ip; reflexivity.
      + unfold push32. eapply same_trans.
        * eapply same_push16; eauto with flat wf. eapply same_push16; eauto. apply same_refl.
        * unfold pushed. rewrite (proj2 (Z.eqb_neq _ _) Hnsp). rewrite reg_push_a by auto.
          rewrite reg32_mod.
          apply same_refl.
    - frd Hf Hd; [unfold x_push_reg| | | |].
      + rewrite st_getD. cbn [d_op dec_of]. rewrite Ho, st_ret. tail.
        rewrite (st_pushW E base) by auto with flat wf. reflexivity.
      + blia.
      + auto with flat.
      + rewrite !push_a_ip; reflexivity.
      + eapply same_push16; eauto. apply same_refl. }
  destruct ((88 <=? op) && (op <=? 95)) eqn:Hrng2.
  { assert (Hrr : 0 <= op - 88 < 8) by lia.
    assert (Hd : dispatch (op :: t) = Some (OPopReg, op - 88, 1)) by (regop 88 op t).
    destruct (p_os p && (op =? 92)) eqn:Hsp; [discriminate|].
    destruct t; [|discriminate]. injection Hdec as <-. cbn [stack_effect].
    assert (Hmr : forall b, flat E base b -> wf_regs b -> inrange 16 (mem 16 b (lin (r_ss b) (reg 16 SP b)))).
    { intros b Fb Wb. eapply mem_lin_range; eauto with width wf; lia. }
    destruct (p_os p) eqn:Ho; cbn [andb] in Hsp.
    - assert (Hnsp : op - 88 <> SP) by lia.
      frd Hf Hd; [unfold x_pop_reg| | | |].
      + xs E base. xs E base. rewrite st_getD. cbn [d_op dec_of]. rewrite Ho.
        xs E base. tail. rewrite st_set_gpr. reflexivity.
      + blia.
      + auto with flat.
      + cbn. rewrite ?wreg_ip; reflexivity.
      + rewrite (low_id 16 (mem 16 (ar s) _)) by auto. fold (top16 (ar s)). fold (drop 2 (ar s)).
        assert (H1 : reg 16 SP (with_reg 16 (op - 88) (top16 (ar s)) (drop 2 (ar s))) = reg 16 SP (drop 2 (ar s))).
        { apply reg16_other; auto; try lia. apply Hmr; auto. }
        rewrite H1, wreg_ss. rewrite (mem_ext 16 _ (drop 2 (ar s))) by reflexivity.
        assert (W1 : wf_regs (drop 2 (ar s))) by (unfold drop; auto with wf width).
        assert (F1 : flat E base (drop 2 (ar s))) by (unfold drop; auto with flat).
        eapply same_trans; [apply pop32_regs; auto; try apply low16_range; apply Hmr; auto|].
        apply same_refl. 
    - frd Hf Hd; [unfold x_pop_reg| | | |].
      + xs E base. xs E base. rewrite st_getD. cbn [d_op dec_of]. rewrite Ho. reflexivity.
      + blia.
      + auto with flat.
      + rewrite ?wreg_ip; reflexivity.
      + rewrite low_id by auto. apply same_refl. }

  clear Hrng Hrng2.
  assert (Hmr : forall b, flat E base b -> wf_regs b -> inrange 16 (mem 16 b (lin (r_ss b) (reg 16 SP b)))).
  { intros b Fb Wb. eapply mem_lin_range; eauto with width wf; lia. }
  assert (Hlow : forall v a b, flat E base a -> wf_regs a -> same a b -> same (push_a base v a) (push16 (low 16 v) b)).
  { intros v a b Fa Wa Hs. eapply same_trans; [|eapply same_push16; eauto].
    unfold push_a. cbv zeta. apply smem_low. auto with width. }
  destruct (Z.eqb_spec op 106) as [->|_].
  { destruct (imm 8 t) as [i|] eqn:Hi; [|discriminate]. cbn [after] in Hdec. injection Hdec as <-.
    pose proof (imm_range E base 8 _ _ _ _ F W width8 C Hi) as Hir.
    destruct t as [|i' [|? [|? [|? [|? ?]]]]]; try discriminate.
    injection Hi as ->.
    cbn [stack_effect]. destruct (p_os p) eqn:Ho.
    - frs Hf; [unfold x_push_i8, push_imm| | | |].
      + erewrite (st_fetch8s E base) by eauto with wf flat. rewrite st_getD. cbn [d_op dec_of]. rewrite Ho.
        rewrite (st_pushret E base) by auto. tail. rewrite (st_pushret E base) by auto with flat wf. reflexivity.
      + blia.
      + auto with flat.
      + rewrite !push_a_ip. reflexivity.
      + unfold push32. unfold osz. rewrite Ho. change wrap with low.
        change (low 32 (signed 8 i) mod 65536) with (low 16 (low 32 (signed 8 i))).
        apply Hlow; auto with flat wf. eapply same_push16; eauto. apply same_refl.
    - frs Hf; [unfold x_push_i8, push_imm| | | |].
      + erewrite (st_fetch8s E base) by eauto with wf flat. rewrite st_getD. cbn [d_op dec_of]. rewrite Ho, st_ret.
        tail. rewrite (st_pushret E base) by auto with flat wf. reflexivity.
      + blia.
      + auto with flat.
      + rewrite !push_a_ip. reflexivity.
      + unfold osz. rewrite Ho. 
        replace (low 16 (signed 8 i)) with (low 16 (wrap 32 (signed 8 i))) by (apply (wrap_mod_le 16 32); lia).
        apply Hlow; auto with flat wf. apply same_refl. }
  destruct (p_os p) eqn:Ho; [discriminate|].
  destruct (Z.eqb_spec op 104) as [->|_].
  { destruct (imm 16 t) as [i|] eqn:Hi; [|discriminate]. cbn [after] in Hdec. injection Hdec as <-.
    pose proof (imm_range E base 16 _ _ _ _ F W width16 C Hi) as Hir.
    cbn [stack_effect]. rewrite Ho.
    frs Hf; [unfold x_push_i, push_imm, fetch16| | | |].
    - xs E base. rewrite st_getD. cbn [d_op dec_of]. rewrite Ho, st_ret.
      tail. rewrite (st_pushret E base) by auto with flat wf. reflexivity.
    - blia.
    - auto with flat.
    - rewrite !push_a_ip. reflexivity.
    - eapply same_push16; eauto. apply same_refl. }
  destruct (Z.eqb_spec op 96) as [->|_].
  { destruct t; [|discriminate]. injection Hdec as <-. cbn [stack_effect].
    frs Hf; [unfold x_pusha| | | |].
    - rewrite st_getD. cbn [d_op dec_of]. rewrite Ho. xs E base.
      unfold R_AX, R_CX, R_DX, R_BX, R_SP, R_BP, R_SI, R_DI.
      repeat first [rewrite (st_pushW E base) by (auto 12 with flat wf; lia) | rewrite (st_pushret E base) by auto 12 with flat wf | tail].
      reflexivity.
    - blia.
    - auto 12 with flat.
    - rewrite !push_a_ip. reflexivity.
    - unfold pushed. cbn [Z.eqb Pos.eqb]. rewrite !reg_push_a by lia.
      unfold pusha. repeat (apply same_push16 with (E := E); [auto 12 with flat|auto 12 with wf|]). apply same_refl. }
  destruct (Z.eqb_spec op 97) as [->|_].
  { destruct t; [|discriminate]. injection Hdec as <-. cbn [stack_effect].
    frs Hf; [unfold x_popa| | | |].
    - rewrite st_getD. cbn [d_op dec_of]. rewrite Ho.
      unfold R_AX, R_CX, R_DX, R_BX, R_SP, R_BP, R_SI, R_DI.
      repeat first [rewrite st_pop_to by (auto 12 using pop_into_flat, pop_into_wf, drop_flat, drop_wf; lia) |
       rewrite st_getW by lia | rewrite st_setW by lia; match goal with |- context [with_reg 16 4 (low 16 (reg 16 4 ?a + 2)) ?a] => fold (drop 2 a) end | tail].
      reflexivity.
    - blia.
    - auto 12 using pop_into_flat, drop_flat.
    - unfold pop_into, drop. rewrite !wreg_ip. reflexivity.
    - apply same_refl. }
  destruct (Z.eqb_spec op 156) as [->|_].
  { destruct t; [|discriminate]. injection Hdec as <-. cbn [stack_effect].
    frs Hf; [unfold x_pushf| | | |].
    - rewrite st_getD. cbn [d_op dec_of]. rewrite Ho. tail. rewrite (st_pushflags E base) by auto. reflexivity.
    - blia.
    - auto with flat.
    - apply push_a_ip.
    - eapply same_push16; eauto. apply same_refl. }
  destruct (Z.eqb_spec op 157) as [->|_].
  { destruct t; [|discriminate]. injection Hdec as <-. cbn [stack_effect]. specialize (Hcpu eq_refl).
    assert (Hm : exists m cl, popf_masks (cpu (ar s)) = Some (m, cl)).
    { destruct Hcpu as [-> | [-> | ->]]; cbn; eauto. }
    destruct Hm as (m & cl & Hm).
    frs Hf; [unfold x_popf| | | |].
    - rewrite st_getD. cbn [d_op dec_of]. rewrite Ho. rewrite st_popd by auto. rewrite st_getA.
      change (cpu (drop 2 (ar s))) with (cpu (ar s)). rewrite Hm.
      rewrite (popf_ok (cpu (ar s))) by (auto using top16_range). tail. rewrite st_set_flags. reflexivity.
    - blia.
    - auto using drop_flat with flat.
    - reflexivity.
    - apply same_refl. }
  destruct (Z.eqb_spec op 201) as [->|_].
  { destruct t; [|discriminate]. injection Hdec as <-. cbn [stack_effect].
    assert (W1 : wf_regs (with_reg 16 SP (reg 16 BP (ar s)) (ar s))) by (apply wf_with_reg; auto with width wf; lia).
    frs Hf; [unfold x_leave, R_BP, R_SP| | | |].
    - rewrite st_getW, st_setW by lia. rewrite st_getD. cbn [d_op dec_of]. rewrite Ho.
      rewrite (low_id 16 (reg 16 5 (ar s))) by (auto with wf width; lia).
      rewrite st_popd by auto with flat. tail. rewrite st_setW by lia. reflexivity.
    - blia.
    - auto using drop_flat with flat.
    - reflexivity.
    - rewrite low_id by (apply top16_range; auto with flat). apply same_refl. }
  destruct (Z.eqb_spec op 200) as [->|_].
  { destruct t as [|b0 [|b1 [|lv [|? ?]]]]; try discriminate. injection Hdec as <-. cbn [stack_effect].
    destruct (code_from_cons _ _ _ _ C) as [_ C1]. destruct (code_from_cons _ _ _ _ C1) as [_ C2].
    pose proof (code_byte_range E base _ _ _ _ F W C2) as Hlv.
    assert (Hl1 : lv mod 32 <> 1) by (intros H; eapply Hent; rewrite H; reflexivity).
    assert (Csz : forall d : dec, d_ipoff d = blen pre + 1 -> forall g n l, fetch16 E (mkSt (ar s) d g n l) =
      Ok (b0 + 256 * b1) (mkSt (ar s) (dd_ipoff (d_ipoff d + 2) d) g n l)).
    { intros d Hd g n l. eapply fetch16_code; eauto. rewrite Hd. exact C. }
    assert (F1 : flat E base (push_a base (reg 16 BP (ar s)) (ar s))) by auto with flat.
    assert (W1 : wf_regs (push_a base (reg 16 BP (ar s)) (ar s))) by auto with wf.
    set (a1 := push_a base (reg 16 BP (ar s)) (ar s)) in *.
    assert (Hs1 : same a1 (push16 (reg 16 BP (ar s)) (ar s))) by (eapply same_push16; eauto; apply same_refl).
    assert (Hx : exists a2, flat E base a2 /\ wf_regs a2 /\ r_ip a2 = r_ip (ar s) /\
      same a2 (if lv mod 32 =? 0 then push16 (reg 16 BP (ar s)) (ar s)
               else push16 (reg 16 SP (push16 (reg 16 BP (ar s)) (ar s)))
                   (Nat.iter (Z.to_nat (lv mod 32 - 1)) enter_display (push16 (reg 16 BP (ar s)) (ar s)))) /\
      forall d g n l (f : unit -> M unit), d_op d = false ->
      bind (if 1 <? lv mod 32 then
           enter_loop E (Z.to_nat (lv mod 32 - 1)) ;;;
           o <- getD d_op ;;
           if o then ret tt else push E (ret (reg 16 SP a1))
         else ret tt) f (mkSt a1 d g n l) = f tt (mkSt a2 d g n l)).
    { destruct (Z.ltb_spec 1 (lv mod 32)).
      - destruct (iter_dispm (Z.to_nat (lv mod 32 - 1)) a1 _ F1 W1 Hs1) as (H1 & H2 & H3 & H4).
        exists (push_a base (reg 16 SP a1) (Nat.iter (Z.to_nat (lv mod 32 - 1)) dispm a1)).
        split; [auto with flat|]. split; [auto with wf|]. split; [rewrite push_a_ip, H3; apply push_a_ip|]. split.
        + replace (lv mod 32 =? 0) with false by lia. rewrite <- (same_reg _ _ 16 SP Hs1).
          eapply same_push16; eauto.
        + intros d g n l f Hd. rewrite st_bind, st_enter_loop by auto. rewrite st_bind, st_getD, Hd.
          rewrite (st_pushret E base) by auto. reflexivity.
      - exists a1. replace (lv mod 32 =? 0) with true by lia.
        split; [auto|]. split; [auto|]. split; [apply push_a_ip|]. split; [auto|].
        intros. rewrite st_ret. reflexivity. }
    destruct Hx as (a2 & F2 & W2 & Hip & Hs2 & Hx).
    assert (Hsp : inrange 16 (reg 16 SP a1)) by (auto with wf width; lia).
    frs Hf; [unfold x_enter, R_BP, R_SP| | | |].
    - erewrite bind_ok by (apply Csz; reflexivity).
      change (dd_ipoff (d_ipoff (dec_of p (blen pre + 1)) + 2) (dec_of p (blen pre + 1))) with (dec_of p (blen pre + 1 + 2)).
      erewrite (st_fetch8 E base); [|eauto|eauto|].
      2:{ replace (blen pre + 1 + 2) with (blen pre + 1 + 1 + 1) by lia. exact C2. }
      rewrite (st_pushW E base) by (auto; lia). change (pushed 5 (ar s)) with (reg 16 BP (ar s)). fold a1.
      rewrite st_getW by lia. rewrite Hx by exact Ho.
      rewrite st_setW by lia. rewrite st_getW by lia. tail. rewrite st_setW by lia. reflexivity.
    - blia.
    - auto with flat.
    - rewrite !wreg_ip. auto.
    - unfold enter. cbv zeta. rewrite (low_id 16 (reg 16 4 a1)) by auto.
      rewrite <- (same_reg _ _ 16 SP Hs1). rewrite <- (same_reg _ _ 16 SP Hs1) in Hs2.
      match goal with |- same (with_reg _ _ (low 16 (reg _ _ ?x - _)) _) (with_reg _ _ (low 16 (reg _ _ ?y - _)) _) =>
        assert (Hxy : same x y) by (apply same_with_reg, Hs2) end.
      rewrite (same_reg _ _ 16 SP Hxy). apply same_with_reg, Hxy. }
  destruct (Z.eqb_spec op 143) as [->|_].
  { mrform0 Hf Hop Hdec. destruct (rg =? 0); [|discriminate]. injection Hdec as <-. cbn [stack_effect].
    frs Hf; [unfold x_pop_mx| | | |].
    - rewrite st_getD. cbn [d_op dec_of]. rewrite Ho.
      erewrite (st_parsex E base 16) by eauto with width. cbn [fst snd].
      rewrite st_popd by auto. tail. rewrite (st_store E base) by (auto using drop_flat with width). reflexivity.
    - blia.
    - auto using drop_flat with flat.
    - rewrite wr_m_ip; reflexivity.
    - eapply same_wr_m; eauto using drop_flat, top16_range with width wf. apply same_refl. }
  destruct (Z.eqb_spec op 255) as [->|_]; [|discriminate].
  { mrform0 Hf Hop Hdec. destruct (Z.eqb_spec rg 6) as [H6|]; [|discriminate]. injection Hdec as <-. cbn [stack_effect].
    assert (Hd : dispatch (255 :: mb :: t0) = Some (OUnaryMX, 6, 1)).
    { cbn. rewrite Hrg, H6. reflexivity. }
    frd Hf Hd; [unfold x_unary_mx| | | |].
    - rewrite st_getD. cbn [d_op dec_of]. rewrite Ho.
      erewrite (st_parsex E base 16) by eauto with width. cbn [fst snd].
      tail. rewrite (st_pushrm E base) by auto. reflexivity.
    - blia.
    - auto with flat.
    - apply push_a_ip.
    - destruct r; (eapply same_push16; eauto; apply same_refl). }
Qed.
End WithEnv.
