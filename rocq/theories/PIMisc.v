(** End-to-end theorems: conversions, bit scan, flag instructions, port I/O, decimal adjustment. *)
From Verif Require Import Base Cpu Alu Ops Machine Spec SpecOps SpecOps2 SpecBcd PBase PMem PRun PFrame PAlu PExec PIAlu PIAlu2 PShift PStep PIMov PIStack PIJump.

(** FLAGS updates. *)
Lemma f_clc f : fclear M_CF f = put CF false f. Proof. flags_eq. Qed.
Lemma f_stc f : fset true M_CF f = put CF true f. Proof. flags_eq. Qed.
Lemma f_cli f : fclear M_IF f = put IF_ false f. Proof. flags_eq. Qed.
Lemma f_sti f : fset true M_IF f = put IF_ true f. Proof. flags_eq. Qed.
Lemma f_cld f : fclear M_DF f = put DF false f. Proof. flags_eq. Qed.
Lemma f_std f : fset true M_DF f = put DF true f. Proof. flags_eq. Qed.
Lemma f_clz f : fclear M_ZF f = put ZF false f. Proof. flags_eq. Qed.
Lemma f_stz f : fset true M_ZF f = put ZF true f. Proof. flags_eq. Qed.
Lemma f_cmc f : Z.lxor f M_CF = put CF (negb (flag CF f)) f.
Proof. unfold flag. flags_eq; cbn [xorb]; rewrite ?xorb_false_r, ?xorb_true_r; reflexivity. Qed.
Lemma tb_SAHF i : 0 <= i -> Z.testbit 213 i = (i =? 0) || (i =? 2) || (i =? 4) || (i =? 6) || (i =? 7).
Proof. mk_mask. Qed.
Lemma f_sahf h f : Z.lor (fclear 213 f) (Z.land h 213) =
  put CF (flag CF h) (put PF (flag PF h) (put AF (flag AF h) (put ZF (flag ZF h) (put SF (flag SF h) f)))).
Proof.
  unfold flag. apply flags_ext.
  1-9: rewrite ?Z.lor_spec, ?tb_fclear, ?Z.land_spec, !tb_SAHF, !tb_put by lia; tb_simpl; reflexivity.
  intros i Hi ? ? ? ? ? ? ? ? ?.
  rewrite ?Z.lor_spec, ?tb_fclear, ?Z.land_spec, !tb_SAHF, !tb_put by lia.
  repeat match goal with H : (i =? _) = false |- _ => rewrite !H; clear H end. tb_simpl. reflexivity.
Qed.
(** CBW, CWD values. *)
Lemma sgn_signed8 v : inrange 8 v -> sgn 8 v = signed 8 v.
Proof. intros H. unfold sgn, signed. rewrite !wrap_small by exact H. reflexivity. Qed.
Lemma msb_top w v : width w -> inrange w v -> msb w v = top w v.
Proof. intros. rewrite top_bit by auto. reflexivity. Qed.
(** BSF. *)
Lemma find_seq s : forall n k, match find (Z.testbit s) (map Z.of_nat (seq k n)) with
  | Some i => bsf_loop n (Z.of_nat k) s = i /\ Z.of_nat k <= i < Z.of_nat (k + n)
  | None => forall i, Z.of_nat k <= i < Z.of_nat (k + n) -> Z.testbit s i = false
  end.
Proof.
  induction n as [|n IH]; intros k; cbn [seq map find bsf_loop].
  - intros. lia.
  - destruct (Z.testbit s (Z.of_nat k)) eqn:Hb; [split; lia|].
    specialize (IH (S k)). replace (Z.of_nat k + 1) with (Z.of_nat (S k)) by lia.
    destruct (find _ _).
    + destruct IH; split; [auto|lia].
    + intros i Hi. destruct (Z.eq_dec i (Z.of_nat k)) as [->|]; [auto|]. apply IH. lia.
Qed.
Lemma bsf_ok s : inrange 16 s -> match lowest_bit s with
  | Some i => bsf_loop 16 0 s = i /\ 0 <= i < 16 /\ s <> 0
  | None => s = 0
  end.
Proof.
  intros Hs. pose proof (find_seq s 16 0) as H. unfold lowest_bit.
  destruct (find (Z.testbit s) (map Z.of_nat (seq 0 16))) eqn:Hf.
  - split; [apply H|]. split; [lia|]. intros ->. apply find_some in Hf. rewrite Z.bits_0 in Hf. destruct Hf; discriminate.
  - apply Z.bits_inj'; intros i Hi. rewrite Z.bits_0. destruct (Z_lt_le_dec i 16); [apply H; lia|].
    rewrite <- (Z.mod_small s (2 ^ 16)) by exact Hs. apply Z.mod_pow2_bits_high. lia.
Qed.

Section WithEnv.
Context (E : env) (base : Z).
Ltac flg Hf L := frs Hf; [unfold x_flag; xrun E base|blia|auto with flat|reflexivity|rewrite L; apply same_refl].

Lemma misc_instr s pre p bs a' :
  fetched E base s pre p bs -> step_misc p (ar s) bs = Some a' -> operand_ok p (ar s) bs ->
  executes E s (pre ++ bs) a'.
Proof.
  intros Hf Hdec Hop. destruct bs as [|op t]; [discriminate|].
  destruct (instr_ctx _ _ _ _ _ _ _ Hf) as (F & W & Hp & C & Hb).
  destruct t as [|op2 t2].
  - cbn [step_misc] in Hdec.
    destruct ((op =? 152) && negb (p_os p)) eqn:H.
    { assert (op = 152) as -> by lia. destruct (p_os p) eqn:Hos; [discriminate|]. injection Hdec as <-.
      frs Hf.
      - unfold x_cbw. xs E base. xs E base. unfold osz. rewrite Hos. xrun E base.
      - blia.
      - auto with flat.
      - apply wreg_ip.
      - unfold R_AX. rewrite sgn_signed8 by (apply reg_range; auto with width; lia). apply same_refl. }
    clear H. destruct (Z.eqb_spec op 153) as [->|_].
    { injection Hdec as <-. frs Hf.
      - unfold x_cwd. xrun E base.
      - blia.
      - auto with flat.
      - apply wreg_ip.
      - rewrite msb_top by (auto with width; apply reg_range; auto with width; lia).
        replace (low (osz p) (if top (osz p) (reg (osz p) 0 (ar s)) then -1 else 0))
          with (if top (osz p) (reg (osz p) 0 (ar s)) then 2 ^ osz p - 1 else 0); [apply same_refl|].
        unfold osz. destruct (p_os p), (top _ _); reflexivity. }
    destruct (Z.eqb_spec op 245) as [->|_]; [apply some_inj in Hdec; subst a'; flg Hf f_cmc|].
    destruct (Z.eqb_spec op 248) as [->|_]; [apply some_inj in Hdec; subst a'; flg Hf f_clc|].
    destruct (Z.eqb_spec op 249) as [->|_]; [apply some_inj in Hdec; subst a'; flg Hf f_stc|].
    destruct (Z.eqb_spec op 250) as [->|_]; [apply some_inj in Hdec; subst a'; flg Hf f_cli|].
    destruct (Z.eqb_spec op 251) as [->|_]; [apply some_inj in Hdec; subst a'; flg Hf f_sti|].
    destruct (Z.eqb_spec op 252) as [->|_]; [apply some_inj in Hdec; subst a'; flg Hf f_cld|].
    destruct (Z.eqb_spec op 253) as [->|_]; [apply some_inj in Hdec; subst a'; flg Hf f_std|].
    destruct (Z.eqb_spec op 159) as [->|_].
    { apply some_inj in Hdec; subst a'. frs Hf.
      - unfold x_flag. xrun E base.
      - blia.
      - auto with flat.
      - apply wreg_ip.
      - unfold R_AX. change (0 + 4) with 4.
        replace (low 8 (Z.land (r_flags (ar s)) 255)) with (low 8 (r_flags (ar s))); [apply same_refl|].
        unfold low. change 255 with (Z.ones 8). rewrite Z.land_ones by lia. rewrite Z.mod_mod; lia. }
    destruct (Z.eqb_spec op 158) as [->|_]; [|repeat match type of Hdec with match ?x with _ => _ end = _ => destruct x; try discriminate Hdec end].
    apply some_inj in Hdec; subst a'. flg Hf f_sahf.
  - assert (op = 15 /\ op2 = 188) as [-> ->].
    { clear - Hdec. unfold step_misc in Hdec. destruct op as [|q|q]; try discriminate.
      do 4 (destruct q as [q|q|]; try discriminate Hdec).
      destruct op2 as [|q|q]; try discriminate. do 8 (destruct q as [q|q|]; try discriminate Hdec). auto. }
    cbn [step_misc] in Hdec. destruct (p_os p) eqn:Hos; [discriminate|].
    mrform0 Hf Hop Hdec. assert (Hw : osz p = 16) by (unfold osz; rewrite Hos; reflexivity).
    pose proof (rd_rm_range' E base _ 16 r F width16 Hrok) as Hrr.
    pose proof (bsf_ok _ Hrr) as Hb2. pose proof (instr_ctx2 _ _ _ _ _ _ _ _ Hf) as C2.
    destruct (lowest_bit (rd_rm 16 r (ar s))) as [i|]; apply some_inj in Hdec; subst a'.
    + destruct Hb2 as (Hl & Hi & Hnz). frs Hf.
      * unfold x_bsf. xs E base. rewrite Hw. xs E base.
        replace (rd_rm 16 r (ar s) =? 0) with false by lia. rewrite Hl. xrun E base.
      * blia.
      * auto with flat.
      * cbn [r_ip a_flags]. rewrite wr_m_ip. reflexivity.
      * rewrite (proj2 (proj2 (wr_m_fields base _ _ _ _))), f_clz. apply same_a_flags. eapply same_wr_m_reg; eauto with width; [unfold inrange; lia|apply same_refl].
    + rewrite Hb2 in *. frs Hf.
      * unfold x_bsf. xs E base. rewrite Hw. xs E base. rewrite Hb2. cbn [Z.eqb]. xrun E base.
      * blia.
      * auto with flat.
      * reflexivity.
      * rewrite f_stz. apply same_refl.
Qed.
End WithEnv.
