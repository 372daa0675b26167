(** The flag words built with [put] in Spec.v, read bit by bit. *)
From Verif Require Import Base Spec SpecOps SpecTop PBase.
Lemma flag_put j k b f : 0 <= j -> 0 <= k -> flag j (put k b f) = if j =? k then b else flag j f.
Proof.
  intros Hj Hk. unfold flag, put. destruct (Z.eqb_spec j k) as [->|Hne]; destruct b.
  - apply Z.setbit_eq; lia.
  - apply Z.clearbit_eq.
  - apply Z.setbit_neq; lia.
  - apply Z.clearbit_neq; lia.
Qed.
Lemma sign_top w v : 0 < w -> inrange w v -> (2 ^ (w - 1) <=? v) = Z.testbit v (w - 1).
Proof.
  intros Hw [H1 H2]. rewrite Z.testbit_eqb by lia.
  assert (E : 2 ^ w = 2 * 2 ^ (w - 1)) by (rewrite <- Z.pow_succ_r by lia; f_equal; lia).
  assert (P : 0 < 2 ^ (w - 1)) by (apply Z.pow_pos_nonneg; lia).
  destruct (Z.leb_spec (2 ^ (w - 1)) v) as [H|H].
  - assert (D : v / 2 ^ (w - 1) = 1). { symmetry; apply Z.div_unique with (v - 2 ^ (w - 1)); lia. } rewrite D. reflexivity.
  - rewrite Z.div_small by lia. reflexivity.
Qed.
Ltac flagw := repeat first [rewrite flag_put by lia | progress cbn [Z.eqb Pos.eqb]].
Ltac others := intros j Hj Hn; rewrite ?flag_put by lia;
  repeat match goal with |- context [j =? ?k] => destruct (Z.eqb_spec j k); [exfalso; apply Hn; subst; cbn; tauto|] end; reflexivity.
Lemma put_szp_flags w v f : 0 < w -> inrange w v -> result_flags w v (put_szp w v f).
Proof. intros Hw Hv. unfold result_flags, put_szp, even_parity. flagw. rewrite sign_top by auto. auto. Qed.
Lemma put6_flags cf af of_ w v f : 0 < w -> inrange w v -> arith_flags w v cf af of_ f (put6 cf af of_ w v f).
Proof.
  intros Hw Hv. unfold arith_flags, result_flags, put6, put_szp, even_parity. flagw. rewrite sign_top by auto. repeat split. others.
Qed.
Lemma logic_put w v f : 0 < w -> inrange w v -> logic_flags w v f (put CF false (put OF false (put_szp w v f))).
Proof. intros Hw Hv. unfold logic_flags, result_flags, put_szp, even_parity. flagw. rewrite sign_top by auto. repeat split. others. Qed.
Lemma incdec_put af of_ w v f : 0 < w -> inrange w v -> incdec_flags w v af of_ f (put AF af (put OF of_ (put_szp w v f))).
Proof. intros Hw Hv. unfold incdec_flags, result_flags, put_szp, even_parity. flagw. rewrite sign_top by auto. repeat split. others. Qed.
