(** Pure lemmas: shifts and rotates of Alu.v against one-bit steps. *)
From Verif Require Import Base Cpu Alu Ops Machine Spec SpecOps PBase PMem PRun PAlu.

Lemma iter_S {X} n (f : X -> X) x : Nat.iter (S n) f x = Nat.iter n f (f x).
Proof. induction n as [|n IH]; [reflexivity|]. change (f (Nat.iter (S n) f x) = f (Nat.iter n f (f x))). rewrite IH. reflexivity. Qed.
Lemma iter_out {X} n (f : X -> X) x : Nat.iter (S n) f x = f (Nat.iter n f x).
Proof. reflexivity. Qed.

(** ** Rotation of W bits *)
Definition rolW (W x : Z) : Z := (2 * x) mod 2 ^ W + x / 2 ^ (W - 1).
Definition rorW (W x : Z) : Z := x / 2 + (x mod 2) * 2 ^ (W - 1).

Lemma pow_split W : 0 < W -> 2 ^ W = 2 * 2 ^ (W - 1).
Proof. intros. replace W with (1 + (W - 1)) at 1 by lia. rewrite Z.pow_add_r by lia. reflexivity. Qed.
Lemma rolW_eq W x : 0 < W -> 0 <= x < 2 ^ W ->
  rolW W x = if x <? 2 ^ (W - 1) then 2 * x else 2 * x - 2 ^ W + 1.
Proof.
  intros HW Hx. unfold rolW. rewrite (pow_split W) in * by lia. set (h := 2 ^ (W - 1)) in *.
  assert (0 < h) by (unfold h; apply Z.pow_pos_nonneg; lia).
  destruct (Z.ltb_spec x h).
  - rewrite (Z.div_small x h) by lia. rewrite Z.mod_small by lia. lia.
  - replace (x / h) with 1 by (apply Z.div_unique with (x - h); lia).
    replace ((2 * x) mod (2 * h)) with (2 * x - 2 * h); [lia|].
    apply Z.mod_unique with 1; lia.
Qed.
Lemma rolW_range W x : 0 < W -> 0 <= x < 2 ^ W -> 0 <= rolW W x < 2 ^ W.
Proof.
  intros HW Hx. rewrite rolW_eq by auto. rewrite (pow_split W) in * by lia.
  destruct (Z.ltb_spec x (2 ^ (W - 1))); lia.
Qed.
Lemma testbit_high x W i : 0 <= x < 2 ^ W -> W <= i -> Z.testbit x i = false.
Proof.
  intros Hx Hi. destruct (Z.eq_dec x 0) as [->|]; [apply Z.bits_0|].
  apply Z.bits_above_log2; [lia|]. apply Z.log2_lt_pow2; [lia|].
  eapply Z.lt_le_trans; [apply Hx|]. apply Z.pow_le_mono_r; lia.
Qed.
Lemma rolW_bits W x i : 0 < W -> 0 <= x < 2 ^ W -> 0 <= i < W ->
  Z.testbit (rolW W x) i = Z.testbit x ((i - 1) mod W).
Proof.
  intros HW Hx Hi. rewrite rolW_eq by auto. rewrite (pow_split W) in * by lia. set (h := 2 ^ (W - 1)) in *.
  assert (Hh : 0 < h) by (unfold h; apply Z.pow_pos_nonneg; lia).
  destruct (Z.eq_dec i 0) as [->|Hi0].
  - replace ((0 - 1) mod W) with (W - 1) by (apply Z.mod_unique with (-1); lia).
    rewrite Z.bit0_odd.
    destruct (Z.ltb_spec x h).
    + rewrite (testbit_high x (W - 1)) by (fold h; lia).
      rewrite Z.odd_mul. reflexivity.
    + replace (2 * x - 2 * h + 1) with (1 + 2 * (x - h)) by lia.
      rewrite Z.odd_add_mul_2. cbn. symmetry.
      replace x with (x - h + 1 * h) by lia.
      rewrite Z.testbit_true by lia. fold h.
      rewrite Z.div_add by lia. rewrite Z.div_small by lia. reflexivity.
  - rewrite (Z.mod_small (i - 1)) by lia.
    assert (Hd : forall y, Z.testbit y i = Z.testbit (y / 2) (i - 1)).
    { intros y. rewrite <- Z.div2_div.
      rewrite Z.div2_spec, Z.shiftr_spec by lia. f_equal; lia. }
    rewrite Hd.
    replace ((if x <? h then 2 * x else 2 * x - 2 * h + 1) / 2) with (if x <? h then x else x - h)
      by (destruct (Z.ltb_spec x h); lia).
    destruct (Z.ltb_spec x h); [reflexivity|].
    rewrite !Z.testbit_eqb by lia.
    replace h with (2 ^ (W - 1 - (i - 1)) * 2 ^ (i - 1)) at 1
      by (unfold h; rewrite <- Z.pow_add_r by lia; f_equal; lia).
    replace (x - 2 ^ (W - 1 - (i - 1)) * 2 ^ (i - 1)) with (x + (- 2 ^ (W - 1 - (i - 1))) * 2 ^ (i - 1)) by lia.
    rewrite Z.div_add by (apply Z.pow_nonzero; lia).
    replace (2 ^ (W - 1 - (i - 1))) with (2 * 2 ^ (W - 1 - i))
      by (rewrite <- (Z.pow_succ_r 2) by lia; f_equal; lia).
    f_equal. replace (- (2 * 2 ^ (W - 1 - i))) with ((- 2 ^ (W - 1 - i)) * 2) by lia.
    apply Z.mod_add. lia.
Qed.
Lemma rol_iter W n x : 0 < W -> 0 <= x < 2 ^ W ->
  0 <= Nat.iter n (rolW W) x < 2 ^ W /\
  forall i, 0 <= i < W -> Z.testbit (Nat.iter n (rolW W) x) i = Z.testbit x ((i - Z.of_nat n) mod W).
Proof.
  intros HW Hx. induction n as [|n [IH1 IH2]].
  - split; [exact Hx|]. intros i Hi. cbn [Nat.iter nat_rect]. rewrite Z.mod_small by lia. f_equal. lia.
  - rewrite iter_out. split; [apply rolW_range; auto|]. intros i Hi.
    rewrite rolW_bits by auto. rewrite IH2 by (apply Z.mod_pos_bound; lia).
    rewrite Zminus_mod_idemp_l. f_equal. f_equal. lia.
Qed.
Lemma rorW_range W x : 0 < W -> 0 <= x < 2 ^ W -> 0 <= rorW W x < 2 ^ W.
Proof.
  intros HW Hx. unfold rorW. rewrite (pow_split W) in * by lia.
  set (h := 2 ^ (W - 1)) in *. assert (0 < h) by (unfold h; apply Z.pow_pos_nonneg; lia).
  assert (x mod 2 = 0 \/ x mod 2 = 1) as [->| ->] by lia; lia.
Qed.
Lemma rolW_rorW W x : 0 < W -> 0 <= x < 2 ^ W -> rolW W (rorW W x) = x.
Proof.
  intros HW Hx. rewrite rolW_eq by (auto using rorW_range). unfold rorW. rewrite (pow_split W) in * by lia.
  set (h := 2 ^ (W - 1)) in *. assert (0 < h) by (unfold h; apply Z.pow_pos_nonneg; lia).
  assert (x mod 2 = 0 \/ x mod 2 = 1) as [E| E] by lia; rewrite E.
  - replace (x / 2 + 0 * h <? h) with true by lia. lia.
  - replace (x / 2 + 1 * h <? h) with false by lia. lia.
Qed.
Lemma rorW_bits W x i : 0 < W -> 0 <= x < 2 ^ W -> 0 <= i < W ->
  Z.testbit (rorW W x) i = Z.testbit x ((i + 1) mod W).
Proof.
  intros HW Hx Hi. pose proof (rolW_bits W (rorW W x) ((i + 1) mod W) HW (rorW_range W x HW Hx)
    (Z.mod_pos_bound _ _ HW)) as H.
  rewrite rolW_rorW in H by auto. rewrite H. rewrite Zminus_mod_idemp_l.
  replace (i + 1 - 1) with i by lia. rewrite Z.mod_small by lia. reflexivity.
Qed.
Lemma ror_iter W n x : 0 < W -> 0 <= x < 2 ^ W ->
  0 <= Nat.iter n (rorW W) x < 2 ^ W /\
  forall i, 0 <= i < W -> Z.testbit (Nat.iter n (rorW W) x) i = Z.testbit x ((i + Z.of_nat n) mod W).
Proof.
  intros HW Hx. induction n as [|n [IH1 IH2]].
  - split; [exact Hx|]. intros i Hi. cbn [Nat.iter nat_rect]. rewrite Z.mod_small by lia. f_equal. lia.
  - rewrite iter_out. split; [apply rorW_range; auto|]. intros i Hi.
    rewrite rorW_bits by auto. rewrite IH2 by (apply Z.mod_pos_bound; lia).
    rewrite Zplus_mod_idemp_l. f_equal. f_equal. lia.
Qed.
(** Two W-bit numbers with the same bits. *)
Lemma bits_eqW W x y : 0 <= x < 2 ^ W -> 0 <= y < 2 ^ W ->
  (forall i, 0 <= i < W -> Z.testbit x i = Z.testbit y i) -> x = y.
Proof.
  intros Hx Hy H. apply Z.bits_inj'. intros i Hi.
  destruct (Z.lt_ge_cases i W); [apply H; lia|]. rewrite !(testbit_high _ W) by lia. reflexivity.
Qed.
Lemma rol_period W n x : 0 < W -> 0 <= x < 2 ^ W ->
  Nat.iter n (rolW W) x = Nat.iter (Z.to_nat (Z.of_nat n mod W)) (rolW W) x.
Proof.
  intros HW Hx. destruct (rol_iter W n x HW Hx) as [A1 A2].
  destruct (rol_iter W (Z.to_nat (Z.of_nat n mod W)) x HW Hx) as [B1 B2].
  apply (bits_eqW W); auto. intros i Hi. rewrite A2, B2 by auto.
  pose proof (Z.mod_pos_bound (Z.of_nat n) W HW). rewrite Z2Nat.id by lia.
  rewrite Zminus_mod_idemp_r. reflexivity.
Qed.
Lemma ror_period W n x : 0 < W -> 0 <= x < 2 ^ W ->
  Nat.iter n (rorW W) x = Nat.iter (Z.to_nat (Z.of_nat n mod W)) (rorW W) x.
Proof.
  intros HW Hx. destruct (ror_iter W n x HW Hx) as [A1 A2].
  destruct (ror_iter W (Z.to_nat (Z.of_nat n mod W)) x HW Hx) as [B1 B2].
  apply (bits_eqW W); auto. intros i Hi. rewrite A2, B2 by auto.
  pose proof (Z.mod_pos_bound (Z.of_nat n) W HW). rewrite Z2Nat.id by lia.
  rewrite Zplus_mod_idemp_r. reflexivity.
Qed.

(** ** The one-bit steps *)
Lemma width_pos w : width w -> 0 < w.
Proof. intros [-> | [-> | ->]]; lia. Qed.
Lemma odd_mod2 x : b2z (Z.odd x) = x mod 2.
Proof. rewrite Zmod_odd. destruct (Z.odd x); reflexivity. Qed.
Lemma top_div w v : width w -> inrange w v -> b2z (top w v) = v / 2 ^ (w - 1).
Proof.
  intros Hw Hv. unfold top, inrange, b2z in *. widths Hw;
  match goal with |- (if ?b then _ else _) = _ => destruct b eqn:? end; lia.
Qed.
Lemma top_bit w v : width w -> inrange w v -> top w v = Z.testbit v (w - 1).
Proof. intros. rewrite bit_msb by auto. reflexivity. Qed.
Lemma odd_bit v : Z.odd v = Z.testbit v 0.
Proof. symmetry. apply Z.bit0_odd. Qed.

Lemma shift1_rol w v c : width w -> inrange w v ->
  shift1 0 w (v, c) = (rolW w v, Z.testbit (rolW w v) 0).
Proof.
  intros Hw Hv. pose proof (width_pos w Hw). cbn [shift1]. f_equal.
  - rewrite top_div by auto. reflexivity.
  - rewrite rolW_bits by (auto; lia). rewrite top_bit by auto. f_equal.
    apply Z.mod_unique with (-1); lia.
Qed.
Lemma shift1_ror w v c : width w -> inrange w v ->
  shift1 1 w (v, c) = (rorW w v, Z.testbit (rorW w v) (w - 1)).
Proof.
  intros Hw Hv. pose proof (width_pos w Hw). cbn [shift1]. f_equal.
  - rewrite odd_mod2. reflexivity.
  - rewrite rorW_bits by (auto; lia). rewrite odd_bit. f_equal.
    replace (w - 1 + 1) with w by lia. rewrite Z.mod_same by lia. reflexivity.
Qed.
Lemma shiftn_rol w n v c : width w -> inrange w v ->
  Nat.iter n (shift1 0 w) (v, c) =
  (Nat.iter n (rolW w) v, match n with O => c | _ => Z.testbit (Nat.iter n (rolW w) v) 0 end).
Proof.
  intros Hw Hv. induction n as [|n IH]; [reflexivity|].
  rewrite !iter_out, IH. apply shift1_rol; auto. apply rol_iter; auto using width_pos.
Qed.
Lemma shiftn_ror w n v c : width w -> inrange w v ->
  Nat.iter n (shift1 1 w) (v, c) =
  (Nat.iter n (rorW w) v, match n with O => c | _ => Z.testbit (Nat.iter n (rorW w) v) (w - 1) end).
Proof.
  intros Hw Hv. induction n as [|n IH]; [reflexivity|].
  rewrite !iter_out, IH. apply shift1_ror; auto. apply ror_iter; auto using width_pos.
Qed.

(** Model ROL/ROR. *)
Lemma tb_wrap w x i : 0 <= w -> 0 <= i -> Z.testbit (wrap w x) i = (i <? w) && Z.testbit x i.
Proof.
  intros Hw Hi. unfold wrap. destruct (Z.ltb_spec i w).
  - rewrite Z.mod_pow2_bits_low by lia. reflexivity.
  - rewrite Z.mod_pow2_bits_high by lia. reflexivity.
Qed.
Lemma sh_rol_val w d amt : width w -> inrange w d -> 0 < amt < w ->
  wrap w (Z.lor (d * 2 ^ amt) (d / 2 ^ (w - amt))) = Nat.iter (Z.to_nat amt) (rolW w) d.
Proof.
  intros Hw Hd Ha. pose proof (width_pos w Hw) as Hp.
  destruct (rol_iter w (Z.to_nat amt) d Hp Hd) as [H1 H2].
  apply (bits_eqW w); [apply wrap_range; lia|exact H1|]. intros i Hi. rewrite H2 by auto.
  rewrite Z2Nat.id by lia. rewrite tb_wrap by lia. replace (i <? w) with true by lia. cbn [andb].
  rewrite Z.lor_spec, Z.mul_pow2_bits by lia. rewrite Z.div_pow2_bits by lia.
  destruct (Z.lt_ge_cases i amt).
  - rewrite Z.testbit_neg_r by lia. cbn [orb]. f_equal. apply Z.mod_unique with (-1); lia.
  - rewrite (testbit_high d w (i + (w - amt))) by (auto; lia). rewrite orb_false_r.
    rewrite Z.mod_small by lia. reflexivity.
Qed.
Lemma sh_ror_val w d amt : width w -> inrange w d -> 0 < amt < w ->
  wrap w (Z.lor (d / 2 ^ amt) (d * 2 ^ (w - amt))) = Nat.iter (Z.to_nat amt) (rorW w) d.
Proof.
  intros Hw Hd Ha. pose proof (width_pos w Hw) as Hp.
  destruct (ror_iter w (Z.to_nat amt) d Hp Hd) as [H1 H2].
  apply (bits_eqW w); [apply wrap_range; lia|exact H1|]. intros i Hi. rewrite H2 by auto.
  rewrite Z2Nat.id by lia. rewrite tb_wrap by lia. replace (i <? w) with true by lia. cbn [andb].
  rewrite Z.lor_spec, Z.mul_pow2_bits by lia. rewrite Z.div_pow2_bits by lia.
  destruct (Z.lt_ge_cases (i + amt) w).
  - rewrite (Z.testbit_neg_r d (i - (w - amt))) by lia. rewrite orb_false_r.
    rewrite Z.mod_small by lia. reflexivity.
  - rewrite (testbit_high d w (i + amt)) by (auto; lia). cbn [orb]. f_equal.
    apply Z.mod_unique with 1; lia.
Qed.

(** RCL/RCR as rotations of w+1 bits. *)
Definition enc (w : Z) (x : Z * bool) : Z := fst x + b2z (snd x) * 2 ^ w.
Lemma enc_inj w v c v' c' : inrange w v -> inrange w v' -> enc w (v, c) = enc w (v', c') ->
  (v, c) = (v', c').
Proof.
  unfold inrange, enc, b2z; cbn [fst snd]. intros. set (h := 2 ^ w) in *.
  destruct c, c'; f_equal; try lia; exfalso; lia.
Qed.
Lemma enc_range w v c : width w -> inrange w v -> 0 <= enc w (v, c) < 2 ^ (w + 1).
Proof.
  intros Hw Hv. unfold enc, inrange, b2z in *; cbn [fst snd].
  replace (2 ^ (w + 1)) with (2 * 2 ^ w) by (rewrite Z.pow_add_r by (apply width_pos in Hw; lia); lia).
  destruct c; lia.
Qed.
Lemma shift1_range op w x : width w -> inrange w (fst x) -> inrange w (fst (shift1 op w x)).
Proof.
  intros Hw Hv. destruct x as [v c]. cbn [fst] in Hv.
  assert (HH : forall b : bool, inrange w (low w (2 * v) + b2z b)).
  { intros b. unfold inrange, low, b2z in *. widths Hw; destruct b; lia. }
  assert (HK : forall b : bool, inrange w (v / 2 + b2z b * 2 ^ (w - 1))).
  { intros b. unfold inrange, low, b2z in *. widths Hw; destruct b; lia. }
  assert (HL : inrange w (v / 2)) by (unfold inrange in *; widths Hw; lia).
  unfold shift1. destruct op as [|[[[]|[]|]|[[]|[]|]|]|]; cbn [fst]; auto using low_range.
Qed.
Lemma shiftn_range op w n x : width w -> inrange w (fst x) ->
  inrange w (fst (Nat.iter n (shift1 op w) x)).
Proof.
  intros Hw Hx. induction n as [|n IH]; [exact Hx|]. rewrite iter_out. apply shift1_range; auto.
Qed.
Lemma enc_rcl w v c : width w -> inrange w v ->
  enc w (shift1 2 w (v, c)) = rolW (w + 1) (enc w (v, c)).
Proof.
  intros Hw Hv. pose proof (width_pos w Hw). rewrite rolW_eq by (auto using enc_range; lia).
  unfold enc, inrange in *; cbn [fst snd shift1]. unfold top, low, b2z.
  replace (w + 1 - 1) with w by lia.
  replace (2 ^ (w + 1)) with (2 * 2 ^ w) by (rewrite Z.pow_add_r by lia; lia).
  widths Hw; destruct c; cbv iota;
  match goal with |- context [if ?b then 1 else 0] => destruct b eqn:? end;
  match goal with |- context [if ?b then _ else _] => destruct b eqn:? end; lia.
Qed.
Lemma enc_rcr w v c : width w -> inrange w v ->
  enc w (shift1 3 w (v, c)) = rorW (w + 1) (enc w (v, c)).
Proof.
  intros Hw Hv. pose proof (width_pos w Hw). unfold rorW.
  unfold enc, inrange in *; cbn [fst snd shift1].
  rewrite odd_mod2. replace (w + 1 - 1) with w by lia.
  unfold b2z. widths Hw; destruct c; lia.
Qed.
Lemma enc_rcl_n w n v c : width w -> inrange w v ->
  enc w (Nat.iter n (shift1 2 w) (v, c)) = Nat.iter n (rolW (w + 1)) (enc w (v, c)).
Proof.
  intros Hw Hv. induction n as [|n IH]; [reflexivity|]. rewrite !iter_out, <- IH.
  pose proof (shiftn_range 2 w n (v, c) Hw Hv).
  destruct (Nat.iter n (shift1 2 w) (v, c)) as [v' c']. apply enc_rcl; auto.
Qed.
Lemma enc_rcr_n w n v c : width w -> inrange w v ->
  enc w (Nat.iter n (shift1 3 w) (v, c)) = Nat.iter n (rorW (w + 1)) (enc w (v, c)).
Proof.
  intros Hw Hv. induction n as [|n IH]; [reflexivity|]. rewrite !iter_out, <- IH.
  pose proof (shiftn_range 3 w n (v, c) Hw Hv).
  destruct (Nat.iter n (shift1 3 w) (v, c)) as [v' c']. apply enc_rcr; auto.
Qed.
Lemma rcl_period w n v c : width w -> inrange w v ->
  Nat.iter n (shift1 2 w) (v, c) = Nat.iter (Z.to_nat (Z.of_nat n mod (w + 1))) (shift1 2 w) (v, c).
Proof.
  intros Hw Hv. pose proof (width_pos w Hw).
  assert (He : enc w (Nat.iter n (shift1 2 w) (v, c)) =
               enc w (Nat.iter (Z.to_nat (Z.of_nat n mod (w + 1))) (shift1 2 w) (v, c))).
  { rewrite !enc_rcl_n by auto. apply rol_period; [lia|]. apply enc_range; auto. }
  revert He.
  pose proof (shiftn_range 2 w n (v, c) Hw Hv) as A.
  pose proof (shiftn_range 2 w (Z.to_nat (Z.of_nat n mod (w + 1))) (v, c) Hw Hv) as B.
  destruct (Nat.iter n (shift1 2 w) (v, c)). destruct (Nat.iter _ (shift1 2 w) (v, c)).
  apply enc_inj; auto.
Qed.
Lemma rcr_period w n v c : width w -> inrange w v ->
  Nat.iter n (shift1 3 w) (v, c) = Nat.iter (Z.to_nat (Z.of_nat n mod (w + 1))) (shift1 3 w) (v, c).
Proof.
  intros Hw Hv. pose proof (width_pos w Hw).
  assert (He : enc w (Nat.iter n (shift1 3 w) (v, c)) =
               enc w (Nat.iter (Z.to_nat (Z.of_nat n mod (w + 1))) (shift1 3 w) (v, c))).
  { rewrite !enc_rcr_n by auto. apply ror_period; [lia|]. apply enc_range; auto. }
  revert He.
  pose proof (shiftn_range 3 w n (v, c) Hw Hv) as A.
  pose proof (shiftn_range 3 w (Z.to_nat (Z.of_nat n mod (w + 1))) (v, c) Hw Hv) as B.
  destruct (Nat.iter n (shift1 3 w) (v, c)). destruct (Nat.iter _ (shift1 3 w) (v, c)).
  apply enc_inj; auto.
Qed.
Lemma lor_low x (b : bool) : Z.lor (x * 2) (Z.b2z b) = 2 * x + b2z b.
Proof.
  replace (x * 2) with (2 * x) by lia. destruct b; [|rewrite Z.lor_0_r; cbn; lia].
  change (Z.b2z true) with 1. apply Z.bits_inj'. intros i Hi. rewrite Z.lor_spec.
  cbn [b2z]. destruct (Z.eq_dec i 0) as [->|].
  - rewrite Z.testbit_odd_0, orb_true_r. reflexivity.
  - replace i with (Z.succ (i - 1)) by lia. rewrite Z.testbit_odd_succ, Z.testbit_even_succ by lia.
    rewrite (testbit_high 1 1) by lia. apply orb_false_r.
Qed.
Lemma rcl_loop_ok n w v c : width w -> inrange w v ->
  rcl_loop n w v c = Nat.iter n (shift1 2 w) (v, c).
Proof.
  intros Hw. revert v c. induction n as [|n IH]; intros v c Hv; [reflexivity|].
  rewrite iter_S. cbn [rcl_loop shift1]. rewrite lor_low.
  replace (wrap w (2 * v + b2z c)) with (low w (2 * v) + b2z c).
  2:{ unfold low, wrap, inrange, b2z in *. widths Hw; destruct c; lia. }
  rewrite msb_ok by auto. apply IH.
  change (inrange w (fst (shift1 2 w (v, c)))). apply shift1_range; auto.
Qed.
Lemma lor_add_disj a b : Z.land a b = 0 -> Z.lor a b = a + b.
Proof. intros H. rewrite <- Z.lxor_lor, <- Z.add_nocarry_lxor by auto. reflexivity. Qed.
Lemma rcr_loop_ok n w v c : width w -> inrange w v ->
  rcr_loop n w v c = Nat.iter n (shift1 3 w) (v, c).
Proof.
  intros Hw. revert v c. induction n as [|n IH]; intros v c Hv; [reflexivity|].
  pose proof (width_pos w Hw).
  rewrite iter_S. cbn [rcr_loop shift1]. rewrite lor_add_disj.
  2:{ apply Z.bits_inj'. intros i Hi. rewrite Z.bits_0, Z.land_spec.
      destruct c; [|cbn [Z.b2z]; rewrite Z.mul_0_l, Z.bits_0; apply andb_false_r].
      cbn [Z.b2z]. rewrite Z.mul_1_l. rewrite Z.pow2_bits_eqb by lia.
      destruct (Z.eqb_spec (w - 1) i); [|apply andb_false_r].
      rewrite (testbit_high (v / 2) (w - 1)); [reflexivity| |lia].
      unfold inrange in Hv. rewrite (pow_split w) in Hv by lia. lia. }
  replace (wrap w (v / 2 + Z.b2z c * 2 ^ (w - 1))) with (v / 2 + b2z c * 2 ^ (w - 1)).
  2:{ unfold wrap, inrange, b2z in *. widths Hw; destruct c; cbn [Z.b2z]; lia. }
  rewrite odd_bit. apply IH.
  change (inrange w (fst (shift1 3 w (v, c)))). apply shift1_range; auto.
Qed.

(** Shifts: closed forms. *)
Lemma shiftn_shl w n v c : width w -> inrange w v ->
  Nat.iter n (shift1 4 w) (v, c) =
  (low w (v * 2 ^ Z.of_nat n), match n with O => c | _ => Z.testbit v (w - Z.of_nat n) end).
Proof.
  intros Hw Hv. pose proof (width_pos w Hw). induction n as [|n IH].
  - cbn [Nat.iter nat_rect]. f_equal. change (2 ^ Z.of_nat 0) with 1. rewrite Z.mul_1_r.
    unfold low, inrange in *. rewrite Z.mod_small; auto.
  - rewrite iter_out, IH. unfold shift1. f_equal.
    + unfold low. rewrite Z.mul_mod_idemp_r by (apply Z.pow_nonzero; lia).
      rewrite Nat2Z.inj_succ, Z.pow_succ_r by lia. f_equal. lia.
    + rewrite top_bit by (auto using low_range). unfold low.
      rewrite Z.mod_pow2_bits_low by lia. rewrite Z.mul_pow2_bits by lia. f_equal. lia.
Qed.
Lemma shiftn_shr w n v c : width w -> inrange w v ->
  Nat.iter n (shift1 5 w) (v, c) =
  (v / 2 ^ Z.of_nat n, match n with O => c | _ => Z.testbit v (Z.of_nat n - 1) end).
Proof.
  intros Hw Hv. pose proof (width_pos w Hw). induction n as [|n IH].
  - cbn [Nat.iter nat_rect]. f_equal. change (2 ^ Z.of_nat 0) with 1. rewrite Z.div_1_r. reflexivity.
  - rewrite iter_out, IH. unfold shift1. f_equal.
    + rewrite Nat2Z.inj_succ, Z.pow_succ_r by lia. rewrite Z.div_div by (try lia; apply Z.pow_pos_nonneg; lia).
      f_equal. lia.
    + rewrite odd_bit, Z.div_pow2_bits by lia. f_equal. lia.
Qed.
Lemma signed_range w v : width w -> inrange w v -> - 2 ^ (w - 1) <= signed w v < 2 ^ (w - 1).
Proof.
  intros Hw Hv. unfold signed, inrange in *.
  widths Hw; match goal with |- context [if ?b then _ else _] => destruct b eqn:? end; lia.
Qed.
Lemma signed_low w y : width w -> - 2 ^ (w - 1) <= y < 2 ^ (w - 1) -> signed w (low w y) = y.
Proof.
  intros Hw Hv. unfold signed, low, inrange in *.
  widths Hw; match goal with |- context [if ?b then _ else _] => destruct b eqn:? end; lia.
Qed.
Lemma low_signed w v : width w -> inrange w v -> low w (signed w v) = v.
Proof.
  intros Hw Hv. unfold signed, low, inrange in *.
  widths Hw; match goal with |- context [if ?b then _ else _] => destruct b eqn:? end; lia.
Qed.
Lemma div_range_s x n b : 0 < b -> 0 <= n -> - b <= x < b -> - b <= x / 2 ^ n < b.
Proof.
  intros Hb Hn Hx. assert (0 < 2 ^ n) by (apply Z.pow_pos_nonneg; lia). split.
  - apply Z.div_le_lower_bound; nia.
  - apply Z.div_lt_upper_bound; nia.
Qed.
Lemma shiftn_sar w n v c : width w -> inrange w v ->
  Nat.iter n (shift1 7 w) (v, c) =
  (low w (signed w v / 2 ^ Z.of_nat n),
   match n with O => c | _ => Z.testbit (signed w v) (Z.of_nat n - 1) end).
Proof.
  intros Hw Hv. pose proof (width_pos w Hw). induction n as [|n IH].
  - cbn [Nat.iter nat_rect]. f_equal. change (2 ^ Z.of_nat 0) with 1. rewrite Z.div_1_r.
    rewrite low_signed by auto. reflexivity.
  - rewrite iter_out, IH. unfold shift1. pose proof (signed_range w v Hw Hv) as Hs.
    assert (0 < 2 ^ (w - 1)) by (apply Z.pow_pos_nonneg; lia).
    rewrite signed_low by (auto; apply div_range_s; lia). f_equal.
    + rewrite Nat2Z.inj_succ, Z.pow_succ_r by lia. rewrite Z.div_div by (try lia; apply Z.pow_pos_nonneg; lia).
      f_equal. f_equal. lia.
    + rewrite odd_bit. unfold low. rewrite Z.mod_pow2_bits_low by lia. rewrite Z.div_pow2_bits by lia. f_equal. lia.
Qed.
Lemma signed_bit w v i : width w -> inrange w v -> 0 <= i ->
  Z.testbit (signed w v) i = if i <? w then Z.testbit v i else top w v.
Proof.
  intros Hw Hv Hi. pose proof (width_pos w Hw). unfold signed, top.
  destruct (Z.ltb_spec v (2 ^ (w - 1))) as [H1|H1].
  - replace (2 ^ (w - 1) <=? v) with false by lia.
    destruct (Z.ltb_spec i w); [reflexivity|]. apply (testbit_high v w); auto.
  - replace (2 ^ (w - 1) <=? v) with true by lia.
    destruct (Z.ltb_spec i w).
    + rewrite <- (Z.mod_pow2_bits_low (v - 2 ^ w) w i) by lia.
      rewrite <- (Z.mod_pow2_bits_low v w i) by lia. f_equal.
      replace (v - 2 ^ w) with (v + (-1) * 2 ^ w) by lia.
      rewrite Z.mod_add by (apply Z.pow_nonzero; lia). reflexivity.
    + replace (v - 2 ^ w) with (Z.lnot (2 ^ w - 1 - v)) by (unfold Z.lnot; lia).
      rewrite Z.lnot_spec by lia. rewrite (testbit_high _ w); auto.
      unfold inrange in Hv. lia.
Qed.

(** ** Flags *)
Lemma rot_flags c o f : fset o M_OF (fset c M_CF (fclear (M_OF + M_CF) f)) = put CF c (put OF o f).
Proof. destruct c, o; flags_eq. Qed.
Lemma rot_flags' c o f : fset c M_CF (fset o M_OF (fclear (M_OF + M_CF) f)) = put CF c (put OF o f).
Proof. destruct c, o; flags_eq. Qed.
Lemma shf_flags w v c o f : width w -> inrange w v ->
  set_comm w v (fset o M_OF (fset c M_CF (fclear (M_OF + M_CF) f))) = put CF c (put OF o (put_szp w v f)).
Proof.
  intros. rewrite set_comm_ok by auto. rewrite rot_flags. unfold put_szp. flags_eq.
Qed.
Lemma shf_flags0 w v f : width w -> inrange w v ->
  set_comm w v (fclear (M_OF + M_CF) f) = put CF false (put OF false (put_szp w v f)).
Proof. intros. rewrite <- shf_flags by auto. reflexivity. Qed.

Lemma shift_n_0 op w d c : shift_n op w 0 d c = (d, c).
Proof. reflexivity. Qed.
Lemma put_same_cf f : put CF (flag CF f) f = f.
Proof. unfold flag. apply Z.bits_inj'; intros i Hi. rewrite tb_put by lia. destruct (Z.eqb_spec i 0); subst; reflexivity. Qed.
Lemma put_same_of f : put OF (flag OF f) f = f.
Proof. unfold flag. apply Z.bits_inj'; intros i Hi. rewrite tb_put by lia. destruct (Z.eqb_spec i 11); subst; reflexivity. Qed.

Lemma cf_flag f : ftest M_CF f = flag CF f.
Proof. exact (ftest_bit 0 f ltac:(lia)). Qed.

Lemma sar_val w d amt : width w -> inrange w d -> 0 < amt < w ->
  wrap w (Z.lor (d / 2 ^ amt) (if msb w d then wrap 32 (4294967295 * 2 ^ (w - amt)) else 0)) =
  low w (signed w d / 2 ^ amt).
Proof.
  intros Hw Hd Ha. pose proof (width_pos w Hw) as Hp. change low with wrap.
  assert (w <= 32) by (destruct Hw as [-> | [-> | ->]]; lia).
  apply (bits_eqW w); [apply wrap_range; lia|apply wrap_range; lia|]. intros i Hi.
  rewrite !tb_wrap by lia. replace (i <? w) with true by lia. cbn [andb].
  rewrite Z.lor_spec, !Z.div_pow2_bits by lia. rewrite signed_bit by (auto; lia).
  rewrite msb_ok by auto. fold (top w d).
  assert (Hm : Z.testbit (if top w d then wrap 32 (4294967295 * 2 ^ (w - amt)) else 0) i =
               top w d && (w - amt <=? i)).
  { destruct (top w d); [|apply Z.bits_0]. rewrite tb_wrap by lia. replace (i <? 32) with true by lia.
    cbn [andb]. rewrite Z.mul_pow2_bits by lia. destruct (Z.leb_spec (w - amt) i).
    - change 4294967295 with (Z.ones 32). rewrite Z.ones_spec_low by lia. reflexivity.
    - apply Z.testbit_neg_r. lia. }
  rewrite Hm. destruct (Z.ltb_spec (i + amt) w).
  - replace (w - amt <=? i) with false by lia. rewrite andb_false_r, orb_false_r. reflexivity.
  - replace (w - amt <=? i) with true by lia. rewrite (testbit_high d w) by (auto; lia).
    rewrite andb_true_r. reflexivity.
Qed.
Lemma low_id' w x : inrange w x -> low w x = x.
Proof. exact (wrap_small w x). Qed.
Lemma match_to_nat {X} n (a b : X) : 0 < n -> match Z.to_nat n with O => a | S _ => b end = b.
Proof. intros. destruct (Z.to_nat n) eqn:Heq; [lia|reflexivity]. Qed.

Lemma shift_pure op w cnt d f : width w -> inrange w d -> 0 <= op < 8 ->
  shift_count_ok op w cnt ->
  exists o, shift_of_ok op w cnt d f o /\
  let amt := sh_amount op w cnt in
  (cnt mod 32 = 0 -> amt = 0) /\
  (cnt mod 32 <> 0 -> 
   if amt =? 0 then spec_shift op w cnt d f o = (d, f)
   else sh_apply op w d amt f = Some (spec_shift op w cnt d f o)).
Proof.
  intros Hw Hd Hop Hc. pose proof (width_pos w Hw) as Hp.
  assert (Hw32 : 8 <= w <= 32) by (destruct Hw as [-> | [-> | ->]]; lia).
  assert (Hn : 0 <= cnt mod 32 < 32) by lia.
  unfold spec_shift, shift_of_ok, shift_n. set (n := cnt mod 32) in *.
  destruct (Z.eq_dec n 0) as [H0|H0].
  { exists false. split; [lia|]. cbv zeta. split; [|lia]. intros _.
    unfold sh_amount. fold n. rewrite H0.
    destruct op as [|[[[]|[]|]|[[]|[]|]|]|]; rewrite ?Z.mod_0_l by lia; reflexivity. }
  replace (n =? 0) with false by lia.
  assert (Hn1 : forall (X : Type) (u v : X), match Z.to_nat n with O => u | S _ => v end = v)
    by (intros; apply match_to_nat; lia).
  assert (op = 0 \/ op = 1 \/ op = 2 \/ op = 3 \/ op = 4 \/ op = 5 \/ op = 6 \/ op = 7) as Hcase by lia.
  destruct Hcase as [->|[->|[->|[->|[->|[->|[->| ->]]]]]]]; cbn [shift_count_ok] in Hc; fold n in Hc;
  cbn [Z.ltb Z.compare Pos.compare Pos.compare_cont shift_of sh_amount sh_apply]; fold n.
  - (* ROL *)
    specialize (Hc H0). pose proof (Z.mod_pos_bound n w Hp).
    rewrite (shiftn_rol w (Z.to_nat n)), Hn1 by auto. rewrite (rol_period w (Z.to_nat n)), Z2Nat.id by (auto; lia).
    set (v := Nat.iter (Z.to_nat (n mod w)) (rolW w) d).
    assert (Hv : inrange w v) by (apply rol_iter; auto).
    exists (xorb (msb w v) (Z.testbit v 0)). split; [|cbv zeta; split; [lia|]].
    + intros H1. change (Z.to_nat 1) with 1%nat. rewrite shiftn_rol by auto.
      rewrite msb_ok by auto. fold (top w v). unfold v. rewrite H1.
      rewrite Z.mod_small by (destruct Hw as [-> | [-> | ->]]; lia). reflexivity.
    + intros _. replace (n mod w =? 0) with false by lia.
      unfold sh_rol. rewrite sh_rol_val by (auto; lia). fold v. rewrite rot_flags. reflexivity.
  - (* ROR *)
    specialize (Hc H0). pose proof (Z.mod_pos_bound n w Hp).
    rewrite (shiftn_ror w (Z.to_nat n)), Hn1 by auto. rewrite (ror_period w (Z.to_nat n)), Z2Nat.id by (auto; lia).
    set (v := Nat.iter (Z.to_nat (n mod w)) (rorW w) d).
    assert (Hv : inrange w v) by (apply ror_iter; auto).
    exists (xorb (msb w v) (Z.testbit v (w - 2))). split; [|cbv zeta; split; [lia|]].
    + intros H1. change (Z.to_nat 1) with 1%nat. rewrite shiftn_ror by auto.
      rewrite msb_ok by auto. fold (top w v). unfold v. rewrite H1.
      rewrite Z.mod_small by (destruct Hw as [-> | [-> | ->]]; lia). reflexivity.
    + intros _. replace (n mod w =? 0) with false by lia.
      unfold sh_ror. rewrite sh_ror_val by (auto; lia). fold v. 
      change (Z.testbit v (w - 1)) with (msb w v). rewrite rot_flags. reflexivity.
  - (* RCL *)
    rewrite (rcl_period w (Z.to_nat n)), Z2Nat.id by (auto; lia).
    pose proof (Z.mod_pos_bound n (w + 1) ltac:(lia)).
    destruct (Z.eqb_spec (n mod (w + 1)) 0) as [Hm|Hm].
    + rewrite Hm. cbn [Z.to_nat Nat.iter nat_rect]. exists (flag OF f). split; [|cbv zeta; split; [lia|]].
      * intros H1. rewrite H1 in Hm. rewrite Z.mod_small in Hm by lia. lia.
      * intros _. change (Z.to_nat 0) with O. cbn [Nat.iter nat_rect]. rewrite put_same_of, put_same_cf. reflexivity.
    + destruct (Nat.iter (Z.to_nat (n mod (w + 1))) (shift1 2 w) (d, flag CF f)) as [v c] eqn:Hit.
      assert (Hv : inrange w v).
      { pose proof (shiftn_range 2 w (Z.to_nat (n mod (w + 1))) (d, flag CF f) Hw Hd) as Hx.
        rewrite Hit in Hx. exact Hx. }
      exists (xorb c (msb w v)). split; [|cbv zeta; split; [lia|]].
      * intros H1. rewrite H1 in Hit. rewrite Z.mod_small in Hit by lia. rewrite Hit.
        rewrite msb_ok by auto. apply xorb_comm.
      * intros _. unfold sh_rcl. rewrite rcl_loop_ok, cf_flag by auto. rewrite Hit.
        rewrite rot_flags. reflexivity.
  - (* RCR *)
    rewrite (rcr_period w (Z.to_nat n)), Z2Nat.id by (auto; lia).
    pose proof (Z.mod_pos_bound n (w + 1) ltac:(lia)).
    destruct (Z.eqb_spec (n mod (w + 1)) 0) as [Hm|Hm].
    + rewrite Hm. cbn [Z.to_nat Nat.iter nat_rect]. exists (flag OF f). split; [|cbv zeta; split; [lia|]].
      * intros H1. rewrite H1 in Hm. rewrite Z.mod_small in Hm by lia. lia.
      * intros _. change (Z.to_nat 0) with O. cbn [Nat.iter nat_rect]. rewrite put_same_of, put_same_cf. reflexivity.
    + destruct (Nat.iter (Z.to_nat (n mod (w + 1))) (shift1 3 w) (d, flag CF f)) as [v c] eqn:Hit.
      exists (xorb (msb w d) (flag CF f)). split; [|cbv zeta; split; [lia|]].
      * intros H1. rewrite H1 in Hit. rewrite Z.mod_small in Hit by lia. rewrite Hit.
        rewrite msb_ok by auto. reflexivity.
      * intros _. unfold sh_rcr. rewrite rcr_loop_ok, cf_flag by auto. rewrite Hit.
        rewrite rot_flags'. reflexivity.
  - (* SHL *)
    rewrite (shiftn_shl w (Z.to_nat n)), Hn1 by auto. rewrite Z2Nat.id by lia.
    exists (xorb (Z.testbit d (w - n)) (Z.testbit d (w - n - 1))). split; [|cbv zeta; split; [lia|]].
    + intros H1. change (Z.to_nat 1) with 1%nat. rewrite shiftn_shl by auto.
      rewrite top_bit by (auto using low_range). rewrite H1. unfold low. rewrite Z.mod_pow2_bits_low by lia.
      change (Z.of_nat 1) with 1. rewrite Z.mul_pow2_bits by lia. apply xorb_comm.
    + intros _. replace (n =? 0) with false by lia. unfold sh_shl.
      destruct (Z.ltb_spec w n).
      * rewrite !Z.testbit_neg_r by lia. cbn [xorb].
        replace (low w (d * 2 ^ n)) with 0.
        { rewrite shf_flags0; auto. unfold inrange. pose proof (Z.pow_pos_nonneg 2 w). lia. }
        unfold low. replace (2 ^ n) with (2 ^ (n - w) * 2 ^ w) by (rewrite <- Z.pow_add_r by lia; f_equal; lia).
        rewrite Z.mul_assoc, Z.mod_mul by (apply Z.pow_nonzero; lia). reflexivity.
      * replace (w - n - 1 <? 0) with false by lia. 
        rewrite shf_flags by (auto using low_range; apply low_range; auto). reflexivity.
  - (* SHR *)
    rewrite (shiftn_shr w (Z.to_nat n)), Hn1 by auto. rewrite Z2Nat.id by lia.
    set (v := d / 2 ^ n).
    assert (Hv : inrange w v).
    { unfold v, inrange in *. assert (0 < 2 ^ n) by (apply Z.pow_pos_nonneg; lia).
      split; [apply Z.div_pos; lia|]. apply Z.div_lt_upper_bound; nia. }
    exists (sh_high_of w v). split; [|cbv zeta; split; [lia|]].
    + intros H1. change (Z.to_nat 1) with 1%nat. rewrite shiftn_shr by auto.
      unfold sh_high_of, v. rewrite H1, !Z.div_pow2_bits by lia.
      rewrite (testbit_high d w (w - 1 + 1)) by (auto; lia). rewrite xorb_false_r.
      rewrite top_bit by auto. f_equal. lia.
    + intros _. replace (n =? 0) with false by lia. unfold sh_shr.
      destruct (Z.ltb_spec w n).
      * assert (Hv0 : v = 0).
        { unfold v. apply Z.div_small. unfold inrange in Hd. split; [lia|].
          eapply Z.lt_le_trans; [apply Hd|]. apply Z.pow_le_mono_r; lia. }
        rewrite Hv0. rewrite (testbit_high d w (n - 1)) by (auto; lia).
        unfold sh_high_of. rewrite !Z.bits_0. cbn [xorb]. change (fset false M_OF ?x) with x.
        rewrite shf_flags0; auto. rewrite <- Hv0. auto.
      * fold v. rewrite shf_flags by auto. reflexivity.
  - (* SAL *)
    change (shift1 6 w) with (shift1 4 w).
    rewrite (shiftn_shl w (Z.to_nat n)), Hn1 by auto. rewrite Z2Nat.id by lia.
    exists (xorb (Z.testbit d (w - n)) (Z.testbit d (w - n - 1))). split; [|cbv zeta; split; [lia|]].
    + intros H1. change (Z.to_nat 1) with 1%nat. change (shift1 6 w) with (shift1 4 w). rewrite shiftn_shl by auto.
      rewrite top_bit by (auto using low_range). rewrite H1. unfold low. rewrite Z.mod_pow2_bits_low by lia.
      change (Z.of_nat 1) with 1. rewrite Z.mul_pow2_bits by lia. apply xorb_comm.
    + intros _. replace (n =? 0) with false by lia. unfold sh_shl.
      destruct (Z.ltb_spec w n).
      * rewrite !Z.testbit_neg_r by lia. cbn [xorb].
        replace (low w (d * 2 ^ n)) with 0.
        { rewrite shf_flags0; auto. unfold inrange. pose proof (Z.pow_pos_nonneg 2 w). lia. }
        unfold low. replace (2 ^ n) with (2 ^ (n - w) * 2 ^ w) by (rewrite <- Z.pow_add_r by lia; f_equal; lia).
        rewrite Z.mul_assoc, Z.mod_mul by (apply Z.pow_nonzero; lia). reflexivity.
      * replace (w - n - 1 <? 0) with false by lia. 
        rewrite shf_flags by (auto using low_range; apply low_range; auto). reflexivity.
  - (* SAR *)
    rewrite (shiftn_sar w (Z.to_nat n)), Hn1 by auto. rewrite Z2Nat.id by lia.
    set (v := low w (signed w d / 2 ^ n)).
    assert (Hv : inrange w v) by (apply low_range; auto).
    assert (Hsr := signed_range w d Hw Hd).
    exists (sh_high_of w v). split; [|cbv zeta; split; [lia|]].
    + intros H1. change (Z.to_nat 1) with 1%nat. rewrite shiftn_sar by auto.
      assert (w - 2 >= 0) by (destruct Hw as [-> | [-> | ->]]; lia).
      unfold sh_high_of, v, low. rewrite H1, !Z.mod_pow2_bits_low by lia. rewrite !Z.div_pow2_bits by lia.
      rewrite !signed_bit by (auto; lia).
      replace (w - 2 + 1 <? w) with true by lia. replace (w - 1 + 1 <? w) with false by lia.
      replace (w - 2 + 1) with (w - 1) by lia. rewrite <- top_bit by auto. apply xorb_nilpotent.
    + intros _. replace (n =? 0) with false by lia. unfold sh_sar.
      rewrite signed_bit by (auto; lia).
      destruct (Z.leb_spec w n).
      * assert (Hvv : (if msb w d then wrap w (-1) else 0) = v).
        { unfold v. rewrite msb_ok by auto. change (low w) with (wrap w).
          assert (Hbig : 2 ^ w <= 2 ^ n) by (apply Z.pow_le_mono_r; lia).
          rewrite (pow_split w) in Hbig by lia. assert (0 < 2 ^ (w - 1)) by (apply Z.pow_pos_nonneg; lia).
          destruct (Z.leb_spec (2 ^ (w - 1)) d) as [Hs|Hs].
          - f_equal. apply Z.div_unique with (signed w d + 2 ^ n); [|lia].
            left. unfold signed. replace (d <? 2 ^ (w - 1)) with false by lia.
            unfold inrange in Hd. rewrite (pow_split w) in * by lia. lia.
          - rewrite Z.div_small; [reflexivity|]. unfold signed. replace (d <? 2 ^ (w - 1)) with true by lia.
            unfold inrange in Hd. lia. }
        rewrite Hvv. rewrite shf_flags by auto. f_equal. f_equal. f_equal.
        destruct (Z.ltb_spec (n - 1) w); [|rewrite msb_ok; auto].
        replace (n - 1) with (w - 1) by lia. reflexivity.
      * rewrite sar_val by (auto; lia). fold v. rewrite shf_flags by auto.
        replace (n - 1 <? w) with true by lia. reflexivity.
Qed.
