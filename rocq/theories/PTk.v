(** Proofs about the test kernel's support library. *)
From Verif Require Import Base Spec TkLib SpecTk PBase.

(** ** Division *)
Lemma hack_pow den k : hack_of hacks den = Some k -> den = 2 ^ k /\ 0 <= k <= 16.
Proof.
  unfold hacks. cbn [hack_of]. intros H.
  repeat match type of H with (if ?d =? ?c then _ else _) = _ => destruct (Z.eqb_spec d c) as [->|]; [injection H as <-; split; [reflexivity|lia]|] end.
  discriminate.
Qed.
Definition sub_quot (num den : Z) : Z := if num =? 0 then 0 else (num - 1) / den.
Definition sub_rem (num den : Z) : Z := if num =? 0 then 0 else (num - 1) mod den + 1.
Lemma sub_loop_ok n : forall num den ret, 0 < den -> 0 <= num <= Z.of_nat n -> 0 <= ret -> ret + num < 2 ^ 64 ->
  sub_loop n num den ret = Some (ret + sub_quot num den, sub_rem num den).
Proof.
  induction n as [|n IH]; intros num den ret Hd Hn Hr Hb.
  - cbn [sub_loop]. assert (num = 0) as -> by lia. replace (0 <=? den) with true by lia. unfold sub_quot, sub_rem. cbn [Z.eqb]. do 2 f_equal. lia.
  - cbn [sub_loop]. destruct (Z.leb_spec num den) as [H|H].
    + unfold sub_quot, sub_rem. destruct (Z.eqb_spec num 0) as [->|H0]; [do 2 f_equal; lia|].
      rewrite Z.div_small, Z.mod_small by lia. do 2 f_equal; lia.
    + rewrite wrap_small by (unfold inrange; lia). rewrite IH by lia. unfold sub_quot, sub_rem.
      replace (num - den =? 0) with false by lia. replace (num =? 0) with false by lia.
      replace (num - 1) with (num - den - 1 + 1 * den) by lia. rewrite Z.div_add, Z.mod_add by lia. do 2 f_equal; lia.
Qed.
Lemma fast_path num den : 0 <= num -> 0 <= den -> (Z.shiftr num 32 =? 0) && (Z.shiftr den 32 =? 0) = (num <? 2 ^ 32) && (den <? 2 ^ 32).
Proof. intros. rewrite !Z.shiftr_div_pow2 by lia. rewrite Bool.eq_iff_eq_true, !andb_true_iff, !Z.eqb_eq, !Z.ltb_lt. rewrite !Z.div_small_iff by lia. lia. Qed.
(** The exact results: quotient and remainder, except that the subtraction loop (taken when
    either operand needs more than 32 bits and the divisor is none of the special ones) stops
    one step early. *)
Definition slow (num den : Z) : Prop := hack_of hacks den = None /\ (2 ^ 32 <= num \/ 2 ^ 32 <= den).
Lemma slow_dec num den : {slow num den} + {~ slow num den}.
Proof. unfold slow. destruct (hack_of hacks den); [right; intros [H _]; discriminate|]. destruct (Z_le_dec (2 ^ 32) num), (Z_le_dec (2 ^ 32) den); [left|left|left|right]; try tauto; lia. Qed.
Theorem div_fast n num den : u64 num -> u64 den -> den <> 0 -> ~ slow num den ->
  udivdi3 n num den = Some (num / den) /\ umoddi3 n num den = Some (num mod den).
Proof.
  unfold u64. intros Hn Hd H0 Hs. unfold udivdi3, umoddi3. replace (den =? 0) with false by lia.
  destruct (hack_of hacks den) as [k|] eqn:Hh.
  - apply hack_pow in Hh. destruct Hh as [-> Hk]. rewrite Z.shiftr_div_pow2 by lia. split; [reflexivity|]. f_equal.
    rewrite <- Z.land_ones by lia. f_equal. rewrite Z.ones_equiv. lia.
  - assert (num < 2 ^ 32 /\ den < 2 ^ 32) as [H1 H2] by (unfold slow in Hs; rewrite Hh in Hs; split; [destruct (Z_lt_dec num (2 ^ 32)); [auto|exfalso; apply Hs; split; [reflexivity|left; lia]]|destruct (Z_lt_dec den (2 ^ 32)); [auto|exfalso; apply Hs; split; [reflexivity|right; lia]]]).
    rewrite fast_path by lia. replace ((num <? 2 ^ 32) && (den <? 2 ^ 32)) with true by lia. rewrite !wrap_small by (unfold inrange; lia). auto.
Qed.
Theorem div_slow n num den : u64 num -> u64 den -> den <> 0 -> slow num den -> num <= Z.of_nat n ->
  udivdi3 n num den = Some (sub_quot num den) /\ umoddi3 n num den = Some (sub_rem num den).
Proof.
  unfold u64. intros Hn Hd H0 [Hh Hs] Hf. unfold udivdi3, umoddi3. replace (den =? 0) with false by lia. rewrite Hh.
  rewrite fast_path by lia. replace ((num <? 2 ^ 32) && (den <? 2 ^ 32)) with false by lia.
  rewrite sub_loop_ok by lia. split; reflexivity.
Qed.
(** The loop is right exactly when the divisor does not divide a non-zero dividend. *)
Lemma sub_right num den : 0 <= num -> 0 < den -> (sub_quot num den = num / den <-> (num mod den <> 0 \/ num = 0)) /\
  (sub_rem num den = num mod den <-> (num mod den <> 0 \/ num = 0)).
Proof.
  intros Hn Hd. unfold sub_quot, sub_rem. destruct (Z.eqb_spec num 0) as [->|H0].
  - rewrite Z.div_0_l, Z.mod_0_l by lia. split; split; auto.
  - pose proof (Z.div_mod num den ltac:(lia)) as E1. pose proof (Z.mod_pos_bound num den Hd) as B.
    destruct (Z.eq_dec (num mod den) 0) as [Hz|Hz].
    + assert (K : num - 1 = den * (num / den - 1) + (den - 1)) by lia.
      assert (Q : (num - 1) / den = num / den - 1) by (symmetry; apply Z.div_unique with (den - 1); lia).
      assert (R : (num - 1) mod den = den - 1) by (symmetry; apply Z.mod_unique with (num / den - 1); lia).
      rewrite Q, R, Hz. split; split; intros; try lia.
    + assert (K : num - 1 = den * (num / den) + (num mod den - 1)) by lia.
      assert (Q : (num - 1) / den = num / den) by (symmetry; apply Z.div_unique with (num mod den - 1); lia).
      assert (R : (num - 1) mod den = num mod den - 1) by (symmetry; apply Z.mod_unique with (num / den); lia).
      rewrite Q, R. split; split; intros; auto; lia.
Qed.

(** ** memset, memcpy *)
Lemma kput_at m x v y : kput m x v y = if y =? x then wrap 8 v else m y. Proof. reflexivity. Qed.
Lemma wrap8_byte k v : 0 <= k -> wrap 8 (v / 2 ^ k) = (v / 2 ^ k) mod 256. Proof. intros. unfold wrap. reflexivity. Qed.
Lemma kput32_at m x v y : 0 <= x -> x + 4 <= 2 ^ 32 ->
  kput32 m x v y = if (x <=? y) && (y <? x + 4) then (v / 2 ^ (8 * (y - x))) mod 256 else m y.
Proof.
  intros H1 H2. unfold kput32. rewrite !wrap_small by (unfold inrange; lia). rewrite !kput_at.
  destruct ((x <=? y) && (y <? x + 4)) eqn:H.
  - assert (y = x \/ y = x + 1 \/ y = x + 2 \/ y = x + 3) as K by lia. destruct K as [->|[->|[->| ->]]].
    + replace (x =? x + 3) with false by lia. replace (x =? x + 2) with false by lia. replace (x =? x + 1) with false by lia. rewrite Z.eqb_refl.
      replace (8 * (x - x)) with 0 by lia. rewrite Z.div_1_r. reflexivity.
    + replace (x + 1 =? x + 3) with false by lia. replace (x + 1 =? x + 2) with false by lia. rewrite Z.eqb_refl. replace (8 * (x + 1 - x)) with 8 by lia. reflexivity.
    + replace (x + 2 =? x + 3) with false by lia. rewrite Z.eqb_refl. replace (8 * (x + 2 - x)) with 16 by lia. reflexivity.
    + rewrite Z.eqb_refl. replace (8 * (x + 3 - x)) with 24 by lia. reflexivity.
  - replace (y =? x + 3) with false by lia. replace (y =? x + 2) with false by lia. replace (y =? x + 1) with false by lia. replace (y =? x) with false by lia. reflexivity.
Qed.
Lemma stosl_ok n : forall m edi eax, 0 <= edi < 2 ^ 32 -> edi + 4 * Z.of_nat n <= 2 ^ 32 ->
  snd (rep_stosl n m edi eax) = wrap 32 (edi + 4 * Z.of_nat n) /\
  forall y, fst (rep_stosl n m edi eax) y =
    if (edi <=? y) && (y <? edi + 4 * Z.of_nat n) then (eax / 2 ^ (8 * ((y - edi) mod 4))) mod 256 else m y.
Proof.
  induction n as [|n IH]; intros m edi eax H1 H2.
  - cbn [rep_stosl fst snd]. split; [rewrite wrap_small by (unfold inrange; lia); lia|].
    intros y. replace ((edi <=? y) && (y <? edi + 4 * Z.of_nat 0)) with false by lia. reflexivity.
  - cbn [rep_stosl]. destruct (Nat.eq_dec n 0) as [->|Hn].
    { cbn [rep_stosl fst snd]. split; [f_equal|]. intros y. rewrite kput32_at by lia. replace (4 * Z.of_nat 1) with 4 by lia.
      destruct ((edi <=? y) && (y <? edi + 4)) eqn:K; [|reflexivity]. rewrite (Z.mod_small (y - edi)) by lia. reflexivity. }
    rewrite (wrap_small 32 (edi + 4)) by (unfold inrange; lia). destruct (IH (kput32 m edi eax) (edi + 4) eax ltac:(lia) ltac:(lia)) as [I1 I2].
    split; [rewrite I1; f_equal; lia|]. intros y. rewrite I2, kput32_at by lia.
    destruct ((edi + 4 <=? y) && (y <? edi + 4 + 4 * Z.of_nat n)) eqn:K.
    + replace ((edi <=? y) && (y <? edi + 4 * Z.of_nat (S n))) with true by lia.
      replace (y - edi) with (y - (edi + 4) + 1 * 4) by lia. rewrite Z.mod_add by lia. reflexivity.
    + destruct ((edi <=? y) && (y <? edi + 4)) eqn:K2.
      * replace ((edi <=? y) && (y <? edi + 4 * Z.of_nat (S n))) with true by lia. rewrite (Z.mod_small (y - edi)) by lia. reflexivity.
      * replace ((edi <=? y) && (y <? edi + 4 * Z.of_nat (S n))) with false by lia. reflexivity.
Qed.
Lemma stosb_ok n : forall m edi eax, 0 <= edi < 2 ^ 32 -> edi + Z.of_nat n <= 2 ^ 32 ->
  forall y, fst (rep_stosb n m edi eax) y = if (edi <=? y) && (y <? edi + Z.of_nat n) then eax mod 256 else m y.
Proof.
  induction n as [|n IH]; intros m edi eax H1 H2 y.
  - cbn [rep_stosb fst]. replace ((edi <=? y) && (y <? edi + Z.of_nat 0)) with false by lia. reflexivity.
  - cbn [rep_stosb]. destruct (Nat.eq_dec n 0) as [->|Hn].
    { cbn [rep_stosb fst]. rewrite kput_at. unfold wrap. destruct (Z.eqb_spec y edi) as [->|].
      - replace ((edi <=? edi) && (edi <? edi + Z.of_nat 1)) with true by lia. reflexivity.
      - replace ((edi <=? y) && (y <? edi + Z.of_nat 1)) with false by lia. reflexivity. }
    rewrite (wrap_small 32) by (unfold inrange; lia). rewrite IH by lia. rewrite kput_at. unfold wrap.
    destruct ((edi + 1 <=? y) && (y <? edi + 1 + Z.of_nat n)) eqn:K.
    + replace ((edi <=? y) && (y <? edi + Z.of_nat (S n))) with true by lia. reflexivity.
    + destruct (Z.eqb_spec y edi) as [->|].
      * replace ((edi <=? edi) && (edi <? edi + Z.of_nat (S n))) with true by lia. reflexivity.
      * replace ((edi <=? y) && (y <? edi + Z.of_nat (S n))) with false by lia. reflexivity.
Qed.
(** What memset writes: byte i is byte (i mod 4) of Val in the part done by doublewords, and the
    low byte of Val in the remainder. *)
Theorem memset_ok m dest val num : 0 <= dest < 2 ^ 32 -> 0 <= num -> dest + num <= 2 ^ 32 ->
  filled m (k_memset m dest val num) dest num
    (fun i => if i <? 4 * (num / 4) then (wrap 32 val / 2 ^ (8 * (i mod 4))) mod 256 else val mod 256).
Proof.
  intros Hd Hn He. unfold k_memset. pose proof (Z.div_mod num 4 ltac:(lia)) as Hdm. pose proof (Z.mod_pos_bound num 4 ltac:(lia)) as Hb.
  assert (Hq : 0 <= num / 4) by lia.
  destruct (stosl_ok (Z.to_nat (num / 4)) m dest (wrap 32 val) Hd ltac:(rewrite Z2Nat.id by lia; lia)) as [S1 S2].
  destruct (rep_stosl (Z.to_nat (num / 4)) m dest (wrap 32 val)) as [m1 edi]. cbn [fst snd] in S1, S2. rewrite Z2Nat.id in S1, S2 by lia.
  assert (V : wrap 32 val mod 256 = val mod 256).
  { unfold wrap. change (2 ^ 32) with (256 * 2 ^ 24). rewrite Z.rem_mul_r by lia. rewrite Z.add_mod, (Z.mul_comm 256), Z.mod_mul, Z.add_0_r by lia. rewrite !Z.mod_mod by lia. reflexivity. }
  assert (B : forall y, fst (rep_stosb (Z.to_nat (num mod 4)) m1 edi (wrap 32 val)) y =
              if (dest + 4 * (num / 4) <=? y) && (y <? dest + num) then val mod 256 else m1 y).
  { intros y. destruct (Z.eq_dec (num mod 4) 0) as [Hz|Hz].
    - rewrite Hz. cbn [Z.to_nat rep_stosb fst]. replace ((dest + 4 * (num / 4) <=? y) && (y <? dest + num)) with false by lia. reflexivity.
    - assert (edi = dest + 4 * (num / 4)) as -> by (rewrite S1; apply wrap_small; unfold inrange; lia).
      rewrite stosb_ok by (rewrite ?Z2Nat.id; lia). rewrite Z2Nat.id by lia. rewrite V. replace (dest + 4 * (num / 4) + num mod 4) with (dest + num) by lia. reflexivity. }
  split.
  - intros i Hi. rewrite B, S2. destruct (Z.ltb_spec i (4 * (num / 4))) as [L|L].
    + replace ((dest + 4 * (num / 4) <=? dest + i) && (dest + i <? dest + num)) with false by lia.
      replace ((dest <=? dest + i) && (dest + i <? dest + 4 * (num / 4))) with true by lia. replace (dest + i - dest) with i by lia. reflexivity.
    + replace ((dest + 4 * (num / 4) <=? dest + i) && (dest + i <? dest + num)) with true by lia. reflexivity.
  - unfold within. intros x Hx. rewrite B, S2. replace ((dest + 4 * (num / 4) <=? x) && (x <? dest + num)) with false by lia.
    replace ((dest <=? x) && (x <? dest + 4 * (num / 4))) with false by lia. reflexivity.
Qed.
Lemma filled_ext m m' p n f g : (forall i, 0 <= i < n -> f i = g i) -> filled m m' p n f -> filled m m' p n g.
Proof. intros H [A B]. split; [intros i Hi; rewrite A, H by auto; reflexivity|exact B]. Qed.
Lemma rep_byte b i : 0 <= b < 256 -> 0 <= i < 4 -> (b * 16843009 / 2 ^ (8 * i)) mod 256 = b.
Proof.
  intros Hb Hi. assert (i = 0 \/ i = 1 \/ i = 2 \/ i = 3) as K by lia. destruct K as [->|[->|[->| ->]]]; cbn [Z.mul Z.pow Z.pow_pos Pos.iter Pos.mul]; lia.
Qed.
Theorem memset_right m dest val num : 0 <= dest < 2 ^ 32 -> 0 <= num -> dest + num <= 2 ^ 32 ->
  (num < 4 \/ wrap 32 val = (val mod 256) * 16843009) -> filled m (k_memset m dest val num) dest num (fun _ => val mod 256).
Proof.
  intros Hd Hn He Hv. eapply filled_ext; [|apply memset_ok; auto]. intros i Hi. cbv beta.
  destruct (Z.ltb_spec i (4 * (num / 4))) as [L|L]; [|reflexivity]. destruct Hv as [Hv|Hv]; [exfalso; lia|]. rewrite Hv.
  apply rep_byte; [apply Z.mod_pos_bound; lia|apply Z.mod_pos_bound; lia].
Qed.
Lemma get_byte m x k : (forall x, 0 <= m x < 256) -> 0 <= x -> x + 4 <= 2 ^ 32 -> 0 <= k < 4 -> (kget32 m x / 2 ^ (8 * k)) mod 256 = m (x + k).
Proof.
  intros Hm Hx He Hk. unfold kget32. rewrite !wrap_small by (unfold inrange; lia).
  pose proof (Hm x). pose proof (Hm (x + 1)). pose proof (Hm (x + 2)). pose proof (Hm (x + 3)).
  assert (k = 0 \/ k = 1 \/ k = 2 \/ k = 3) as K by lia. destruct K as [->|[->|[->| ->]]]; rewrite ?Z.add_0_r; cbn [Z.mul Z.pow Z.pow_pos Pos.iter Pos.mul]; lia.
Qed.
Lemma kput_bytes m x v : (forall x, 0 <= m x < 256) -> forall y, 0 <= kput m x v y < 256.
Proof. intros H y. unfold kput. destruct (y =? x); [apply (wrap_range 8 v); lia|apply H]. Qed.
Lemma kput32_bytes m x v : (forall x, 0 <= m x < 256) -> forall y, 0 <= kput32 m x v y < 256.
Proof. intros H. unfold kput32. repeat apply kput_bytes. exact H. Qed.
Lemma movsl_ok n : forall m edi esi, (forall x, 0 <= m x < 256) -> 0 <= edi < 2 ^ 32 -> 0 <= esi < 2 ^ 32 -> edi + 4 * Z.of_nat n <= 2 ^ 32 -> esi + 4 * Z.of_nat n <= 2 ^ 32 ->
  (edi <= esi \/ esi + 4 * Z.of_nat n <= edi) ->
  snd (fst (rep_movsl n m edi esi)) = wrap 32 (edi + 4 * Z.of_nat n) /\ snd (rep_movsl n m edi esi) = wrap 32 (esi + 4 * Z.of_nat n) /\
  (forall y, fst (fst (rep_movsl n m edi esi)) y = if (edi <=? y) && (y <? edi + 4 * Z.of_nat n) then m (esi + (y - edi)) else m y).
Proof.
  induction n as [|n IH]; intros m edi esi Hm H1 H2 H3 H4 H5.
  - cbn [rep_movsl fst snd]. split; [rewrite wrap_small by (unfold inrange; lia); lia|]. split; [rewrite wrap_small by (unfold inrange; lia); lia|].
    intros y. replace ((edi <=? y) && (y <? edi + 4 * Z.of_nat 0)) with false by lia. reflexivity.
  - cbn [rep_movsl].
    assert (P : forall y, kput32 m edi (kget32 m esi) y = if (edi <=? y) && (y <? edi + 4) then m (esi + (y - edi)) else m y).
    { intros y. rewrite kput32_at by lia. destruct ((edi <=? y) && (y <? edi + 4)) eqn:K; [|reflexivity]. apply get_byte; auto; lia. }
    destruct (Nat.eq_dec n 0) as [->|Hn].
    { cbn [rep_movsl fst snd]. split; [f_equal|]. split; [f_equal|]. intros y. rewrite P. reflexivity. }
    rewrite (wrap_small 32 (edi + 4)), (wrap_small 32 (esi + 4)) by (unfold inrange; lia).
    destruct (IH (kput32 m edi (kget32 m esi)) (edi + 4) (esi + 4) ltac:(apply kput32_bytes, Hm) ltac:(lia) ltac:(lia) ltac:(lia) ltac:(lia) ltac:(lia)) as (I1 & I2 & I3).
    split; [rewrite I1; f_equal; lia|]. split; [rewrite I2; f_equal; lia|]. intros y. rewrite I3.
    destruct ((edi + 4 <=? y) && (y <? edi + 4 + 4 * Z.of_nat n)) eqn:K.
    + replace ((edi <=? y) && (y <? edi + 4 * Z.of_nat (S n))) with true by lia. rewrite P.
      replace ((edi <=? esi + 4 + (y - (edi + 4))) && (esi + 4 + (y - (edi + 4)) <? edi + 4)) with false by lia. f_equal. lia.
    + rewrite P. destruct ((edi <=? y) && (y <? edi + 4)) eqn:K2.
      * replace ((edi <=? y) && (y <? edi + 4 * Z.of_nat (S n))) with true by lia. reflexivity.
      * replace ((edi <=? y) && (y <? edi + 4 * Z.of_nat (S n))) with false by lia. reflexivity.
Qed.
Lemma movsb_ok n : forall m edi esi, (forall x, 0 <= m x < 256) -> 0 <= edi < 2 ^ 32 -> 0 <= esi < 2 ^ 32 -> edi + Z.of_nat n <= 2 ^ 32 -> esi + Z.of_nat n <= 2 ^ 32 ->
  (edi <= esi \/ esi + Z.of_nat n <= edi) ->
  forall y, fst (fst (rep_movsb n m edi esi)) y = if (edi <=? y) && (y <? edi + Z.of_nat n) then m (esi + (y - edi)) else m y.
Proof.
  induction n as [|n IH]; intros m edi esi Hm H1 H2 H3 H4 H5 y.
  - cbn [rep_movsb fst]. replace ((edi <=? y) && (y <? edi + Z.of_nat 0)) with false by lia. reflexivity.
  - cbn [rep_movsb].
    assert (P : forall y, kput m edi (m esi) y = if y =? edi then m esi else m y) by (intros z; rewrite kput_at, wrap_small by apply Hm; reflexivity).
    destruct (Nat.eq_dec n 0) as [->|Hn].
    { cbn [rep_movsb fst]. rewrite P. destruct (Z.eqb_spec y edi) as [->|].
      - replace ((edi <=? edi) && (edi <? edi + Z.of_nat 1)) with true by lia. f_equal. lia.
      - replace ((edi <=? y) && (y <? edi + Z.of_nat 1)) with false by lia. reflexivity. }
    rewrite (wrap_small 32 (edi + 1)), (wrap_small 32 (esi + 1)) by (unfold inrange; lia).
    rewrite IH by (try apply kput_bytes; auto; lia). rewrite !P.
    destruct ((edi + 1 <=? y) && (y <? edi + 1 + Z.of_nat n)) eqn:K.
    + replace ((edi <=? y) && (y <? edi + Z.of_nat (S n))) with true by lia.
      replace (esi + 1 + (y - (edi + 1)) =? edi) with false by lia. f_equal. lia.
    + destruct (Z.eqb_spec y edi) as [->|].
      * replace ((edi <=? edi) && (edi <? edi + Z.of_nat (S n))) with true by lia. f_equal. lia.
      * replace ((edi <=? y) && (y <? edi + Z.of_nat (S n))) with false by lia. reflexivity.
Qed.
Theorem memcpy_ok m dest src num : (forall x, 0 <= m x < 256) -> 0 <= dest < 2 ^ 32 -> 0 <= src < 2 ^ 32 -> 0 <= num -> dest + num <= 2 ^ 32 -> src + num <= 2 ^ 32 ->
  (dest <= src \/ src + num <= dest) -> filled m (k_memcpy m dest src num) dest num (fun i => m (src + i)).
Proof.
  intros Hm Hd Hs Hn He1 He2 Ho. unfold k_memcpy. pose proof (Z.div_mod num 4 ltac:(lia)) as Hdm. pose proof (Z.mod_pos_bound num 4 ltac:(lia)) as Hb.
  assert (Hq : 0 <= num / 4) by lia. assert (E : Z.of_nat (Z.to_nat (num / 4)) = num / 4) by (apply Z2Nat.id; lia).
  destruct (movsl_ok (Z.to_nat (num / 4)) m dest src Hm Hd Hs ltac:(lia) ltac:(lia) ltac:(lia)) as (S1 & S2 & S3).
  destruct (rep_movsl (Z.to_nat (num / 4)) m dest src) as [[m1 edi] esi]. cbn [fst snd] in S1, S2, S3. rewrite E in *.
  assert (Hm1 : forall x, 0 <= m1 x < 256) by (intros x; rewrite S3; destruct (_ && _); apply Hm).
  assert (B : forall y, fst (fst (rep_movsb (Z.to_nat (num mod 4)) m1 edi esi)) y =
              if (dest + 4 * (num / 4) <=? y) && (y <? dest + num) then m (src + (y - dest)) else m1 y).
  { intros y. destruct (Z.eq_dec (num mod 4) 0) as [Hz|Hz].
    - rewrite Hz. cbn [Z.to_nat rep_movsb fst]. replace ((dest + 4 * (num / 4) <=? y) && (y <? dest + num)) with false by lia. reflexivity.
    - assert (edi = dest + 4 * (num / 4)) as -> by (rewrite S1; apply wrap_small; unfold inrange; lia).
      assert (esi = src + 4 * (num / 4)) as -> by (rewrite S2; apply wrap_small; unfold inrange; lia).
      assert (E2 : Z.of_nat (Z.to_nat (num mod 4)) = num mod 4) by (apply Z2Nat.id; lia).
      rewrite movsb_ok by (auto; lia). rewrite E2. replace (dest + 4 * (num / 4) + num mod 4) with (dest + num) by lia.
      destruct ((dest + 4 * (num / 4) <=? y) && (y <? dest + num)) eqn:K; [|reflexivity]. rewrite S3.
      replace ((dest <=? src + 4 * (num / 4) + (y - (dest + 4 * (num / 4)))) && (src + 4 * (num / 4) + (y - (dest + 4 * (num / 4))) <? dest + 4 * (num / 4))) with false by lia.
      f_equal. lia. }
  split.
  - intros i Hi. rewrite B, S3. destruct ((dest + 4 * (num / 4) <=? dest + i) && (dest + i <? dest + num)) eqn:K; [f_equal; lia|].
    replace ((dest <=? dest + i) && (dest + i <? dest + 4 * (num / 4))) with true by lia. f_equal. lia.
  - unfold within. intros x Hx. rewrite B, S3. replace ((dest + 4 * (num / 4) <=? x) && (x <? dest + num)) with false by lia.
    replace ((dest <=? x) && (x <? dest + 4 * (num / 4))) with false by lia. reflexivity.
Qed.

(** ** The heap *)
Definition round8 (n : Z) : Z := 8 * ((n + 7) / 8).
Lemma malloc_eq heap bytes : 0 <= heap < 2 ^ 32 -> 0 <= bytes -> bytes + 7 < 2 ^ 32 -> heap + round8 bytes < 2 ^ 32 ->
  k_malloc heap bytes = (heap, heap + round8 bytes).
Proof.
  intros Hh Hb Ho Hs. unfold k_malloc. rewrite (wrap_small 32 (bytes + 7)) by (unfold inrange; lia).
  assert (L : Z.land (bytes + 7) 4294967288 = round8 bytes).
  { unfold round8. change 4294967288 with (Z.ldiff (Z.ones 32) (Z.ones 3)). rewrite Z.ldiff_land, Z.land_assoc.
    rewrite Z.land_ones by lia. rewrite Z.mod_small by lia. rewrite <- Z.ldiff_land, Z.ldiff_ones_r by lia.
    rewrite Z.shiftr_div_pow2, Z.shiftl_mul_pow2 by lia. change (2 ^ 3) with 8. lia. }
  rewrite L. rewrite wrap_small by (unfold inrange, round8 in *; lia). reflexivity.
Qed.
Definition heap_total (sizes : list Z) : Z := fold_right (fun n s => round8 n + s) 0 sizes.
Lemma round8_ge n : 0 <= n -> n <= round8 n /\ round8 n mod 8 = 0.
Proof. intros H. unfold round8. split; [lia|]. rewrite Z.mul_comm. apply Z.mod_mul. lia. Qed.
Lemma heap_total_nonneg sizes : (forall n, In n sizes -> 0 <= n) -> 0 <= heap_total sizes.
Proof. intros H. induction sizes as [|n t IH]; cbn [heap_total fold_right]; [lia|]. pose proof (H n (or_introl eq_refl)). pose proof (round8_ge n ltac:(lia)). fold (heap_total t). specialize (IH (fun k h => H k (or_intror h))). lia. Qed.
(** In a history that fits below 4 GiB, block i starts at a multiple of 8 after all earlier blocks. *)
Theorem mallocs_ok sizes : forall heap, 0 <= heap -> heap mod 8 = 0 -> (forall n, In n sizes -> 0 <= n) -> heap + heap_total sizes < 2 ^ 32 - 8 ->
  length (k_mallocs heap sizes) = length sizes /\
  (forall p, In p (k_mallocs heap sizes) -> heap <= p /\ p mod 8 = 0) /\
  (forall p n, In (p, n) (combine (k_mallocs heap sizes) sizes) -> p + n <= heap + heap_total sizes) /\
  ForallOrdPairs disjoint_blocks (combine (k_mallocs heap sizes) sizes).
Proof.
  induction sizes as [|n t IH]; intros heap Hh Ha Hn Hs; cbn [k_mallocs combine length].
  - split; [reflexivity|]. split; [intros p []|]. split; [intros p n []|constructor].
  - cbn [heap_total fold_right] in Hs. fold (heap_total t) in Hs.
    pose proof (Hn n (or_introl eq_refl)) as Hn0. pose proof (round8_ge n Hn0) as [R1 R2].
    pose proof (heap_total_nonneg t (fun k h => Hn k (or_intror h))) as Ht.
    rewrite malloc_eq by (unfold round8 in *; lia). cbn [fst snd].
    destruct (IH (heap + round8 n)) as (I1 & I2 & I3 & I4); [lia|lia|intros k Hk; apply Hn; right; exact Hk|lia|].
    split; [rewrite I1; reflexivity|]. split.
    + intros p [<-|Hp]; [lia|]. apply I2 in Hp. lia.
    + cbn [heap_total fold_right]. fold (heap_total t). split.
      * intros p k [Hp|Hp]; [injection Hp as <- <-; lia|]. apply I3 in Hp. lia.
      * constructor; [|exact I4]. apply Forall_forall. intros [p k] Hp. left. cbn [fst snd].
        apply in_combine_l in Hp. apply I2 in Hp. lia.
Qed.
Theorem calloc_ok m heap nmemb size : 0 <= heap -> 0 <= nmemb -> 0 <= size -> heap + round8 (nmemb * size) < 2 ^ 32 - 8 ->
  let '(p, heap', m') := k_calloc m heap nmemb size in
  p = heap /\ heap' = heap + round8 (nmemb * size) /\ filled m m' p (nmemb * size) (fun _ => 0).
Proof.
  intros Hh Hn Hs Hf. assert (0 <= nmemb * size) by nia. pose proof (round8_ge (nmemb * size) ltac:(lia)) as [R1 R2].
  unfold k_calloc. rewrite (wrap_small 32 (nmemb * size)) by (unfold inrange; lia). rewrite malloc_eq by (unfold round8 in *; lia).
  split; [reflexivity|]. split; [reflexivity|]. apply (memset_right m heap 0 (nmemb * size)); try lia. right. reflexivity.
Qed.

(** ** itoa *)
Definition std_base (base : Z) : Prop := base = 8 \/ base = 10 \/ base = 16.
Lemma hexchar_ok d : 0 <= d < 16 -> hexchar d = Some (digit_char d).
Proof.
  intros H. assert (E : d = 0 \/ d = 1 \/ d = 2 \/ d = 3 \/ d = 4 \/ d = 5 \/ d = 6 \/ d = 7 \/ d = 8 \/ d = 9 \/ d = 10 \/ d = 11 \/ d = 12 \/ d = 13 \/ d = 14 \/ d = 15) by lia.
  repeat (destruct E as [->|E]; [reflexivity|]). subst d. reflexivity.
Qed.
Lemma value_app base ds d : 0 < base -> value_of base (ds ++ [d]) = base * value_of base ds + d.
Proof.
  intros Hb. induction ds as [|e t IH]; cbn [app value_of length].
  - cbn [Z.of_nat]. rewrite Z.pow_0_r. lia.
  - rewrite IH, app_length. cbn [length]. replace (Z.of_nat (length t + 1)) with (Z.of_nat (length t) + 1) by lia.
    rewrite Z.pow_add_r by lia. rewrite Z.pow_1_r. lia.
Qed.
(** An operand pair for which both helpers take an exact path all the way down. *)
Definition exact (base val : Z) : Prop := u64 val /\ (base = 8 \/ base = 16 \/ (base = 10 /\ val < 2 ^ 32)).
Lemma exact_div base val f : exact base val -> udivdi3 f val base = Some (val / base) /\ umoddi3 f val base = Some (val mod base).
Proof.
  intros [Hv Hb]. apply div_fast; [exact Hv|unfold u64; lia|lia|]. unfold slow. intros [Hh Hs].
  destruct Hb as [->|[->|[-> Hb]]]; [discriminate Hh|discriminate Hh|]. lia.
Qed.
Lemma exact_next base val : exact base val -> exact base (val / base) .
Proof. intros [Hv Hb]. unfold exact, u64 in *. destruct Hb as [->|[->|[-> Hb]]]; split; lia. Qed.
Lemma itoa_digits_ok f n : forall k val base i, exact base val -> val < 8 ^ Z.of_nat k -> 0 <= i -> i + Z.of_nat k <= 65 -> (0 < k <= n)%nat ->
  exists ds, numeral base val ds /\ itoa_digits f n val base i = Some (rev (map digit_char ds)) /\ (length ds <= k)%nat.
Proof.
  induction n as [|n IH]; intros [|k] val base i Hx Hv Hi Hl Hn; [lia|lia|lia|]. cbn [itoa_digits].
  destruct (exact_div base val f Hx) as [E1 E2]. rewrite E1, E2.
  assert (Hb : 8 <= base <= 16) by (destruct Hx as [_ [?|[?|[? _]]]]; lia).
  assert (Hv0 : 0 <= val) by (destruct Hx as [[? _] _]; lia).
  pose proof (Z.mod_pos_bound val base ltac:(lia)) as Hm. pose proof (Z.div_mod val base ltac:(lia)) as Hdm.
  rewrite hexchar_ok by lia. replace (65 <=? i) with false by lia.
  destruct (Z.eqb_spec (val / base) 0) as [Hq|Hq].
  - exists [val mod base]. split; [|split; [reflexivity|cbn [length]; lia]].
    split; [cbn [value_of length Z.of_nat]; rewrite Z.pow_0_r; lia|]. split; [intros d [<-|[]]; lia|]. split; [discriminate|].
    cbn [hd]. intros ->. reflexivity.
  - assert (Hqp : 0 < val / base) by (pose proof (Z.div_pos val base ltac:(lia) ltac:(lia)); lia).
    assert (Hq8 : val / base < 8 ^ Z.of_nat k).
    { rewrite Nat2Z.inj_succ, Z.pow_succ_r in Hv by lia. apply Z.div_lt_upper_bound; [lia|]. nia. }
    assert (k <> O) by (intros ->; cbn [Z.of_nat] in Hq8; rewrite Z.pow_0_r in Hq8; lia).
    destruct (IH k (val / base) base (i + 1) (exact_next _ _ Hx) Hq8 ltac:(lia) ltac:(lia) ltac:(lia)) as (ds & (N1 & N2 & N3 & N4) & I2 & I3).
    rewrite I2. exists (ds ++ [val mod base]). split.
    + split; [rewrite value_app by lia; rewrite N1; lia|]. split; [intros d Hd; apply in_app_iff in Hd; destruct Hd as [Hd|[<-|[]]]; [auto|lia]|].
      split; [destruct ds; discriminate|]. destruct ds as [|e t]; [contradiction|]. cbn [app hd]. cbn [hd] in N4. intros ->. specialize (N4 eq_refl).
      injection N4 as ->. cbn [value_of length Z.of_nat] in N1. lia.
    + split; [rewrite map_app, rev_app_distr; reflexivity|]. rewrite app_length. cbn [length]. lia.
Qed.
(** Positional notation is unique, so the statement fixes the text. *)
Lemma value_bound base ds : 1 < base -> (forall d, In d ds -> 0 <= d < base) -> 0 <= value_of base ds < base ^ Z.of_nat (length ds).
Proof.
  intros Hb. induction ds as [|d t IH]; intros H; cbn [value_of length].
  - cbn [Z.of_nat]. rewrite Z.pow_0_r. lia.
  - specialize (IH (fun k h => H k (or_intror h))). pose proof (H d (or_introl eq_refl)). rewrite Nat2Z.inj_succ, Z.pow_succ_r by lia. nia.
Qed.
Lemma value_lower base d t : 1 < base -> (forall e, In e (d :: t) -> 0 <= e < base) -> d <> 0 -> base ^ Z.of_nat (length t) <= value_of base (d :: t).
Proof.
  intros Hb H Hd. cbn [value_of]. pose proof (value_bound base t Hb (fun k h => H k (or_intror h))). pose proof (H d (or_introl eq_refl)).
  pose proof (Z.pow_pos_nonneg base (Z.of_nat (length t)) ltac:(lia) ltac:(lia)). nia.
Qed.
Lemma value_inj base : 1 < base -> forall a b, length a = length b -> (forall d, In d a -> 0 <= d < base) -> (forall d, In d b -> 0 <= d < base) ->
  value_of base a = value_of base b -> a = b.
Proof.
  intros Hb. induction a as [|x a IH]; intros [|y b] Hl Ha Hc He; try discriminate; [reflexivity|].
  cbn [length] in Hl. injection Hl as Hl. cbn [value_of] in He. rewrite Hl in He.
  pose proof (value_bound base a Hb (fun k h => Ha k (or_intror h))) as A. pose proof (value_bound base b Hb (fun k h => Hc k (or_intror h))) as B. rewrite Hl in A.
  assert (x = y) as -> by nia. f_equal. apply IH; [exact Hl|intros d h; apply Ha; right; exact h|intros d h; apply Hc; right; exact h|lia].
Qed.
Theorem numeral_unique base val a b : 1 < base -> numeral base val a -> numeral base val b -> a = b.
Proof.
  intros Hb (A1 & A2 & A3 & A4) (B1 & B2 & B3 & B4). apply (value_inj base Hb); auto; [|congruence].
  destruct a as [|x a]; [contradiction|]. destruct b as [|y b]; [contradiction|]. cbn [hd] in *.
  destruct (Z.eq_dec x 0) as [->|Hx].
  - specialize (A4 eq_refl). injection A4 as ->. cbn [value_of length Z.of_nat] in A1. destruct (Z.eq_dec y 0) as [->|Hy].
    + specialize (B4 eq_refl). injection B4 as ->. reflexivity.
    + pose proof (value_lower base y b Hb B2 Hy). pose proof (Z.pow_pos_nonneg base (Z.of_nat (length b)) ltac:(lia) ltac:(lia)). lia.
  - pose proof (value_lower base x a Hb A2 Hx) as LA. pose proof (value_bound base (x :: a) Hb A2) as UA. rewrite A1 in LA, UA.
    destruct (Z.eq_dec y 0) as [->|Hy].
    + specialize (B4 eq_refl). injection B4 as ->. cbn [value_of length Z.of_nat] in B1. pose proof (Z.pow_pos_nonneg base (Z.of_nat (length a)) ltac:(lia) ltac:(lia)). lia.
    + pose proof (value_lower base y b Hb B2 Hy) as LB. pose proof (value_bound base (y :: b) Hb B2) as UB. rewrite B1 in LB, UB. cbn [length] in *.
      destruct (Nat.lt_trichotomy (length a) (length b)) as [H|[H|H]]; [|congruence|].
      * pose proof (Z.pow_le_mono_r base (Z.of_nat (S (length a))) (Z.of_nat (length b)) ltac:(lia) ltac:(lia)). lia.
      * pose proof (Z.pow_le_mono_r base (Z.of_nat (S (length b))) (Z.of_nat (length a)) ltac:(lia) ltac:(lia)). lia.
Qed.
Lemma rev_repeat {A} (x : A) n : rev (repeat x n) = repeat x n.
Proof. induction n as [|n IH]; [reflexivity|]. cbn [repeat rev]. rewrite IH. clear IH. induction n as [|n IH]; [reflexivity|]. cbn [repeat app]. rewrite IH. reflexivity. Qed.

Theorem itoa_ok f val base minLength pad : exact base val -> minLength <= 64 ->
  exists t, k_itoa f val base minLength pad = Some t /\ number_text base val minLength pad t.
Proof.
  intros Hx Hl. destruct (itoa_digits_ok f 70 22 val base 0 Hx) as (ds & N & E & L).
  { destruct Hx as [[_ H] _]. eapply Z.lt_trans; [exact H|reflexivity]. }
  all: try lia. unfold k_itoa. rewrite E. rewrite rev_length, map_length, app_length, rev_length, map_length, repeat_length.
  replace (65 <=? Z.of_nat (length ds + Z.to_nat (minLength - Z.of_nat (length ds)))) with false by lia.
  eexists. split; [reflexivity|]. exists ds. split; [exact N|]. rewrite rev_app_distr, rev_involutive, rev_repeat. reflexivity.
Qed.
Theorem number_text_unique base val len pad s t : 1 < base -> number_text base val len pad s -> number_text base val len pad t -> s = t.
Proof. intros Hb (a & A1 & ->) (b & B1 & ->). rewrite (numeral_unique base val a b Hb A1 B1). reflexivity. Qed.

(** ** printf *)
Lemma digit10 d : 0 <= d < 10 -> digit_char d = 48 + d.
Proof. intros. unfold digit_char. replace (d <? 10) with true by lia. reflexivity. Qed.
Lemma take_width_ok c s : ~ (48 <= c <= 57) -> forall ds acc, (forall d, In d ds -> 0 <= d < 10) ->
  take_width acc (map digit_char ds ++ c :: s) = (acc * 10 ^ Z.of_nat (length ds) + value_of 10 ds, c :: s).
Proof.
  intros Hc. induction ds as [|d t IH]; intros acc H; cbn [map app take_width value_of length].
  - replace ((48 <=? c) && (c <=? 57)) with false by lia. cbn [Z.of_nat]. rewrite Z.pow_0_r. f_equal. lia.
  - pose proof (H d (or_introl eq_refl)). rewrite digit10 by lia. replace ((48 <=? 48 + d) && (48 + d <=? 57)) with true by lia.
    rewrite IH by (intros k h; apply H; right; exact h). f_equal. rewrite Nat2Z.inj_succ, Z.pow_succ_r by lia. lia.
Qed.
(** The part of printf after %: flag and width. *)
Definition flag_of (t : list Z) : Z * list Z := match t with 48 :: t' => (48, t') | _ => (32, t) end.
Definition width_of (t1 : list Z) : Z * list Z :=
  match t1 with d :: _ => if (49 <=? d) && (d <=? 57) then take_width 0 t1 else (0, t1) | [] => (0, t1) end.
Lemma flag_ne c t : c <> 48 -> flag_of (c :: t) = (32, c :: t).
Proof. intros H. unfold flag_of. repeat (match goal with |- context [match ?x with _ => _ end] => destruct x end; try reflexivity). contradiction. Qed.
Lemma flag_zero t : flag_of (48 :: t) = (48, t). Proof. reflexivity. Qed.
Lemma width_text_head w ws c s : width_text w ws -> ~ (48 <= c <= 57) ->
  (exists h r, ws ++ c :: s = h :: r /\ h <> 48) /\ width_of (ws ++ c :: s) = (w, c :: s).
Proof.
  intros [[-> ->]|[Hw (ds & (N1 & N2 & N3 & N4) & ->)]] Hc.
  - cbn [app]. split; [exists c, s; split; [reflexivity|lia]|]. unfold width_of. replace ((49 <=? c) && (c <=? 57)) with false by lia. reflexivity.
  - destruct ds as [|d t]; [contradiction|]. pose proof (N2 d (or_introl eq_refl)) as Hd. cbn [hd] in N4.
    assert (d <> 0). { intros ->. specialize (N4 eq_refl). injection N4 as ->. cbn [value_of length Z.of_nat] in N1. lia. }
    split; [exists (digit_char d); eexists; split; [reflexivity|rewrite digit10 by lia; lia]|].
    unfold width_of. cbn [map app]. rewrite digit10 by lia. replace ((49 <=? 48 + d) && (48 + d <=? 57)) with true by lia.
    rewrite <- (digit10 d) by lia. change (digit_char d :: map digit_char t ++ c :: s) with (map digit_char (d :: t) ++ c :: s).
    rewrite take_width_ok by auto. rewrite N1. reflexivity.
Qed.
Definition fmt_one (f : nat) (str : Z -> list Z) (d v minLen pad : Z) : option (list Z) :=
  if d =? 111 then k_itoa f v 8 minLen pad
  else if d =? 105 then k_itoa f v 10 minLen pad
  else if d =? 120 then k_itoa f v 16 minLen pad
  else if d =? 112 then opt_app (Some [42; 48; 120]) (k_itoa f v 16 8 48)
  else if d =? 115 then Some (if v =? 0 then [40; 110; 117; 108; 108; 41] else str v)
  else Some [].
Lemma opt_app_assoc a b c : opt_app a (opt_app b c) = opt_app (opt_app a b) c.
Proof. destruct a, b, c; cbn [opt_app]; try reflexivity. rewrite app_assoc. reflexivity. Qed.
Lemma printf_pct f n str t v args pad t1 w d t3 : flag_of t = (pad, t1) -> width_of t1 = (w, d :: t3) ->
  k_printf f (S n) str (37 :: t) (v :: args) = opt_app (fmt_one f str d v w pad) (k_printf f n str t3 args).
Proof.
  intros H1 H2. cbn [k_printf]. replace (negb (37 =? 37)) with false by reflexivity.
  fold (flag_of t). rewrite H1. fold (width_of t1). rewrite H2. unfold fmt_one.
  destruct (d =? 111); [reflexivity|]. destruct (d =? 105); [reflexivity|]. destruct (d =? 120); [reflexivity|].
  destruct (d =? 112); [rewrite opt_app_assoc; reflexivity|]. destruct (d =? 115); [reflexivity|].
  destruct (k_printf f n str t3 args); reflexivity.
Qed.
Lemma exact32 base v : (base = 8 \/ base = 10 \/ base = 16) -> u32 v -> exact base v.
Proof. unfold u32, exact, u64. intros. split; [lia|]. lia. Qed.
Theorem printf_ok f str : forall items fmt args out n, writes items fmt -> prints str items args out -> fits items args -> (length fmt < n)%nat ->
  k_printf f n str fmt args = Some out.
Proof.
  intros items fmt args out n HW. revert args out n. induction HW as [|c l s Hc HW IH|base z w ws c l s Hb Hw HW IH|l s HW IH|l s HW IH]; intros args out n HP [F1 F2] Hn.
  - inversion HP; subst. destruct n; [cbn [length] in Hn; lia|]. reflexivity.
  - inversion HP; subst. destruct n; [cbn [length] in Hn; lia|]. cbn [k_printf]. replace (negb (c =? 37)) with true by lia.
    rewrite (IH args o n); [reflexivity|assumption| |cbn [length] in Hn; lia]. split; [exact F1|]. intros b z w Hi. apply (F2 b z w). right. exact Hi.
  - inversion HP; subst. destruct n; [cbn [length] in Hn; lia|].
    assert (Hd : ~ (48 <= c <= 57)) by lia. destruct (width_text_head w ws c s Hw Hd) as [(h & r & Eh & Nh) Ew].
    assert (Hn2 : (length s < n)%nat) by (cbn [length] in Hn; rewrite !app_length in Hn; cbn [length] in Hn; lia).
    assert (Fl : flag_of ((if z then [48] else []) ++ ws ++ c :: s) = ((if z then 48 else 32), ws ++ c :: s)).
    { destruct z; cbn [app]; [apply flag_zero|]. rewrite Eh. apply flag_ne. exact Nh. }
    rewrite (printf_pct f n str _ v args0 _ _ w c s Fl Ew).
    rewrite (IH args0 o n); [|assumption|split; [intros k Hk; apply F1; right; exact Hk|intros b z' w' Hi; apply (F2 b z' w'); right; exact Hi]|exact Hn2].
    assert (Hx : exact base v) by (apply exact32; [lia|apply F1; left; reflexivity]).
    assert (Hw64 : w <= 64) by (apply (F2 base z w); left; reflexivity).
    destruct (itoa_ok f v base w (if z then 48 else 32) Hx Hw64) as (t' & E & Ht).
    assert (t' = t) as -> by (eapply number_text_unique; [|exact Ht|eassumption]; lia).
    unfold fmt_one. destruct Hb as [[-> ->]|[[-> ->]|[-> ->]]]; cbn [Z.eqb Pos.eqb]; rewrite E; reflexivity.
  - inversion HP; subst. destruct n; [cbn [length] in Hn; lia|].
    rewrite (printf_pct f n str (112 :: s) v args0 32 (112 :: s) 0 112 s eq_refl eq_refl).
    rewrite (IH args0 o n); [|assumption|split; [intros k Hk; apply F1; right; exact Hk|intros b z' w' Hi; apply (F2 b z' w'); right; exact Hi]|cbn [length] in Hn; lia].
    assert (Hx : exact 16 v) by (apply exact32; [lia|apply F1; left; reflexivity]).
    destruct (itoa_ok f v 16 8 48 Hx ltac:(lia)) as (t' & E & Ht).
    assert (t' = t) as -> by (eapply number_text_unique; [|exact Ht|eassumption]; lia).
    unfold fmt_one. cbn [Z.eqb Pos.eqb]. rewrite E. cbn [opt_app]. rewrite <- app_assoc. reflexivity.
  - assert (G : forall v args0 o, (length (37%Z :: 115%Z :: s) < n)%nat -> prints str l args0 o -> fits l args0 ->
        k_printf f n str (37 :: 115 :: s) (v :: args0) = Some ((if v =? 0 then [40; 110; 117; 108; 108; 41] else str v) ++ o)).
    { intros v args0 o Hn' HP' HF. destruct n; [cbn [length] in Hn'; lia|].
      rewrite (printf_pct f n str (115 :: s) v args0 32 (115 :: s) 0 115 s eq_refl eq_refl). rewrite (IH args0 o n HP' HF) by (cbn [length] in Hn'; lia). reflexivity. }
    assert (HF : forall a0, (exists v, args = v :: a0) -> fits l a0).
    { intros a0 [v ->]. split; [intros k Hk; apply F1; right; exact Hk|intros b z' w' Hi; apply (F2 b z' w'); right; exact Hi]. }
    inversion HP; subst.
    + rewrite (G v args0 o Hn); [|assumption|apply HF; eexists; reflexivity]. replace (v =? 0) with false by lia. reflexivity.
    + rewrite (G 0 args0 o Hn); [|assumption|apply HF; eexists; reflexivity]. reflexivity.
Qed.
