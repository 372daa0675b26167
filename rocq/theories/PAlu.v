(** Flag algebra and the pure ALU functions against the specification. *)
From Verif Require Import Base Cpu Alu Ops Machine Spec PBase.

Lemma tb_put k b f i : 0 <= i -> 0 <= k ->
  Z.testbit (put k b f) i = if i =? k then b else Z.testbit f i.
Proof.
  intros Hi Hk. unfold put. destruct b.
  - rewrite Z.setbit_eqb by lia. destruct (Z.eqb_spec i k), (Z.eqb_spec k i); try lia; reflexivity.
  - rewrite Z.clearbit_eqb by lia.
    destruct (Z.eqb_spec i k), (Z.eqb_spec k i); try lia; cbn; auto using andb_true_r, andb_false_r.
Qed.
Lemma tb_fset b m f i : Z.testbit (fset b m f) i = Z.testbit f i || (b && Z.testbit m i).
Proof.
  unfold fset. destruct b; cbn [andb]; [apply Z.lor_spec|rewrite orb_false_r; reflexivity].
Qed.
Lemma tb_fclear m f i : Z.testbit (fclear m f) i = Z.testbit f i && negb (Z.testbit m i).
Proof. unfold fclear. apply Z.ldiff_spec. Qed.
Lemma tb_mask m i : 0 <= m < 65536 -> 0 <= i -> Z.testbit m i =
  existsb (fun k => (i =? k) && Z.testbit m k) [0;1;2;3;4;5;6;7;8;9;10;11;12;13;14;15].
Proof.
  intros Hm Hi. assert (i < 16 \/ 16 <= i) as [H|H] by lia.
  - assert (i = 0 \/ i = 1 \/ i = 2 \/ i = 3 \/ i = 4 \/ i = 5 \/ i = 6 \/ i = 7 \/ i = 8 \/ i = 9 \/
      i = 10 \/ i = 11 \/ i = 12 \/ i = 13 \/ i = 14 \/ i = 15) as Hc by lia.
    repeat destruct Hc as [Hc|Hc]; subst i; cbn [existsb Z.eqb Pos.eqb andb orb];
    rewrite ?orb_false_r; reflexivity.
  - replace (Z.testbit m i) with false.
    + symmetry. cbn [existsb].
      repeat (match goal with |- context [i =? ?k] => replace (i =? k) with false by lia end).
      reflexivity.
    + symmetry. rewrite <- (Z.mod_small m (2 ^ 16)) by lia. apply Z.mod_pow2_bits_high. lia.
Qed.
Ltac mk_mask := intros; rewrite tb_mask by (unfold M_ARITH, M_LOGIC, M_CF, M_PF, M_AF, M_ZF, M_SF, M_TF, M_IF, M_DF, M_OF; lia);
  cbn [existsb]; 
  repeat match goal with |- context [Z.testbit ?m ?k] =>
    let v := eval vm_compute in (Z.testbit m k) in change (Z.testbit m k) with v end;
  rewrite ?andb_false_r, ?andb_true_r, ?orb_false_r; cbn [orb]; rewrite ?orb_assoc; reflexivity.
Lemma tb_CF i : 0 <= i -> Z.testbit M_CF i = (i =? 0). Proof. mk_mask. Qed.
Lemma tb_PF i : 0 <= i -> Z.testbit M_PF i = (i =? 2). Proof. mk_mask. Qed.
Lemma tb_AF i : 0 <= i -> Z.testbit M_AF i = (i =? 4). Proof. mk_mask. Qed.
Lemma tb_ZF i : 0 <= i -> Z.testbit M_ZF i = (i =? 6). Proof. mk_mask. Qed.
Lemma tb_SF i : 0 <= i -> Z.testbit M_SF i = (i =? 7). Proof. mk_mask. Qed.
Lemma tb_TF i : 0 <= i -> Z.testbit M_TF i = (i =? 8). Proof. mk_mask. Qed.
Lemma tb_IF i : 0 <= i -> Z.testbit M_IF i = (i =? 9). Proof. mk_mask. Qed.
Lemma tb_DF i : 0 <= i -> Z.testbit M_DF i = (i =? 10). Proof. mk_mask. Qed.
Lemma tb_OF i : 0 <= i -> Z.testbit M_OF i = (i =? 11). Proof. mk_mask. Qed.
Lemma tb_ARITH i : 0 <= i -> Z.testbit M_ARITH i =
  (i =? 0) || (i =? 2) || (i =? 4) || (i =? 6) || (i =? 7) || (i =? 11). Proof. mk_mask. Qed.
Lemma tb_LOGIC i : 0 <= i -> Z.testbit M_LOGIC i =
  (i =? 0) || (i =? 2) || (i =? 6) || (i =? 7) || (i =? 11). Proof. mk_mask. Qed.
Lemma tb_OCA i : 0 <= i -> Z.testbit (M_OF + M_CF + M_AF) i = (i =? 0) || (i =? 4) || (i =? 11).
Proof. mk_mask. Qed.
Lemma tb_CAO i : 0 <= i -> Z.testbit (M_CF + M_AF + M_OF) i = (i =? 0) || (i =? 4) || (i =? 11).
Proof. mk_mask. Qed.
Lemma tb_COA i : 0 <= i -> Z.testbit (M_CF + M_OF + M_AF) i = (i =? 0) || (i =? 4) || (i =? 11).
Proof. mk_mask. Qed.
Lemma tb_OC i : 0 <= i -> Z.testbit (M_OF + M_CF) i = (i =? 0) || (i =? 11).
Proof. mk_mask. Qed.
Lemma tb_CO i : 0 <= i -> Z.testbit (M_CF + M_OF) i = (i =? 0) || (i =? 11).
Proof. mk_mask. Qed.
Lemma tb_OA i : 0 <= i -> Z.testbit (M_OF + M_AF) i = (i =? 4) || (i =? 11).
Proof. mk_mask. Qed.
Lemma tb_AC i : 0 <= i -> Z.testbit (M_AF + M_CF) i = (i =? 0) || (i =? 4).
Proof. mk_mask. Qed.
Lemma tb_ZSP i : 0 <= i -> Z.testbit (M_ZF + M_SF + M_PF) i = (i =? 2) || (i =? 6) || (i =? 7).
Proof. mk_mask. Qed.
Lemma tb_OZSPA i : 0 <= i -> Z.testbit (M_OF + M_ZF + M_SF + M_PF + M_AF) i =
  (i =? 2) || (i =? 4) || (i =? 6) || (i =? 7) || (i =? 11).
Proof. mk_mask. Qed.
Lemma tb_OZSP i : 0 <= i -> Z.testbit (M_OF + M_ZF + M_SF + M_PF) i =
  (i =? 2) || (i =? 6) || (i =? 7) || (i =? 11).
Proof. mk_mask. Qed.
Lemma tb_IT i : 0 <= i -> Z.testbit (M_IF + M_TF) i = (i =? 8) || (i =? 9).
Proof. mk_mask. Qed.

Ltac tb_step := first
  [ rewrite tb_put by lia | rewrite tb_fset | rewrite tb_fclear
  | rewrite tb_CF by lia | rewrite tb_PF by lia | rewrite tb_AF by lia | rewrite tb_ZF by lia
  | rewrite tb_SF by lia | rewrite tb_TF by lia | rewrite tb_IF by lia | rewrite tb_DF by lia
  | rewrite tb_OF by lia | rewrite tb_ARITH by lia | rewrite tb_LOGIC by lia
  | rewrite tb_OCA by lia | rewrite tb_CAO by lia | rewrite tb_COA by lia | rewrite tb_OC by lia | rewrite tb_CO by lia
  | rewrite tb_OA by lia | rewrite tb_AC by lia | rewrite tb_ZSP by lia
  | rewrite tb_OZSPA by lia | rewrite tb_OZSP by lia | rewrite tb_IT by lia
  | rewrite Z.lor_spec | rewrite Z.land_spec | rewrite Z.lxor_spec | rewrite Z.ldiff_spec ].
Ltac tb_simpl :=
  cbn [Z.eqb Pos.eqb andb orb negb];
  rewrite ?andb_true_r, ?andb_false_r, ?orb_false_r, ?orb_true_r; cbn [andb orb negb].
(** Equality of two flag words: bit by bit; leaves one goal per flag that is not immediate. *)
Lemma flags_ext f g :
  Z.testbit f 0 = Z.testbit g 0 -> Z.testbit f 2 = Z.testbit g 2 -> Z.testbit f 4 = Z.testbit g 4 ->
  Z.testbit f 6 = Z.testbit g 6 -> Z.testbit f 7 = Z.testbit g 7 -> Z.testbit f 11 = Z.testbit g 11 ->
  Z.testbit f 8 = Z.testbit g 8 -> Z.testbit f 9 = Z.testbit g 9 -> Z.testbit f 10 = Z.testbit g 10 ->
  (forall i, 0 <= i -> (i =? 0) = false -> (i =? 2) = false -> (i =? 4) = false -> (i =? 6) = false ->
     (i =? 7) = false -> (i =? 8) = false -> (i =? 9) = false -> (i =? 10) = false ->
     (i =? 11) = false -> Z.testbit f i = Z.testbit g i) -> f = g.
Proof.
  intros. apply Z.bits_inj'; intros i Hi.
  destruct (Z.eqb_spec i 0) as [E0|E0]; [subst; assumption|].
  destruct (Z.eqb_spec i 2) as [E2|E2]; [subst; assumption|].
  destruct (Z.eqb_spec i 4) as [E4|E4]; [subst; assumption|].
  destruct (Z.eqb_spec i 6) as [E6|E6]; [subst; assumption|].
  destruct (Z.eqb_spec i 7) as [E7|E7]; [subst; assumption|].
  destruct (Z.eqb_spec i 8) as [E8|E8]; [subst; assumption|].
  destruct (Z.eqb_spec i 9) as [E9|E9]; [subst; assumption|].
  destruct (Z.eqb_spec i 10) as [E10|E10]; [subst; assumption|].
  destruct (Z.eqb_spec i 11) as [E11|E11]; [subst; assumption|].
  match goal with H : forall i, 0 <= i -> _ |- _ => apply H; lia end.
Qed.
Ltac flags_eq :=
  apply flags_ext;
  [ repeat tb_step; tb_simpl; try reflexivity ..
  | let Hi := fresh in intros i Hi ? ? ? ? ? ? ? ? ?; repeat tb_step;
    repeat match goal with H : (i =? _) = false |- _ => rewrite !H; clear H end;
    tb_simpl; try reflexivity ].

Lemma ftest_bit k f : 0 <= k -> ftest (2 ^ k) f = Z.testbit f k.
Proof.
  intros Hk. unfold ftest. destruct (Z.testbit f k) eqn:Hb.
  - destruct (Z.eqb_spec (Z.land f (2 ^ k)) 0) as [H|H]; [|reflexivity].
    assert (Z.testbit (Z.land f (2 ^ k)) k = true).
    { rewrite Z.land_spec, Hb, Z.pow2_bits_true by lia. reflexivity. }
    rewrite H, Z.bits_0 in H0. discriminate.
  - replace (Z.land f (2 ^ k)) with 0; [reflexivity|].
    apply Z.bits_inj'; intros i Hi. rewrite Z.bits_0, Z.land_spec.
    destruct (Z.eq_dec i k) as [->|Hn]; [rewrite Hb; reflexivity|].
    rewrite Z.pow2_bits_false by lia. rewrite andb_false_r. reflexivity.
Qed.
Lemma ftest_CF f : ftest M_CF f = flag CF f. Proof. exact (ftest_bit 0 f ltac:(lia)). Qed.
Lemma ftest_PF f : ftest M_PF f = flag PF f. Proof. exact (ftest_bit 2 f ltac:(lia)). Qed.
Lemma ftest_AF f : ftest M_AF f = flag AF f. Proof. exact (ftest_bit 4 f ltac:(lia)). Qed.
Lemma ftest_ZF f : ftest M_ZF f = flag ZF f. Proof. exact (ftest_bit 6 f ltac:(lia)). Qed.
Lemma ftest_SF f : ftest M_SF f = flag SF f. Proof. exact (ftest_bit 7 f ltac:(lia)). Qed.
Lemma ftest_DF f : ftest M_DF f = flag DF f. Proof. exact (ftest_bit 10 f ltac:(lia)). Qed.
Lemma ftest_OF f : ftest M_OF f = flag OF f. Proof. exact (ftest_bit 11 f ltac:(lia)). Qed.

(** Parity. *)
Lemma parity_ok v : parity8 v = negb (even_parity v).
Proof.
  assert (Hl : forall v, parity8 v = parity8 (v mod 256)).
  { intros x. unfold parity8. change 256 with (2 ^ 8).
    rewrite !Z.mod_pow2_bits_low by lia. reflexivity. }
  assert (Hr : forall v, even_parity v = even_parity (v mod 256)).
  { intros x. unfold even_parity. f_equal. unfold count_ones. lia. }
  rewrite Hl, Hr.
  assert (H : 0 <= v mod 256 < 256) by lia.
  assert (Hall : forallb (fun n => Bool.eqb (parity8 (Z.of_nat n)) (negb (even_parity (Z.of_nat n))))
                   (seq 0 256) = true) by (vm_compute; reflexivity).
  rewrite forallb_forall in Hall. specialize (Hall (Z.to_nat (v mod 256))).
  rewrite Z2Nat.id in Hall by lia. apply Bool.eqb_prop, Hall, in_seq. lia.
Qed.

Lemma msb_ok w x : width w -> inrange w x -> msb w x = (2 ^ (w - 1) <=? x).
Proof.
  intros Hw Hx. unfold msb, inrange in *.
  rewrite Z.testbit_eqb by (destruct Hw as [-> | [-> | ->]]; lia).
  destruct Hw as [-> | [-> | ->]]; cbn in *;
  [change (2 ^ (8 - 1)) with 128 in *|change (2 ^ (16 - 1)) with 32768 in *|change (2 ^ (32 - 1)) with 2147483648 in *];
  lia.
Qed.
Lemma shiftmsb_ok w x : width w -> inrange w x -> negb (x / 2 ^ (w - 1) =? 0) = (2 ^ (w - 1) <=? x).
Proof.
  intros Hw Hx. unfold inrange in *. destruct Hw as [-> | [-> | ->]];
  [change (2 ^ (8 - 1)) with 128 in *|change (2 ^ (16 - 1)) with 32768 in *|change (2 ^ (32 - 1)) with 2147483648 in *];
  lia.
Qed.

Lemma set_comm_ok w v f : width w -> inrange w v -> set_comm w v f = put_szp w v f.
Proof.
  intros Hw Hv. unfold set_comm, put_szp.
  rewrite shiftmsb_ok by auto. rewrite parity_ok, negb_involutive. flags_eq.
Qed.

Ltac pows := change (2 ^ 8) with 256 in *; change (2 ^ 16) with 65536 in *;
  change (2 ^ 32) with 4294967296 in *; change (2 ^ (8 - 1)) with 128 in *;
  change (2 ^ (16 - 1)) with 32768 in *; change (2 ^ (32 - 1)) with 2147483648 in *;
  change (2 ^ 64) with 18446744073709551616 in *.
Ltac widths Hw := destruct Hw as [-> | [-> | ->]]; pows.

Lemma low_range w x : width w -> inrange w (low w x).
Proof. intros Hw. unfold inrange, low. widths Hw; lia. Qed.
Lemma low_wrap w x : wrap w x = low w x.
Proof. reflexivity. Qed.

Lemma put_put k b c f : 0 <= k -> put k b (put k c f) = put k b f.
Proof.
  intros. apply Z.bits_inj'; intros i Hi. rewrite !tb_put by lia. destruct (i =? k); reflexivity.
Qed.

Lemma alu_add_ok w d s f : width w -> inrange w d -> inrange w s ->
  alu ADD w d s f = spec_add w d s 0 f.
Proof.
  intros Hw Hd Hs. unfold alu, alu_core, spec_add. rewrite low_wrap, Z.add_0_r.
  pose proof (low_range w (d + s) Hw) as Hv. rewrite set_comm_ok by auto.
  f_equal. unfold add_setflags. rewrite !msb_ok by auto.
  set (v := low w (d + s)) in *. unfold put6, put_szp. flags_eq;
  unfold overflows, signed, inrange, low in *; subst v.
  - destruct (d =? 0) eqn:?; widths Hw; lia.
  - destruct (d mod 16 =? 0) eqn:?; widths Hw; lia.
  - destruct (d <? 2 ^ (w - 1)) eqn:?; destruct (s <? 2 ^ (w - 1)) eqn:?; widths Hw; lia.
Qed.

Lemma alu_adc_ok w d s f : width w -> inrange w d -> inrange w s ->
  alu ADC w d s f = spec_add w d s (b2z (flag CF f)) f.
Proof.
  intros Hw Hd Hs. unfold alu, alu_core, spec_add. rewrite low_wrap, ftest_CF.
  unfold b2z. set (c := if flag CF f then 1 else 0) in *.
  assert (Hc : c = 0 \/ c = 1) by (subst c; destruct (flag CF f); auto).
  pose proof (low_range w (d + s + c) Hw) as Hv. rewrite set_comm_ok by auto.
  f_equal. unfold add_setflags. rewrite !msb_ok by auto.
  set (v := low w (d + s + c)) in *. clearbody c. unfold put6, put_szp. flags_eq;
  unfold overflows, signed, inrange, low in *; subst v.
  - destruct (d =? 0) eqn:?; widths Hw; lia.
  - destruct (d mod 16 =? 0) eqn:?; widths Hw; lia.
  - destruct (d <? 2 ^ (w - 1)) eqn:?; destruct (s <? 2 ^ (w - 1)) eqn:?; widths Hw; lia.
Qed.

Lemma bit_msb w x : width w -> inrange w x -> Z.testbit x (w - 1) = (2 ^ (w - 1) <=? x).
Proof. exact (msb_ok w x). Qed.

Lemma alu_sub_ok w d s f : width w -> inrange w d -> inrange w s ->
  alu SUB w d s f = spec_sub w d s 0 f.
Proof.
  intros Hw Hd Hs. unfold alu, alu_core, spec_sub. rewrite low_wrap, Z.sub_0_r, !Z.add_0_r.
  pose proof (low_range w (d - s) Hw) as Hv. rewrite set_comm_ok by auto.
  f_equal. unfold sub_flags. rewrite Z.land_spec, !Z.lxor_spec, !bit_msb by auto.
  set (v := low w (d - s)) in *. unfold put6, put_szp. flags_eq;
  unfold overflows, signed, inrange, low in *; subst v.
  destruct (d <? 2 ^ (w - 1)) eqn:?; destruct (s <? 2 ^ (w - 1)) eqn:?; widths Hw; lia.
Qed.
Lemma alu_cmp_ok w d s f : width w -> inrange w d -> inrange w s ->
  alu CMP w d s f = spec_sub w d s 0 f.
Proof. exact (alu_sub_ok w d s f). Qed.

Lemma bitop_range w d s (op : Z -> Z -> Z) (b : bool -> bool -> bool) : width w ->
  (forall i, Z.testbit (op d s) i = b (Z.testbit d i) (Z.testbit s i)) -> b false false = false ->
  inrange w d -> inrange w s -> inrange w (op d s).
Proof.
  intros Hw Hb Hff Hd Hs.
  assert (Hz : wrap w (op d s) = op d s).
  { apply Z.bits_inj'; intros i Hi. unfold wrap.
    assert (0 <= w) by (widths Hw; lia).
    rewrite Z.testbit_mod_pow2 by lia.
    destruct (Z.ltb_spec i w); [reflexivity|]. cbn [andb]. rewrite Hb.
    rewrite <- (wrap_small w d Hd), <- (wrap_small w s Hs). unfold wrap.
    rewrite !Z.testbit_mod_pow2 by lia. replace (i <? w) with false by lia. cbn. auto. }
  rewrite <- Hz. apply wrap_range. widths Hw; lia.
Qed.
Lemma land_range w d s : width w -> inrange w d -> inrange w s -> inrange w (Z.land d s).
Proof. intros. apply bitop_range with (b := andb); auto. intros; apply Z.land_spec. Qed.
Lemma lor_range w d s : width w -> inrange w d -> inrange w s -> inrange w (Z.lor d s).
Proof. intros. apply bitop_range with (b := orb); auto. intros; apply Z.lor_spec. Qed.
Lemma lxor_range w d s : width w -> inrange w d -> inrange w s -> inrange w (Z.lxor d s).
Proof. intros. apply bitop_range with (b := xorb); auto. intros; apply Z.lxor_spec. Qed.

Lemma alu_and_ok w d s f : width w -> inrange w d -> inrange w s ->
  alu AND w d s f = spec_logic w (Z.land d s) f.
Proof.
  intros Hw Hd Hs. unfold alu, alu_core, spec_logic.
  rewrite set_comm_ok by auto using land_range. f_equal. unfold put_szp. flags_eq.
Qed.
Lemma alu_or_ok w d s f : width w -> inrange w d -> inrange w s ->
  alu OR w d s f = spec_logic w (Z.lor d s) f.
Proof.
  intros Hw Hd Hs. unfold alu, alu_core, spec_logic.
  rewrite set_comm_ok by auto using lor_range. f_equal. unfold put_szp. flags_eq.
Qed.
Lemma alu_xor_ok w d s f : width w -> inrange w d -> inrange w s ->
  alu XOR w d s f = spec_logic w (Z.lxor d s) f.
Proof.
  intros Hw Hd Hs. unfold alu, alu_core, spec_logic.
  rewrite set_comm_ok by auto using lxor_range. f_equal. unfold put_szp. flags_eq.
Qed.
Lemma alu_test_ok w d s f : width w -> inrange w d -> inrange w s ->
  alu TEST w d s f = spec_logic w (Z.land d s) f.
Proof.
  intros Hw Hd Hs. unfold alu, alu_core, spec_logic.
  rewrite set_comm_ok by auto using land_range. f_equal. unfold put_szp. flags_eq.
Qed.

Lemma alu_sbb_exact w d s f c : width w -> inrange w d -> inrange w s -> c = b2z (flag CF f) ->
  alu SBB w d s f = emu_sbb w d s c f.
Proof.
  intros Hw Hd Hs Hceq. unfold alu, alu_core, emu_sbb. rewrite ftest_CF.
  change (if flag CF f then 1 else 0) with (b2z (flag CF f)). rewrite <- Hceq.
  assert (Hc : c = 0 \/ c = 1) by (subst c; destruct (flag CF f); cbn; auto).
  clear Hceq. cbv zeta.
  assert (Hv0 : wrap w (d - (if w =? 32 then wrap 32 (s + c) else s + c)) = low w (d - s - c)).
  { unfold wrap, low. widths Hw; cbn [Z.eqb Pos.eqb]; pows; lia. }
  rewrite Hv0. pose proof (low_range w (d - s - c) Hw) as Hv.
  rewrite set_comm_ok by auto. f_equal.
  unfold sub_flags. rewrite Z.land_spec, !Z.lxor_spec.
  rewrite (bit_msb w d), (bit_msb w (low w (d - s - c))) by auto.
  assert (Hr : Z.testbit (if w =? 32 then wrap 32 (s + c) else s + c) (w - 1) =
    (2 ^ (w - 1) <=? s + c) && (s + c <? 2 ^ w)).
  { destruct (Z.eqb_spec (s + c) (2 ^ w)) as [He|He].
    - replace (s + c <? 2 ^ w) with false by lia. rewrite andb_false_r.
      destruct Hw as [-> | [-> | ->]]; cbn [Z.eqb Pos.eqb]; rewrite He; reflexivity.
    - assert (inrange w (s + c)) by (unfold inrange in *; lia).
      replace (if w =? 32 then wrap 32 (s + c) else s + c) with (s + c).
      + rewrite bit_msb by auto. unfold inrange in *. replace (s + c <? 2 ^ w) with true by lia.
        rewrite andb_true_r; reflexivity.
      + destruct Hw as [-> | [-> | ->]]; cbn [Z.eqb Pos.eqb]; try reflexivity.
        rewrite wrap_small; auto. }
  rewrite Hr. set (v := low w (d - s - c)) in *. unfold put6, put_szp. flags_eq;
  unfold overflows, signed, inrange, low, sbb_cf_wrong, sbb_af_wrong, sbb_of_wrong in *; subst v.
  - clear Hr Hv0. destruct Hw as [-> | [-> | ->]]; cbn [Z.eqb Pos.eqb andb negb]; pows;
    rewrite ?xorb_false_l; [reflexivity|reflexivity|]. unfold wrap; pows. clear Hv.
    destruct (c =? 1) eqn:?; destruct (s =? 4294967296 - 1) eqn:?; cbn [andb negb];
    rewrite ?xorb_false_l, ?xorb_true_l; lia.
  - clear Hr Hv0 Hv.
    replace ((if w =? 32 then wrap 32 (s + c) else s + c) mod 16) with ((s + c) mod 16)
      by (unfold wrap; widths Hw; cbn [Z.eqb Pos.eqb]; pows; lia).
    unfold wrap. pows.
    assert (Hm : (s + c) mod 16 = if (c =? 1) && (s mod 16 =? 15) then 0 else s mod 16 + c)
      by (destruct Hc as [-> | ->]; cbn [Z.eqb Pos.eqb andb]; [lia|];
          destruct (Z.eqb_spec (s mod 16) 15); lia).
    rewrite Hm. clear Hm. 
    assert (0 <= s mod 16 < 16) as Hsn by lia. assert (0 <= d mod 16 < 16) as Hdn by lia.
    generalize dependent (s mod 16). generalize dependent (d mod 16). clear - Hc. intros dn Hdn sn Hsn.
    destruct Hc as [-> | ->]; cbn [Z.eqb Pos.eqb andb negb].
    + rewrite xorb_false_l, Z.mod_small by lia. f_equal. lia.
    + destruct (Z.eqb_spec sn 15) as [->|Hn].
      * change ((0 - 1) mod 18446744073709551616) with 18446744073709551615.
        cbn [Z.ltb Z.compare Pos.compare Pos.compare_cont andb negb]. rewrite andb_false_r. cbn [negb].
        rewrite xorb_false_l. lia.
      * replace (sn <? 15) with true by lia. rewrite andb_true_r, Z.mod_small by lia.
        destruct (Z.eqb_spec dn sn); cbn [negb]; rewrite ?xorb_false_l, ?xorb_true_l; lia.
  - clear Hr Hv0.
    destruct (c =? 1) eqn:?; destruct (s =? 2 ^ (w - 1) - 1) eqn:?; cbn [andb negb];
    rewrite ?xorb_false_l, ?xorb_true_l;
    destruct (d <? 2 ^ (w - 1)) eqn:?; destruct (s <? 2 ^ (w - 1)) eqn:?; widths Hw; lia.
Qed.
Lemma alu_sbb_ok w d s f : width w -> inrange w d -> inrange w s ->
  alu SBB w d s f = emu_sbb w d s (b2z (flag CF f)) f.
Proof. intros Hw Hd Hs. apply alu_sbb_exact; auto. Qed.

Lemma alu_inc_ok w d f : width w -> inrange w d -> alu_inc w d f = spec_inc w d f.
Proof.
  intros Hw Hd. unfold alu_inc, spec_inc. rewrite low_wrap.
  pose proof (low_range w (d + 1) Hw) as Hv. rewrite set_comm_ok by auto. f_equal.
  set (v := low w (d + 1)) in *. unfold put_szp. flags_eq;
  unfold inrange, low in *; subst v; widths Hw; lia.
Qed.
Lemma alu_dec_ok w d f : width w -> inrange w d -> alu_dec w d f = spec_dec w d f.
Proof.
  intros Hw Hd. unfold alu_dec, spec_dec. rewrite low_wrap.
  pose proof (low_range w (d - 1) Hw) as Hv. rewrite set_comm_ok by auto. f_equal.
  set (v := low w (d - 1)) in *. unfold put_szp. flags_eq;
  unfold inrange, low, wrap in *; subst v; widths Hw; lia.
Qed.
Lemma land7 s : Z.land s 7 = s mod 8.
Proof. change 7 with (Z.ones 3). apply Z.land_ones. lia. Qed.
(** NEG: AF ignores bit 3 of the operand. *)
Lemma alu_neg_exact w d f : width w -> inrange w d ->
  alu_neg w d f =
  (low w (- d), put6 (negb (d =? 0)) (negb (d mod 8 =? 0)) (d =? 2 ^ (w - 1)) w (low w (- d)) f).
Proof.
  intros Hw Hd. unfold alu_neg. rewrite low_wrap, land7.
  pose proof (low_range w (- d) Hw) as Hv.
  destruct (Z.eqb_spec d 0) as [->|Hn].
  - change (- 0) with 0. replace (low w 0) with 0 in * by (unfold low; widths Hw; reflexivity).
    rewrite set_comm_ok by auto. f_equal. unfold put6, put_szp. flags_eq. widths Hw; reflexivity.
  - rewrite set_comm_ok by auto. f_equal. unfold put6, put_szp. flags_eq.
Qed.
Lemma alu_neg_ok w d f : width w -> inrange w d -> alu_neg w d f = emu_neg w d f.
Proof. intros Hw Hd. apply alu_neg_exact; auto. Qed.

(** The operation selected by number. *)
Definition op_of (k : Z) : aluop := if k =? 8 then TEST else aluop_of k.
Lemma alu_op_ok k w d s f : width w -> inrange w d -> inrange w s -> 0 <= k <= 8 ->
  alu (op_of k) w d s f = alu_result k w d s f.
Proof.
  intros Hw Hd Hs Hk.
  assert (k = 0 \/ k = 1 \/ k = 2 \/ k = 3 \/ k = 4 \/ k = 5 \/ k = 6 \/ k = 7 \/ k = 8) as Hc by lia.
  destruct Hc as [-> | [-> | [-> | [-> | [-> | [-> | [-> | [-> | ->]]]]]]]]; cbn [op_of Z.eqb Pos.eqb aluop_of alu_result];
  auto using alu_add_ok, alu_or_ok, alu_adc_ok, alu_and_ok, alu_sub_ok, alu_xor_ok, alu_cmp_ok, alu_test_ok, alu_sbb_ok.
Qed.
Lemma alu_result_range k w d s f : width w -> inrange w d -> inrange w s ->
  inrange w (fst (alu_result k w d s f)).
Proof.
  intros Hw Hd Hs. unfold alu_result.
  destruct k as [|[[[]|[]|]|[[]|[]|]|]|]; cbn [fst spec_add spec_sub emu_sbb spec_logic];
  auto using low_range, land_range, lor_range, lxor_range.
Qed.

(** Clearing OF, ZF, SF, PF before the operation makes no difference. *)
Lemma alu_preclear op w d s f : width w -> inrange w d -> inrange w s ->
  alu op w d s (fclear (M_OF + M_ZF + M_SF + M_PF) f) = alu op w d s f.
Proof.
  intros Hw Hd Hs.
  assert (Hcf : forall f, flag CF (fclear (M_OF + M_ZF + M_SF + M_PF) f) = flag CF f).
  { intros g. unfold flag. repeat tb_step. tb_simpl. reflexivity. }
  assert (Hp6 : forall c a o v f, put6 c a o w v (fclear (M_OF + M_ZF + M_SF + M_PF) f) = put6 c a o w v f).
  { intros. unfold put6, put_szp. flags_eq. }
  assert (Hlog : forall v f, spec_logic w v (fclear (M_OF + M_ZF + M_SF + M_PF) f) = spec_logic w v f).
  { intros. unfold spec_logic. f_equal. unfold put_szp. flags_eq. }
  destruct op; rewrite ?alu_add_ok, ?alu_adc_ok, ?alu_or_ok, ?alu_and_ok, ?alu_xor_ok, ?alu_sub_ok,
    ?alu_cmp_ok, ?alu_test_ok by auto; rewrite ?Hlog; try reflexivity;
    try (unfold spec_add, spec_sub; rewrite ?Hcf, Hp6; reflexivity).
  rewrite (alu_sbb_exact w d s f _ Hw Hd Hs eq_refl).
  rewrite (alu_sbb_exact w d s _ _ Hw Hd Hs eq_refl). unfold emu_sbb. cbv zeta. rewrite Hcf, Hp6. reflexivity.
Qed.

(** Ranges of FLAGS. *)
Lemma put_range k b f : 0 <= k < 16 -> inrange 16 f -> inrange 16 (put k b f).
Proof.
  intros Hk Hf. assert (Hz : wrap 16 (put k b f) = put k b f).
  { apply Z.bits_inj'; intros i Hi. unfold wrap. rewrite Z.testbit_mod_pow2, tb_put by lia.
    destruct (Z.ltb_spec i 16); [reflexivity|]. cbn [andb].
    replace (i =? k) with false by lia.
    rewrite <- (wrap_small 16 f Hf). unfold wrap. rewrite Z.testbit_mod_pow2 by lia.
    replace (i <? 16) with false by lia. reflexivity. }
  rewrite <- Hz. apply wrap_range; lia.
Qed.
Lemma fclear_range m f : inrange 16 f -> inrange 16 (fclear m f).
Proof.
  intros Hf. assert (Hz : wrap 16 (fclear m f) = fclear m f).
  { apply Z.bits_inj'; intros i Hi. unfold wrap. rewrite Z.testbit_mod_pow2, tb_fclear by lia.
    destruct (Z.ltb_spec i 16); [reflexivity|]. cbn [andb].
    rewrite <- (wrap_small 16 f Hf). unfold wrap. rewrite Z.testbit_mod_pow2 by lia.
    replace (i <? 16) with false by lia. reflexivity. }
  rewrite <- Hz. apply wrap_range; lia.
Qed.
