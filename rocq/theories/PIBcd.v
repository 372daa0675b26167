(** End-to-end theorems: port I/O and decimal adjustment. *)
From Verif Require Import Base Cpu Alu Ops Machine Spec SpecOps SpecOps2 SpecBcd PBase PMem PRun PFrame PAlu PExec PIAlu PIAlu2 PShift PStep PIMov PIStack PIJump SpecSys PIInt PIMisc.

Section WithEnv.
Context (E : env) (base : Z).

(** ** Port I/O *)
Lemma st_io_in {Y} w port (k : Z -> M Y) a d g n l :
  bind (io_in E w port) k (mkSt a d g n l) =
  k (low w (port_in E (iolog a) w port))
    (mkSt (a_iolog (iolog a ++ [IoIn w port (low w (port_in E (iolog a) w port))]) a) d g n l).
Proof. reflexivity. Qed.
Lemma st_io_out {Y} w port v (k : unit -> M Y) a d g n l :
  bind (io_out w port v) k (mkSt a d g n l) =
  k tt (mkSt (a_iolog (iolog a ++ [IoOut w port v]) a) d g n l).
Proof. reflexivity. Qed.
Ltac iox := repeat first [xs E base | tail | rewrite st_io_in | rewrite st_io_out]; try reflexivity.
Lemma wreg_iolog w n v l a : with_reg w n v (a_iolog l a) = a_iolog l (with_reg w n v a).
Proof. unfold with_reg, with_gpr. destruct (w =? 8); [destruct (n <? 4)|]; reflexivity. Qed.

Lemma io_instr s pre p bs a' :
  fetched E base s pre p bs -> step_io (port_in E) p (ar s) bs = Some a' ->
  executes E s (pre ++ bs) a'.
Proof.
  intros Hf Hdec. destruct bs as [|op t]; [discriminate|].
  destruct (instr_ctx _ _ _ _ _ _ _ Hf) as (F & W & Hp & C & Hb).
  assert (Hc : (exists i, t = [i] /\ (op = 228 \/ op = 229 \/ op = 230 \/ op = 231)) \/
          (t = [] /\ (op = 236 \/ op = 237 \/ op = 238 \/ op = 239))).
  { clear - Hdec. unfold step_io in Hdec.
    destruct op as [|q|q]; try discriminate.
    destruct t as [|i [|? ?]].
    - right. split; [reflexivity|]. do 8 (destruct q as [q|q|]; try discriminate Hdec); auto.
    - left. exists i. split; [reflexivity|]. do 8 (destruct q as [q|q|]; try discriminate Hdec); auto.
    - exfalso. do 8 (destruct q as [q|q|]; try discriminate Hdec). }
  destruct Hc as [(i & -> & [->|[->|[->| ->]]])|(-> & [->|[->|[->| ->]]])];
    cbn [step_io] in Hdec; apply some_inj in Hdec; subst a';
    (frs Hf; [unfold x_in_ai, x_in_aix, x_out_ai, x_out_aix, x_in_adx, x_in_adxx, x_out_dxa, x_out_dxax, R_AX, R_DX; iox
             |blia|repeat first [apply flat_with_reg|apply flat_iolog]; auto with flat width; try lia
             |rewrite ?wreg_ip; reflexivity|]);
    rewrite ?low_low by (apply wpos; auto with width); try apply same_refl.
Qed.

(** ** Decimal adjustment *)
Lemma aflags_ip f a : r_ip (a_flags f a) = r_ip a.
Proof. reflexivity. Qed.
Lemma low8_add x y : low 8 (low 8 x + y) = low 8 (x + y).
Proof. unfold low. rewrite Zplus_mod_idemp_l. reflexivity. Qed.
Lemma low8_sub x y : low 8 (low 8 x - y) = low 8 (x - y).
Proof. unfold low. rewrite Zminus_mod_idemp_l. reflexivity. Qed.
Lemma af_cf_clear f : ftest M_AF (fclear M_CF f) = flag AF f.
Proof. rewrite ftest_AF. unfold flag. rewrite tb_fclear, tb_CF by lia. cbn. apply andb_true_r. Qed.
Lemma daa_ok al f : inrange 8 al ->
  let '(v, f') := bcd_daa al f in
  v = daa_value al f /\
  set_comm 8 v f' = put CF (adj_hi al f) (put AF (adj_lo al f) (put_szp 8 v f)).
Proof.
  intros Ha. unfold bcd_daa, daa_value, adj_lo, adj_hi. cbv zeta. rewrite af_cf_clear, ftest_CF.
  change wrap with low.
  destruct ((9 <? al mod 16) || flag 4 f), ((153 <? al) || flag 0 f);
  (split; [rewrite ?low8_add; rewrite ?Z.add_0_r; try reflexivity; symmetry; apply low_id, Ha|]);
  rewrite set_comm_ok by (auto using width8, low_range); unfold put_szp; try (destruct (250 <=? al)); flags_eq.
Qed.
Lemma das_ok al f : inrange 8 al ->
  let '(v, f') := bcd_das al f in
  v = das_value al f /\
  set_comm 8 v f' = put CF (adj_hi al f || (adj_lo al f && (al <? 6))) (put AF (adj_lo al f) (put_szp 8 v f)).
Proof.
  intros Ha. unfold bcd_das, das_value, adj_lo, adj_hi. cbv zeta. rewrite af_cf_clear, ftest_CF.
  change wrap with low.
  destruct ((9 <? al mod 16) || flag 4 f), ((153 <? al) || flag 0 f);
  (split; [rewrite ?low8_sub; rewrite ?Z.sub_0_r; try reflexivity; symmetry; apply low_id, Ha|]);
  rewrite set_comm_ok by (auto using width8, low_range); unfold put_szp; try (destruct (al <? 6)); flags_eq.
Qed.
Lemma mod16_range x : inrange 8 (x mod 16).
Proof. unfold inrange. change (2 ^ 8) with 256. lia. Qed.
Lemma aaa_ok (sg : Z) al ah f : sg = 1 \/ sg = -1 -> inrange 8 al -> inrange 8 ah ->
  let '(v, h, f') := (if sg =? 1 then bcd_aaa else bcd_aas) al ah f in
  v = (al + sg * (if adj_lo al f then 6 else 0)) mod 16 /\
  h = low 8 (ah + sg * b2z (adj_lo al f)) /\
  set_comm 8 v f' = put CF (adj_lo al f) (put AF (adj_lo al f) (put_szp 8 v f)).
Proof.
  intros [->| ->] Ha Hh; cbn [Z.eqb Pos.eqb]; unfold bcd_aaa, bcd_aas, adj_lo; rewrite ftest_AF;
  change wrap with low; unfold low;
  destruct ((9 <? al mod 16) || flag 4 f); cbn [b2z];
  (split; [|split; [|rewrite set_comm_ok by (auto using width8, mod16_range); unfold put_szp; flags_eq]]);
  unfold inrange in *; change (2 ^ 8) with 256 in *; lia.
Qed.

Ltac flg2 := auto 10 with flat.
Lemma aam_instr s pre p i : i <> 0 -> fetched E base s pre p [212; i] ->
  executes E s (pre ++ [212; i]) (aam i (ar s)).
Proof.
  intros Hi Hf. destruct (instr_ctx _ _ _ _ _ _ _ Hf) as (F & W & Hp & C & Hb).
  pose proof (reg_range 8 0 (ar s) width8 ltac:(lia)) as Hal.
  pose proof (reg_range 8 4 (ar s) width8 ltac:(lia)) as Hah.
  
    assert (Hir : inrange 8 i) by (apply (imm_range E base 8 _ _ _ _ F W width8 C eq_refl)).
    unfold aam, AL, AH, with_al, with_ah. cbv zeta.
    frs Hf; [unfold x_aam, R_AX; xs E base; replace (i =? 0) with false by lia; xrun E base
            |blia|flg2|rewrite aflags_ip, ?wreg_ip; reflexivity|].
    unfold inrange in *. change (2 ^ 8) with 256 in *.
    assert (0 <= reg 8 0 (ar s) mod i < i) by (apply Z.mod_pos_bound; lia).
    assert (0 <= reg 8 0 (ar s) / i < 256) by (split; [apply Z.div_pos; lia|apply Z.div_lt_upper_bound; nia]).
    rewrite set_comm_ok by (auto using width8; unfold inrange; lia). rewrite !wreg_flags.
    rewrite (low_id 8 (_ / _)), (low_id 8 (_ mod _)) by (unfold inrange; lia). apply same_refl.
Qed.
Lemma aad_instr s pre p i : fetched E base s pre p [213; i] ->
  executes E s (pre ++ [213; i]) (aad i (ar s)).
Proof.
  intros Hf. destruct (instr_ctx _ _ _ _ _ _ _ Hf) as (F & W & Hp & C & Hb).
  pose proof (reg_range 8 0 (ar s) width8 ltac:(lia)) as Hal.
  pose proof (reg_range 8 4 (ar s) width8 ltac:(lia)) as Hah.
  unfold aad, AL, AH, with_al, with_ah. cbv zeta.
    frs Hf; [unfold x_aad, R_AX; xrun E base
            |blia|flg2|rewrite aflags_ip, ?wreg_ip; reflexivity|].
    change wrap with low. rewrite low_low by lia. change (low 8 0) with 0. change (0 + 4) with 4.
    rewrite !wreg_flags.
    replace (fclear (M_OF + M_CF) (set_comm 8 (low 8 (reg 8 0 (ar s) + reg 8 4 (ar s) * i)) (r_flags (ar s))))
      with (put CF false (put OF false (put_szp 8 (low 8 (reg 8 0 (ar s) + reg 8 4 (ar s) * i)) (r_flags (ar s))))); [apply same_refl|].
    rewrite set_comm_ok by auto using width8, low_range. unfold put_szp. clear; set (z := low 8 _); generalize (r_flags (ar s)); clearbody z; clear; intros; flags_eq.
Qed.
Lemma daa_instr s pre p : fetched E base s pre p [39] ->
  executes E s (pre ++ [39]) (daa (ar s)).
Proof.
  intros Hf. destruct (instr_ctx _ _ _ _ _ _ _ Hf) as (F & W & Hp & C & Hb).
  pose proof (reg_range 8 0 (ar s) width8 ltac:(lia)) as Hal.
  pose proof (reg_range 8 4 (ar s) width8 ltac:(lia)) as Hah.
  unfold daa, AL, with_al. cbv zeta.
    pose proof (daa_ok (reg 8 0 (ar s)) (r_flags (ar s)) Hal) as Hd.
    destruct (bcd_daa (reg 8 0 (ar s)) (r_flags (ar s))) as [v f] eqn:Hq. destruct Hd as [Hv Hf2].
    frs Hf; [unfold x_daas, R_AX; xs E base; xs E base; rewrite Hq; xrun E base
            |blia|flg2|rewrite aflags_ip, ?wreg_ip; reflexivity|].
    rewrite Hf2, Hv. rewrite low_id by (apply low_range, width8). apply same_refl.
Qed.
Lemma das_instr s pre p : fetched E base s pre p [47] ->
  executes E s (pre ++ [47]) (das (ar s)).
Proof.
  intros Hf. destruct (instr_ctx _ _ _ _ _ _ _ Hf) as (F & W & Hp & C & Hb).
  pose proof (reg_range 8 0 (ar s) width8 ltac:(lia)) as Hal.
  pose proof (reg_range 8 4 (ar s) width8 ltac:(lia)) as Hah.
  unfold das, AL, with_al. cbv zeta.
    pose proof (das_ok (reg 8 0 (ar s)) (r_flags (ar s)) Hal) as Hd.
    destruct (bcd_das (reg 8 0 (ar s)) (r_flags (ar s))) as [v f] eqn:Hq. destruct Hd as [Hv Hf2].
    frs Hf; [unfold x_daas, R_AX; xs E base; xs E base; rewrite Hq; xrun E base
            |blia|flg2|rewrite aflags_ip, ?wreg_ip; reflexivity|].
    rewrite Hf2, Hv. rewrite low_id by (apply low_range, width8). apply same_refl.
Qed.
Lemma aaa_instr s pre p : fetched E base s pre p [55] ->
  executes E s (pre ++ [55]) (aaa (ar s)).
Proof.
  intros Hf. destruct (instr_ctx _ _ _ _ _ _ _ Hf) as (F & W & Hp & C & Hb).
  pose proof (reg_range 8 0 (ar s) width8 ltac:(lia)) as Hal.
  pose proof (reg_range 8 4 (ar s) width8 ltac:(lia)) as Hah.
  unfold aaa, AL, AH, with_al, with_ah. cbv zeta.
    pose proof (aaa_ok 1 (reg 8 0 (ar s)) (reg 8 4 (ar s)) (r_flags (ar s)) (or_introl eq_refl) Hal Hah) as Hd.
    cbn [Z.eqb Pos.eqb] in Hd.
    destruct (bcd_aaa (reg 8 0 (ar s)) (reg 8 4 (ar s)) (r_flags (ar s))) as [[v h] f] eqn:Hq. destruct Hd as (Hv & Hh & Hf2).
    frs Hf; [unfold x_aaas, R_AX; xs E base; xs E base; change (0 + 4) with 4; xs E base; rewrite Hq; xrun E base
            |blia|flg2|rewrite aflags_ip, ?wreg_ip; reflexivity|].
    rewrite Z.mul_1_l in *. rewrite Hf2, Hv, Hh. change (0 + 4) with 4.
    rewrite low_low by lia. rewrite (low_id 8 (_ mod _)) by apply mod16_range. apply same_refl.
Qed.
Lemma aas_instr s pre p : fetched E base s pre p [63] ->
  executes E s (pre ++ [63]) (aas (ar s)).
Proof.
  intros Hf. destruct (instr_ctx _ _ _ _ _ _ _ Hf) as (F & W & Hp & C & Hb).
  pose proof (reg_range 8 0 (ar s) width8 ltac:(lia)) as Hal.
  pose proof (reg_range 8 4 (ar s) width8 ltac:(lia)) as Hah.
  unfold aas, AL, AH, with_al, with_ah. cbv zeta.
    pose proof (aaa_ok (-1) (reg 8 0 (ar s)) (reg 8 4 (ar s)) (r_flags (ar s)) (or_intror eq_refl) Hal Hah) as Hd.
    cbn [Z.eqb] in Hd.
    destruct (bcd_aas (reg 8 0 (ar s)) (reg 8 4 (ar s)) (r_flags (ar s))) as [[v h] f] eqn:Hq. destruct Hd as (Hv & Hh & Hf2).
    frs Hf; [unfold x_aaas, R_AX; xs E base; xs E base; change (0 + 4) with 4; xs E base; rewrite Hq; xrun E base
            |blia|flg2|rewrite aflags_ip, ?wreg_ip; reflexivity|].
    replace (-1 * (if adj_lo (reg 8 0 (ar s)) (r_flags (ar s)) then 6 else 0)) with (- (if adj_lo (reg 8 0 (ar s)) (r_flags (ar s)) then 6 else 0)) in Hv by (destruct (adj_lo _ _); reflexivity).
    replace (-1 * b2z (adj_lo (reg 8 0 (ar s)) (r_flags (ar s)))) with (- b2z (adj_lo (reg 8 0 (ar s)) (r_flags (ar s)))) in Hh by (destruct (adj_lo _ _); reflexivity).
    rewrite Z.add_opp_r in Hv, Hh. rewrite Hf2, Hv, Hh. change (0 + 4) with 4.
    rewrite low_low by lia. rewrite (low_id 8 (_ mod _)) by apply mod16_range. apply same_refl.
Qed.
Lemma bcd_instr s pre p bs a' :
  fetched E base s pre p bs -> step_bcd (ar s) bs = Some a' ->
  executes E s (pre ++ bs) a'.
Proof.
  intros Hf Hdec. destruct bs as [|op t]; [discriminate|].
  destruct (instr_ctx _ _ _ _ _ _ _ Hf) as (F & W & Hp & C & Hb).
  assert (Hc : (exists i, t = [i] /\ (op = 212 \/ op = 213)) \/
          (t = [] /\ (op = 39 \/ op = 47 \/ op = 55 \/ op = 63))).
  { clear - Hdec. unfold step_bcd in Hdec.
    destruct op as [|q|q]; try discriminate.
    destruct t as [|i [|? ?]].
    - right. split; [reflexivity|]. repeat (destruct q as [q|q|]; try discriminate Hdec); auto.
    - left. exists i. split; [reflexivity|]. repeat (destruct q as [q|q|]; try discriminate Hdec); auto.
    - exfalso. repeat (destruct q as [q|q|]; try discriminate Hdec). }
  destruct Hc as [(i & -> & [->| ->])|(-> & [->|[->|[->| ->]]])]; cbn [step_bcd] in Hdec.
  - destruct (Z.eqb_spec i 0) as [|Hi]; [discriminate|]. apply some_inj in Hdec; subst a'. apply aam_instr with p; auto.
  - apply some_inj in Hdec; subst a'. apply aad_instr with p; auto.
  - apply some_inj in Hdec; subst a'. apply daa_instr with p; auto.
  - apply some_inj in Hdec; subst a'. apply das_instr with p; auto.
  - apply some_inj in Hdec; subst a'. apply aaa_instr with p; auto.
  - apply some_inj in Hdec; subst a'. apply aas_instr with p; auto.
Qed.
(** AAM 0 raises interrupt 0. *)
Lemma aam_zero s pre p : fetched E base s pre p [0xD4; 0] -> faults E s.
Proof.
  intros Hf. destruct (instr_ctx _ _ _ _ _ _ _ Hf) as (F & W & Hp & C & Hb).
  eapply run_fault; [exact Hf|reflexivity|].
  cbn [exec1 e_op e_arg]. unfold x_aam. xs E base. cbn [Z.eqb]. reflexivity.
Qed.
End WithEnv.

(** ** Decimal arithmetic: an adjustment after a binary operation gives the decimal result *)
Lemma put6_CF c af o w v f : flag CF (put6 c af o w v f) = c.
Proof. unfold flag, put6. rewrite tb_put by lia. reflexivity. Qed.
Lemma put6_AF c af o w v f : flag AF (put6 c af o w v f) = af.
Proof. unfold flag, put6. rewrite !tb_put by lia. reflexivity. Qed.
Definition digits : list Z := [0; 1; 2; 3; 4; 5; 6; 7; 8; 9].
Lemma digit_in x : digit x -> In x digits.
Proof. unfold digit, digits. cbn. lia. Qed.
Lemma packed_digits x : packed x -> exists h l, x = 16 * h + l /\ In h digits /\ In l digits /\
  digit h /\ digit l /\ decimal x = 10 * h + l.
Proof.
  intros (H0 & Hh & Hl). exists (x / 16), (x mod 16).
  split; [apply Z.div_mod; lia|]. auto 10 using digit_in.
Qed.
Definition packedb (x : Z) : bool :=
  (0 <=? x) && (0 <=? x / 16) && (x / 16 <=? 9) && (0 <=? x mod 16) && (x mod 16 <=? 9).
Lemma packedb_ok x : packedb x = true -> packed x.
Proof. unfold packedb, packed, digit. rewrite !andb_true_iff. lia. Qed.
Definition upto (lo : Z) (n : nat) : list Z := map (fun k => lo + Z.of_nat k) (seq 0 n).
Lemma upto_in lo n x : lo <= x < lo + Z.of_nat n -> In x (upto lo n).
Proof.
  intros H. unfold upto. apply in_map_iff. exists (Z.to_nat (x - lo)). split; [lia|]. apply in_seq. lia.
Qed.
Lemma all2 (P : Z -> Z -> bool) a n b m :
  forallb (fun u => forallb (P u) (upto b m)) (upto a n) = true ->
  forall u t, a <= u < a + Z.of_nat n -> b <= t < b + Z.of_nat m -> P u t = true.
Proof.
  intros H u t Hu Ht. rewrite forallb_forall in H. specialize (H u (upto_in _ _ _ Hu)).
  rewrite forallb_forall in H. exact (H t (upto_in _ _ _ Ht)).
Qed.
(** The adjustments as functions of the two flags they read. *)
Definition daa_v (al : Z) (c af : bool) : Z :=
  (al + (if (9 <? al mod 16) || af then 6 else 0) + (if (0x99 <? al) || c then 0x60 else 0)) mod 256.
Definition das_v (al : Z) (c af : bool) : Z :=
  (al - (if (9 <? al mod 16) || af then 6 else 0) - (if (0x99 <? al) || c then 0x60 else 0)) mod 256.
Lemma daa_add x y c f : packed x -> packed y -> c = 0 \/ c = 1 ->
  let '(v, f1) := spec_add 8 x y c f in
  packed (daa_value v f1) /\
  decimal (daa_value v f1) + 100 * b2z (adj_hi v f1) = decimal x + decimal y + c.
Proof.
  intros Hx Hy Hc. destruct (packed_digits x Hx) as (h & l & -> & Ih & Il & Dh & Dl & ->).
  destruct (packed_digits y Hy) as (h' & l' & -> & Ih' & Il' & Dh' & Dl' & ->).
  pose (P := fun u t : Z => let v := (16 * u + t) mod 256 in
    let cf := 256 <=? 16 * u + t in let af := 16 <=? t in
    packedb (daa_v v cf af) &&
    (decimal (daa_v v cf af) + 100 * b2z ((0x99 <? v) || cf) =? 10 * u + t)).
  unfold digit in *.
  assert (H : P (h + h') (l + l' + c) = true).
  { refine (all2 P 0 19 0 20 _ _ _ _ _); [vm_compute; reflexivity|lia|lia]. }
  unfold P in H. cbv zeta in H. apply andb_true_iff in H as [H1 H2].
  unfold spec_add. cbv zeta. unfold daa_value, adj_lo, adj_hi. rewrite put6_CF, put6_AF.
  replace ((16 * h + l) mod 16) with l by lia. replace ((16 * h' + l') mod 16) with l' by lia.
  replace (16 * h + l + (16 * h' + l') + c) with (16 * (h + h') + (l + l' + c)) by lia.
  apply packedb_ok in H1. apply Z.eqb_eq in H2. split; [exact H1|].
  transitivity (10 * (h + h') + (l + l' + c)); [exact H2|lia].
Qed.
Lemma das_sub x y c f : packed x -> packed y -> c = 0 \/ c = 1 ->
  let '(v, f1) := spec_sub 8 x y c f in
  packed (das_value v f1) /\
  decimal (das_value v f1) - 100 * b2z (adj_hi v f1 || (adj_lo v f1 && (v <? 6))) = decimal x - decimal y - c.
Proof.
  intros Hx Hy Hc. destruct (packed_digits x Hx) as (h & l & -> & Ih & Il & Dh & Dl & ->).
  destruct (packed_digits y Hy) as (h' & l' & -> & Ih' & Il' & Dh' & Dl' & ->).
  pose (P := fun u t : Z => let v := (16 * u + t) mod 256 in
    let cf := 16 * u + t <? 0 in let af := t <? 0 in
    packedb (das_v v cf af) &&
    (decimal (das_v v cf af) - 100 * b2z (((0x99 <? v) || cf) || (((9 <? v mod 16) || af) && (v <? 6)))
       =? 10 * u + t)).
  unfold digit in *.
  assert (H : P (h - h') (l - l' - c) = true).
  { refine (all2 P (-9) 19 (-10) 20 _ _ _ _ _); [vm_compute; reflexivity|lia|lia]. }
  unfold P in H. cbv zeta in H. apply andb_true_iff in H as [H1 H2].
  unfold spec_sub. cbv zeta. unfold das_value, adj_lo, adj_hi. rewrite put6_CF, put6_AF.
  replace ((16 * h + l) mod 16) with l by lia. replace ((16 * h' + l') mod 16) with l' by lia.
  replace (16 * h + l - (16 * h' + l') - c) with (16 * (h - h') + (l - l' - c)) by lia.
  replace (16 * h + l <? 16 * h' + l' + c) with (16 * (h - h') + (l - l' - c) <? 0) by lia.
  replace (l <? l' + c) with (l - l' - c <? 0) by lia.
  apply packedb_ok in H1. apply Z.eqb_eq in H2. split; [exact H1|].
  transitivity (10 * (h - h') + (l - l' - c)); [exact H2|lia].
Qed.
(** Unpacked digits: AAA leaves the last digit in AL and adds the carry to AH. *)
Lemma aaa_add x y c f : digit x -> digit y -> c = 0 \/ c = 1 ->
  let '(v, f1) := spec_add 8 x y c f in
  digit ((v + (if adj_lo v f1 then 6 else 0)) mod 16) /\
  (v + (if adj_lo v f1 then 6 else 0)) mod 16 + 10 * b2z (adj_lo v f1) = x + y + c.
Proof.
  intros Hx Hy Hc. unfold digit in *. unfold spec_add. cbv zeta. unfold adj_lo. rewrite put6_AF.
  assert (Hv : low 8 (x + y + c) = x + y + c) by (apply low_id; unfold inrange; lia). rewrite Hv.
  rewrite (Z.mod_small x 16), (Z.mod_small y 16) by lia.
  destruct (Z.leb_spec 16 (x + y + c)), (Z.ltb_spec 9 ((x + y + c) mod 16)); cbn [orb b2z]; lia.
Qed.
Lemma aas_sub x y c f : digit x -> digit y -> c = 0 \/ c = 1 ->
  let '(v, f1) := spec_sub 8 x y c f in
  digit ((v - (if adj_lo v f1 then 6 else 0)) mod 16) /\
  (v - (if adj_lo v f1 then 6 else 0)) mod 16 - 10 * b2z (adj_lo v f1) = x - y - c.
Proof.
  intros Hx Hy Hc. unfold digit in *. unfold spec_sub. cbv zeta. unfold adj_lo. rewrite put6_AF.
  unfold low. change (2 ^ 8) with 256.
  rewrite (Z.mod_small x 16), (Z.mod_small y 16) by lia.
  destruct (Z.ltb_spec x (y + c)), (Z.ltb_spec 9 (((x - y - c) mod 256) mod 16)); cbn [orb b2z]; lia.
Qed.
