(** Rotates and shifts restated bit by bit. *)
From Verif Require Import Base Cpu Alu Ops Machine Spec SpecOps SpecTop PBase PMem PRun PFrame PAlu PExec PShift PStep PIUn PFlags PSmall3 PIAlu PIAlu2.
Lemma decode_shift_ok E base s pre p bs op w r cnt : fetched E base s pre p bs ->
  decode_shift p (ar s) bs = Some (op, w, r, cnt) -> operand_ok p (ar s) bs ->
  width w /\ rm_ok r /\ 0 <= op < 8 /\ inrange w (rd_rm w r (ar s)).
Proof.
  intros Hf Hd Ho. destruct (shift_frame E base s pre p bs op w r cnt Hf Hd Ho) as (Hw & Hr & H8 & _).
  pose proof Hf as (R & _). destruct R as [F W PC Hc]. do 3 (split; [assumption|]). eapply rd_rm_range; eauto.
Qed.
Lemma shift_zero E base s pre p bs op w r cnt : fetched E base s pre p bs ->
  decode_shift p (ar s) bs = Some (op, w, r, cnt) -> operand_ok p (ar s) bs -> cnt mod 32 = 0 -> executes E s (pre ++ bs) (ar s).
Proof.
  intros Hf Hd Ho Hz. destruct (shift_frame E base s pre p bs op w r cnt Hf Hd Ho) as (Hw & Hr & H8 & _).
  assert (Hc : shift_count_ok op w cnt).
  { assert (op = 0 \/ op = 1 \/ op = 2 \/ op = 3 \/ op = 4 \/ op = 5 \/ op = 6 \/ op = 7) as K by lia.
    destruct K as [->|[->|[->|[->|[->|[->|[->| ->]]]]]]]; cbn [shift_count_ok]; try exact I; destruct Hw as [->|[->| ->]]; lia. }
  destruct (shift_instr E base s pre p bs op w r cnt Hf Hd Ho Hc) as (o & _ & X).
  unfold shift_effect in X. rewrite Hz in X. cbn [Z.eqb] in X. destruct (spec_shift op w cnt _ _ o). exact X.
Qed.
(** Shape of a non-zero shift. *)
Lemma shift_some E base s pre p bs op w r cnt : fetched E base s pre p bs ->
  decode_shift p (ar s) bs = Some (op, w, r, cnt) -> operand_ok p (ar s) bs -> shift_count_ok op w cnt -> cnt mod 32 <> 0 ->
  let d := rd_rm w r (ar s) in let f := r_flags (ar s) in
  exists o v c, Nat.iter (Z.to_nat (cnt mod 32)) (shift1 op w) (d, flag CF f) = (v, c) /\ inrange w v /\
    (cnt mod 32 = 1 -> o = shift_of op w d v (flag CF f) c) /\
    executes E s (pre ++ bs) (wr_rm w r v (a_flags (put CF c (put OF o (if op <? 4 then f else put_szp w v f))) (ar s))).
Proof.
  intros Hf Hd Ho Hc Hz. cbv zeta. destruct (decode_shift_ok _ _ _ _ _ _ _ _ _ _ Hf Hd Ho) as (Hw & Hr & H8 & Hv).
  destruct (shift_instr E base s pre p bs op w r cnt Hf Hd Ho Hc) as (o & Hof & X).
  unfold shift_effect, spec_shift in X. replace (cnt mod 32 =? 0) with false in X by lia.
  unfold shift_n in X. unfold shift_of_ok, shift_n in Hof.
  pose proof (shiftn_range op w (Z.to_nat (cnt mod 32)) (rd_rm w r (ar s), flag CF (r_flags (ar s))) Hw Hv) as Hrng.
  destruct (Nat.iter (Z.to_nat (cnt mod 32)) (shift1 op w) (rd_rm w r (ar s), flag CF (r_flags (ar s)))) as [v c] eqn:Hi.
  exists o, v, c. split; [reflexivity|]. split; [exact Hrng|]. split; [|exact X].
  intros H1. specialize (Hof H1). change (Z.to_nat 1) with 1%nat in Hof. rewrite H1 in Hi. change (Z.to_nat 1) with 1%nat in Hi. rewrite Hi in Hof. exact Hof.
Qed.
Lemma rot_put c o f : let f' := put CF c (put OF o f) in flag CF f' = c /\ flag OF f' = o /\ other_flags [CF; OF] f f'.
Proof. cbv zeta. flagw. repeat split. others. Qed.
Lemma shf_put w v c o f : 0 < w -> inrange w v -> let f' := put CF c (put OF o (put_szp w v f)) in
  flag CF f' = c /\ flag OF f' = o /\ result_flags w v f' /\ other_flags [CF; PF; ZF; SF; OF] f f'.
Proof. cbv zeta. intros Hw Hv. unfold result_flags, put_szp, even_parity. flagw. rewrite sign_top by auto. repeat split. others. Qed.
Lemma carry_enc w v c : with_carry w v c = enc w (v, c).
Proof. unfold with_carry, enc. destruct c; cbn [b2z fst snd]; lia. Qed.
Lemma rcl_bits w n v c v' c' : width w -> inrange w v -> 0 <= n -> Nat.iter (Z.to_nat n) (shift1 2 w) (v, c) = (v', c') ->
  rotated_left (w + 1) n (with_carry w v c) (with_carry w v' c').
Proof.
  intros Hw Hv Hn H. rewrite !carry_enc. pose proof (enc_rcl_n w (Z.to_nat n) v c Hw Hv) as X. rewrite H in X.
  pose proof (width_pos w Hw). destruct (rol_iter (w + 1) (Z.to_nat n) (enc w (v, c)) ltac:(lia) (enc_range w v c Hw Hv)) as [H1 H2].
  rewrite X. split; [exact H1|]. rewrite Z2Nat.id in H2 by lia. exact H2.
Qed.
Lemma rcr_bits w n v c v' c' : width w -> inrange w v -> 0 <= n -> Nat.iter (Z.to_nat n) (shift1 3 w) (v, c) = (v', c') ->
  rotated_right (w + 1) n (with_carry w v c) (with_carry w v' c').
Proof.
  intros Hw Hv Hn H. rewrite !carry_enc. pose proof (enc_rcr_n w (Z.to_nat n) v c Hw Hv) as X. rewrite H in X.
  pose proof (width_pos w Hw). destruct (ror_iter (w + 1) (Z.to_nat n) (enc w (v, c)) ltac:(lia) (enc_range w v c Hw Hv)) as [H1 H2].
  rewrite X. split; [exact H1|]. rewrite Z2Nat.id in H2 by lia. exact H2.
Qed.
From Verif Require Import SpecDbl PIDbl PAlg PSmall2.
Lemma is_null_same a a1 a2 bs : same a1 a2 -> is_null a a1 bs = is_null a a2 bs.
Proof. intros S. unfold is_null. f_equal; [f_equal|]; f_equal; unfold byte, host; rewrite (sm_mtab _ _ S), (sm_mem _ _ S); reflexivity. Qed.
Lemma executes_to_same E s bs a1 a2 : executes_to E s bs a1 -> same a1 a2 -> executes_to E s bs a2.
Proof.
  intros (s' & R & S & I1 & I2 & I3) H. exists s'. rewrite <- (is_null_same (ar s) a1 a2 bs H).
  split; [exact R|]. split; [eapply same_trans; eauto|]. auto.
Qed.
Lemma executes_same E s bs a1 a2 : executes E s bs a1 -> same a1 a2 -> executes E s bs a2.
Proof. intros H S. eapply executes_to_same; [exact H|]. unfold next. destruct S. constructor; auto. Qed.
Lemma decode_dbl_ok E base s pre p bs left w r src n : fetched E base s pre p bs ->
  decode_dbl p (ar s) bs = Some (left, w, r, src, n) -> width w /\ rm_ok r /\ 0 <= src < 8 /\ 0 <= n.
Proof.
  intros Hf Hdec. destruct bs as [|op t]; [discriminate|].
  destruct (Z.eqb_spec op 15) as [->|Hne].
  2:{ exfalso. clear - Hdec Hne. unfold decode_dbl in Hdec. destruct op as [|q|q]; try discriminate.
      do 4 (destruct q as [q|q|]; try discriminate Hdec). lia. }
  destruct t as [|op2 t2]; [discriminate|].
  destruct (instr_ctx _ _ _ _ _ _ _ Hf) as (F & W & Hp & C & Hb). pose proof (instr_ctx2 _ _ _ _ _ _ _ _ Hf) as C2.
  cbn [decode_dbl] in Hdec. destruct (parse_rm p (ar s) t2) as [[[rg r'] rest]|] eqn:Hr; [|discriminate].
  destruct (parse_rm_ok p (ar s) t2 rg r' rest W Hr) as [Hrok Hrg].
  assert (Ci : forall i, imm 8 rest = Some i -> 0 <= i).
  { intros i Hi. assert (Cr : code_from (ar s) (blen pre + 2 + (blen t2 - blen rest)) rest).
    { eapply code_rest; eauto. }
    assert (R : inrange 8 i) by (eapply imm_range with (base := base); eauto with width). unfold inrange in R. lia. }
  assert (Cc : 0 <= reg 8 1 (ar s)).
  { pose proof (reg_range 8 1 (ar s) width8 ltac:(lia)) as R. unfold inrange in R. lia. }
  destruct (op2 =? 164); [destruct (imm 8 rest) eqn:Hi; [|discriminate]; injection Hdec as <- <- <- <- <-; cbn; split; [auto with width|]; auto|].
  destruct (op2 =? 172); [destruct (imm 8 rest) eqn:Hi; [|discriminate]; injection Hdec as <- <- <- <- <-; cbn; split; [auto with width|]; auto|].
  destruct (op2 =? 165); [destruct rest; [|discriminate]; injection Hdec as <- <- <- <- <-; split; [auto with width|]; auto|].
  destruct (op2 =? 173); [destruct rest; [|discriminate]; injection Hdec as <- <- <- <- <-; split; [auto with width|]; auto|discriminate].
Qed.
Lemma dbl_left_value w d s n : width w -> inrange w d -> inrange w s -> 0 <= n <= w ->
  ((d * 2 ^ w + s) * 2 ^ n / 2 ^ w) mod 2 ^ w = (d * 2 ^ n) mod 2 ^ w + s / 2 ^ (w - n).
Proof.
  intros Hw Hd Hs Hn. pose proof (width_pos w Hw) as Hp.
  assert (P1 : 0 < 2 ^ n) by (apply Z.pow_pos_nonneg; lia). assert (P2 : 0 < 2 ^ (w - n)) by (apply Z.pow_pos_nonneg; lia).
  assert (PW : 2 ^ w = 2 ^ n * 2 ^ (w - n)) by (rewrite <- Z.pow_add_r by lia; f_equal; lia).
  replace ((d * 2 ^ w + s) * 2 ^ n) with (s * 2 ^ n + d * 2 ^ n * 2 ^ w) by ring.
  rewrite Z.div_add by lia.
  replace (s * 2 ^ n / 2 ^ w) with (s / 2 ^ (w - n)).
  2:{ rewrite PW at 1. rewrite Z.mul_comm. rewrite Z.div_mul_cancel_l by lia. reflexivity. }
  assert (B : 0 <= s / 2 ^ (w - n) < 2 ^ n). { unfold inrange in Hs. split; [apply Z.div_pos; lia|apply Z.div_lt_upper_bound; nia]. }
  rewrite PW at 1. rewrite PW. 
  rewrite (Z.mul_comm d). rewrite Z.mul_mod_distr_l by lia.
  rewrite Z.add_comm. rewrite Z.rem_mul_r by lia.
  replace ((2 ^ n * d + s / 2 ^ (w - n)) mod 2 ^ n) with (s / 2 ^ (w - n)).
  2:{ rewrite Z.add_comm, Z.mul_comm, Z.mod_add by lia. symmetry. apply Z.mod_small. exact B. }
  replace ((2 ^ n * d + s / 2 ^ (w - n)) / 2 ^ n) with d.
  2:{ rewrite Z.add_comm, Z.mul_comm, Z.div_add by lia. rewrite (Z.div_small _ _ B). lia. }
  lia.
Qed.
Lemma dbl_right_value w d s n : width w -> inrange w d -> inrange w s -> 0 <= n <= w ->
  ((s * 2 ^ w + d) / 2 ^ n) mod 2 ^ w = d / 2 ^ n + (s * 2 ^ (w - n)) mod 2 ^ w.
Proof.
  intros Hw Hd Hs Hn. pose proof (width_pos w Hw) as Hp.
  assert (P1 : 0 < 2 ^ n) by (apply Z.pow_pos_nonneg; lia). assert (P2 : 0 < 2 ^ (w - n)) by (apply Z.pow_pos_nonneg; lia).
  assert (PW : 2 ^ w = 2 ^ (w - n) * 2 ^ n) by (rewrite <- Z.pow_add_r by lia; f_equal; lia).
  replace (s * 2 ^ w + d) with (d + s * 2 ^ (w - n) * 2 ^ n) by (rewrite PW; ring).
  rewrite Z.div_add by lia.
  assert (B : 0 <= d / 2 ^ n < 2 ^ (w - n)). { unfold inrange in Hd. split; [apply Z.div_pos; lia|apply Z.div_lt_upper_bound; nia]. }
  rewrite PW. rewrite (Z.mul_comm s). rewrite Z.mul_mod_distr_l by lia.
  rewrite Z.rem_mul_r by lia.
  replace ((d / 2 ^ n + 2 ^ (w - n) * s) mod 2 ^ (w - n)) with (d / 2 ^ n).
  2:{ rewrite (Z.mul_comm _ s), Z.mod_add by lia. symmetry. apply Z.mod_small. exact B. }
  replace ((d / 2 ^ n + 2 ^ (w - n) * s) / 2 ^ (w - n)) with s; [reflexivity|].
  rewrite (Z.mul_comm _ s), Z.div_add by lia. rewrite (Z.div_small _ _ B). lia.
Qed.
Lemma dbl_prop E base s pre p bs (left : bool) w r src n :
  fetched E base s pre p bs -> decode_dbl p (ar s) bs = Some (left, w, r, src, n) -> operand_ok p (ar s) bs -> dbl_supported w r src n ->
  let d := rd_rm w r (ar s) in let v := if left then ((d * 2 ^ w + reg w src (ar s)) * 2 ^ n / 2 ^ w) mod 2 ^ w else ((reg w src (ar s) * 2 ^ w + d) / 2 ^ n) mod 2 ^ w in
  exists f', (n = 0 -> f' = r_flags (ar s)) /\ 
    (n <> 0 -> flag CF f' = Z.testbit d (if left then w - n else n - 1) /\ result_flags w v f' /\ (n = 1 -> flag OF f' = xorb (Z.testbit d (w - 1)) (Z.testbit v (w - 1))) /\
       other_flags [CF; PF; AF; ZF; SF; OF] (r_flags (ar s)) f') /\
    executes E s (pre ++ bs) (wr_rm w r v (a_flags f' (ar s))).
Proof.
  intros Hf Hd Ho Hs. cbv zeta. pose proof (dbl_instr E base s pre p bs left w r src n Hf Hd Ho Hs) as X.
  destruct (decode_dbl_ok _ _ _ _ _ _ _ _ _ _ _ Hf Hd) as (Hw & Hr & Hsrc & Hn).
  pose proof Hf as (R & _). destruct R as [F W PC Hc].
  pose proof (rd_rm_range E base (ar s) w r F Hw Hr) as Hdr. pose proof (reg_range w src (ar s) Hw Hsrc) as Hsr.
  destruct Hs as (_ & _ & Hnw & Hn32). pose proof (width_pos w Hw).
  set (v := if left then ((rd_rm w r (ar s) * 2 ^ w + reg w src (ar s)) * 2 ^ n / 2 ^ w) mod 2 ^ w else ((reg w src (ar s) * 2 ^ w + rd_rm w r (ar s)) / 2 ^ n) mod 2 ^ w).
  assert (Hv : v = if n =? 0 then rd_rm w r (ar s) else dbl_value left w (rd_rm w r (ar s)) (reg w src (ar s)) n).
  { unfold v, dbl_value. destruct left.
    - rewrite dbl_left_value by (auto; lia). destruct (Z.eqb_spec n 0) as [->|]; [|reflexivity].
      change (2 ^ 0) with 1. rewrite Z.mul_1_r, Z.sub_0_r. unfold inrange in *. rewrite Z.mod_small, Z.div_small by lia. lia.
    - rewrite dbl_right_value by (auto; lia). destruct (Z.eqb_spec n 0) as [->|]; [|reflexivity].
      change (2 ^ 0) with 1. rewrite Z.div_1_r, Z.sub_0_r. rewrite Z.mod_mul by (apply Z.pow_nonzero; lia). lia. }
  assert (Hvr : inrange w v). { unfold v. destruct left; apply Z.mod_pos_bound, Z.pow_pos_nonneg; lia. }
  unfold dbl_effect in X. destruct (Z.eqb_spec n 0) as [H0|H0].
  - exists (r_flags (ar s)). split; [auto|]. split; [lia|]. rewrite Hv, a_flags_self.
    eapply executes_same; [exact X|]. apply same_sym. eapply wr_rm_id; eauto.
  - rewrite <- Hv in X. eexists. split; [lia|]. split; [|exact X]. intros _.
    match goal with |- flag CF (put6 ?c ?a ?o w v ?f) = _ /\ _ => destruct (put6_flags c a o w v f ltac:(lia) Hvr) as (G1 & G2 & G3 & G4 & G5) end.
    split; [exact G1|]. split; [exact G4|]. split; [|exact G5]. intros ->. rewrite G3. cbn [Z.eqb Pos.eqb andb]. rewrite !PIDbl.top_bit by auto. reflexivity.
Qed.
