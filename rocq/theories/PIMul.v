(** End-to-end theorems: MUL, IMUL, DIV, IDIV. *)
From Verif Require Import Base Cpu Alu Ops Machine Spec SpecOps SpecOps2 SpecSys SpecMul PBase PMem PRun PFrame PAlu PExec PIAlu PIAlu2 PShift PStep PIMov PIStack PIJump PIInt.

Lemma cfof_ok c w v f : width w -> inrange w v ->
  set_cfof c (set_comm w v f) = mul_flags c w v f.
Proof.
  intros Hw Hv. rewrite set_comm_ok by auto. unfold set_cfof, mul_flags. generalize (put_szp w v f). intros f'.
  destruct c; [change (Z.lor f' (M_CF + M_OF)) with (fset true (M_CF + M_OF) f')|]; flags_eq.
Qed.
Lemma ovf_ok w v : imul_ovf w v = overflows w v.
Proof. reflexivity. Qed.

Section WithEnv.
Context (E : env) (base : Z).

Lemma st_accw {Y} w v (k : unit -> M Y) a d g n l : width w -> 
  bind (if w =? 8 then setW R_AX v else set_gpr 64 w (v / 2 ^ w) ;;; set_gpr 0 w v) k (mkSt a d g n l) =
  k tt (mkSt (with_acc2 w (low (2 * w) v) a) d g n l).
Proof.
  intros Hw. unfold R_AX, with_acc2. destruct (Z.eqb_spec w 8) as [->|Hn].
  - rewrite st_setW by lia. reflexivity.
  - rewrite st_bind. rewrite (st_setr 64 w 2), (st_setr 0 w 0) by (auto; try lia; unfold rpos; destruct Hw as [->|[->| ->]]; reflexivity || lia).
    replace (low w (v / 2 ^ w)) with (low (2 * w) v / 2 ^ w).
    + replace (low w v) with (low (2 * w) v mod 2 ^ w); [reflexivity|].
      unfold low. widths Hw; cbn; lia.
    + unfold low. widths Hw; cbn; lia.
Qed.
Lemma acc2_flags w v a : r_flags (with_acc2 w v a) = r_flags a.
Proof. unfold with_acc2. destruct (w =? 8); rewrite ?wreg_flags; reflexivity. Qed.
Lemma acc2_ip w v a : r_ip (with_acc2 w v a) = r_ip a.
Proof. unfold with_acc2. destruct (w =? 8); rewrite ?wreg_ip; reflexivity. Qed.
Lemma acc2_flat w v a : flat E base a -> flat E base (with_acc2 w v a).
Proof. intros. unfold with_acc2. destruct (w =? 8); auto with flat. Qed.
Hint Resolve acc2_flat : flat.

Lemma mul_body_ok w r a d g n l : flat E base a -> wf_regs a -> width w -> rm_ok r ->
  mul_body w (ptr_of base w r) (mkSt a d g n l) =
  Ok tt (mkSt (mul_effect w (rd_rm w r a) a) d g n l).
Proof.
  intros F W Hw Hr. pose proof (rd_rm_range' E base a w r F Hw Hr) as Hs.
  assert (Ha : inrange w (reg w 0 a)) by (auto with wf; apply reg_range; auto; lia).
  unfold mul_body. rewrite (st_load E base) by auto. rewrite (st_getr 0 w 0) by (auto; try lia; destruct Hw as [->|[->| ->]]; reflexivity).
  rewrite st_accw by auto. rewrite st_getflags. tail. rewrite st_set_flags. unfold ret, mul_effect. cbv zeta.
  rewrite acc2_flags. change (wrap w) with (low w). rewrite cfof_ok by (auto; apply low_range; auto).
  set (v := reg w 0 a * rd_rm w r a).
  assert (Hv : 0 <= v < 2 ^ (2 * w)).
  { subst v. unfold inrange in *. replace (2 ^ (2 * w)) with (2 ^ w * 2 ^ w) by (widths Hw; reflexivity). nia. }
  rewrite (low_id (2 * w) v) by exact Hv.
  replace (negb (v / 2 ^ w =? 0)) with (2 ^ w <=? v); [reflexivity|].
  widths Hw; cbn in *; lia.
Qed.
Lemma imul_body_ok w r a d g n l : flat E base a -> wf_regs a -> width w -> rm_ok r ->
  imul_body w (ptr_of base w r) (mkSt a d g n l) =
  Ok tt (mkSt (imul_effect w (rd_rm w r a) a) d g n l).
Proof.
  intros F W Hw Hr. pose proof (rd_rm_range' E base a w r F Hw Hr) as Hs.
  assert (Ha : inrange w (reg w 0 a)) by (apply reg_range; auto; lia).
  unfold imul_body. rewrite (st_load E base) by auto. rewrite (st_getr 0 w 0) by (auto; try lia; destruct Hw as [->|[->| ->]]; reflexivity).
  rewrite st_accw by auto. rewrite st_getflags. tail. rewrite st_set_flags. unfold ret, imul_effect. cbv zeta.
  rewrite acc2_flags. change (wrap w) with (low w). rewrite cfof_ok by (auto; apply low_range; auto).
  rewrite <- !signed_sgn by auto. reflexivity.
Qed.

Lemma acc2_st {Y} w (k : Z -> M Y) a d g n l : width w -> w <> 8 ->
  (hi <- get_gpr 64 w ;; lo <- get_gpr 0 w ;; k (hi * 2 ^ w + lo)) (mkSt a d g n l) =
  k (acc2 w a) (mkSt a d g n l).
Proof.
  intros Hw Hn. unfold acc2. replace (w =? 8) with false by lia.
  rewrite (st_getr 64 w 2), (st_getr 0 w 0) by (auto; try lia; unfold rpos; destruct Hw as [->|[->| ->]]; reflexivity || lia).
  reflexivity.
Qed.
Lemma acc2_range w a : wf_regs a -> width w -> 0 <= acc2 w a < 2 ^ (2 * w).
Proof.
  intros W Hw. unfold acc2. destruct (Z.eqb_spec w 8) as [->|].
  - apply (reg_range 16 0 a); auto with width; lia.
  - pose proof (reg_range w 0 a). pose proof (reg_range w 2 a). unfold inrange in *.
    replace (2 ^ (2 * w)) with (2 ^ w * 2 ^ w) by (widths Hw; reflexivity).
    specialize (H Hw ltac:(lia)). specialize (H0 Hw ltac:(lia)). nia.
Qed.
Lemma div_body_ok w r a d g n l : flat E base a -> wf_regs a -> width w -> rm_ok r ->
  div_body w (ptr_of base w r) (mkSt a d g n l) =
  match div_effect w (rd_rm w r a) a with
  | Some a' => Ok tt (mkSt a' d g n l)
  | None => Err E_DIVERR (mkSt a d g n l)
  end.
Proof.
  intros F W Hw Hr. pose proof (rd_rm_range' E base a w r F Hw Hr) as Hs.
  pose proof (acc2_range w a W Hw) as Hacc.
  unfold div_body. rewrite (st_load E base) by auto. unfold div_effect. cbv zeta.
  set (x := rd_rm w r a) in *. destruct (Z.eqb_spec x 0) as [|Hx]; [reflexivity|].
  assert (Hq : 0 <= acc2 w a / x) by (apply Z.div_pos; unfold inrange in *; lia).
  assert (Hm : 0 <= acc2 w a mod x < x) by (apply Z.mod_pos_bound; unfold inrange in *; lia).
  destruct (Z.eqb_spec w 8) as [->|Hn].
  - unfold R_AX. rewrite st_getW by lia. change (reg 16 0 a) with (acc2 8 a).
    destruct (Z.ltb_spec 255 (acc2 8 a / x)).
    + change (2 ^ 8) with 256; replace (acc2 8 a / x <? 256) with false by lia. reflexivity.
    + change (2 ^ 8) with 256; replace (acc2 8 a / x <? 256) with true by lia.
      rewrite st_setH by lia. tail. rewrite st_setL by lia. rewrite !low_id by (unfold inrange in *; cbn in *; lia). reflexivity.
  - rewrite (acc2_st w (fun n => if 2 ^ w - 1 <? n / x then err E_DIVERR else set_gpr 64 w (n mod x) ;;; set_gpr 0 w (n / x))) by auto.
    destruct (Z.ltb_spec (2 ^ w - 1) (acc2 w a / x)).
    + replace (acc2 w a / x <? 2 ^ w) with false by lia. reflexivity.
    + replace (acc2 w a / x <? 2 ^ w) with true by lia.
      rewrite (st_setr 64 w 2) by (auto; try lia; unfold rpos; destruct Hw as [->|[->| ->]]; reflexivity || lia).
      tail. rewrite (st_setr 0 w 0) by (auto; try lia; unfold rpos; destruct Hw as [->|[->| ->]]; reflexivity || lia).
      rewrite !low_id by (unfold inrange in *; lia).
      unfold with_quot. replace (w =? 8) with false by lia. reflexivity.
Qed.
Lemma idiv_body_ok w r a d g n l : flat E base a -> wf_regs a -> (w = 8 \/ w = 16) -> rm_ok r ->
  ~ (w = 16 /\ most_negative_by_minus_one w (rd_rm w r a) a) ->
  idiv_body w (ptr_of base w r) (mkSt a d g n l) =
  match idiv_effect w (rd_rm w r a) a with
  | Some a' => Ok tt (mkSt a' d g n l)
  | None => Err E_DIVERR (mkSt a d g n l)
  end.
Proof.
  intros F W Hw' Hr Hmn. assert (Hw : width w) by (unfold width; tauto).
  pose proof (rd_rm_range' E base a w r F Hw Hr) as Hs.
  pose proof (acc2_range w a W Hw) as Hacc.
  unfold idiv_body. rewrite (st_load E base) by auto. unfold idiv_effect. cbv zeta.
  unfold most_negative_by_minus_one in Hmn.
  set (x := rd_rm w r a) in *.
  pose proof (signed_range w x Hw Hs) as Hsx.
  assert (Hsz : signed w x = 0 <-> x = 0).
  { clear - Hs Hw. unfold signed, inrange in *. pose proof (Z.pow_nonneg 2 (w - 1)).
    assert (0 < 2 ^ (w - 1)) by (apply Z.pow_pos_nonneg; destruct Hw as [->|[->| ->]]; lia).
    destruct (Z.ltb_spec x (2 ^ (w - 1))); [reflexivity|]. lia. }
  destruct (Z.eqb_spec x 0) as [Hx|Hx].
  { replace (signed w x =? 0) with true by lia. reflexivity. }
  replace (signed w x =? 0) with false by lia.
  rewrite <- (signed_sgn w x) by auto. set (den := signed w x) in *.
  destruct Hw' as [-> | ->].
  - cbn [Z.eqb Pos.eqb]. unfold R_AX. rewrite st_getW by lia. change (reg 16 0 a) with (acc2 8 a).
    rewrite <- (signed_sgn 16 (acc2 8 a)) by exact Hacc. change (2 * 8) with 16 in *. set (num := signed 16 (acc2 8 a)) in *.
    assert (Hnum : -32768 <= num < 32768) by (apply (signed_range 16); auto with width).
    change (2 ^ (8 - 1)) with 128 in Hsx.
    assert (Hden : den <> 0) by lia.
    pose proof (Z.quot_rem num den Hden) as Hqr.
    pose proof (Z.rem_bound_abs num den Hden) as Hrb.
    assert (Hqb : -32768 <= Z.quot num den <= 32768).
    { assert (Z.abs (Z.quot num den) <= Z.abs num); [|lia].
      rewrite <- Z.quot_abs by auto.
      destruct (Z.eq_dec (Z.abs den) 1) as [He|]; [rewrite He, Z.quot_1_r; lia|].
      destruct (Z.eq_dec num 0) as [->|]; [reflexivity|].
      apply Z.lt_le_incl, Z.quot_lt; lia. }
    assert (Hsq : sgn 16 (Z.quot num den) = if Z.quot num den =? 32768 then -32768 else Z.quot num den).
    { unfold sgn, wrap. cbn [Z.sub]. change (2 ^ (16 - 1)) with 32768. change (2 ^ 16) with 65536.
      destruct (_ <? _) eqn:H1; destruct (_ =? _) eqn:H2; lia. }
    rewrite Hsq. unfold overflows. change (- 2 ^ (8 - 1)) with (-128). change (2 ^ (8 - 1)) with 128.
    destruct (Z.eqb_spec (Z.quot num den) 32768) as [He|He].
    { rewrite He. reflexivity. }
    destruct ((_ <? -128) || (127 <? _)) eqn:Hov.
    { replace ((Z.quot num den <? -128) || (128 - 1 <? Z.quot num den)) with true by lia. reflexivity. }
    replace ((Z.quot num den <? -128) || (128 - 1 <? Z.quot num den)) with false by lia.
    assert (Hrem : num - Z.quot num den * den = Z.rem num den) by lia.
    rewrite Hrem.
    replace (sgn 16 (Z.rem num den)) with (Z.rem num den).
    2:{ assert (Hrr : -128 <= Z.rem num den <= 128) by (clear - Hrb Hsx; lia).
        revert Hrr. generalize (Z.rem num den). clear. intros z Hz.
        unfold sgn, wrap. change (2 ^ (16 - 1)) with 32768. change (2 ^ 16) with 65536.
        destruct (Z.ltb_spec (z mod 65536) 32768); lia. }
    rewrite st_setH by lia. tail. rewrite st_setL by lia. reflexivity.
  - change (16 =? 8) with false. cbv iota. change (16 =? 32) with false. cbv iota.
    rewrite (acc2_st 16 (fun n0 => if (sgn (2 * 16) n0 =? - 2 ^ (2 * 16 - 1)) && (den =? -1)
   then undef UbDivOverflow
   else
    if
     (2 ^ (16 - 1) - 1 <? Z.quot (sgn (2 * 16) n0) den)
     || (Z.quot (sgn (2 * 16) n0) den <?  - 2 ^ (16 - 1))
    then err E_DIVERR
    else
     set_gpr 64 16 (Z.rem (sgn (2 * 16) n0) den);;;
     set_gpr 0 16 (Z.quot (sgn (2 * 16) n0) den))) by (auto; lia).
    rewrite <- (signed_sgn (2 * 16) (acc2 16 a)) by exact Hacc.
    set (num := signed (2 * 16) (acc2 16 a)) in *.
    replace ((num =? - 2 ^ (2 * 16 - 1)) && (den =? -1)) with false by (symmetry; apply not_true_iff_false; lia).
    unfold overflows.
    destruct ((2 ^ (16 - 1) - 1 <? Z.quot num den) || (Z.quot num den <? - 2 ^ (16 - 1))) eqn:Hov.
    { replace ((Z.quot num den <? - 2 ^ (16 - 1)) || (2 ^ (16 - 1) - 1 <? Z.quot num den)) with true by lia. reflexivity. }
    replace ((Z.quot num den <? - 2 ^ (16 - 1)) || (2 ^ (16 - 1) - 1 <? Z.quot num den)) with false by lia.
    rewrite (st_setr 64 16 2) by (auto; try lia; reflexivity).
    tail. rewrite (st_setr 0 16 0) by (auto; try lia; reflexivity). reflexivity.
Qed.
(** The 32-bit IDIV refuses everything (or is undefined). *)
Lemma idiv32_body r a d g n l : flat E base a -> wf_regs a -> rm_ok r ->
  ~ most_negative_by_minus_one 32 (rd_rm 32 r a) a ->
  idiv_body 32 (ptr_of base 32 r) (mkSt a d g n l) = Err E_DIVERR (mkSt a d g n l).
Proof.
  intros F W Hr Hmn. assert (Hw : width 32) by auto with width.
  pose proof (rd_rm_range' E base a 32 r F Hw Hr) as Hs.
  pose proof (acc2_range 32 a W Hw) as Hacc.
  unfold idiv_body. rewrite (st_load E base) by auto. unfold most_negative_by_minus_one in Hmn.
  set (x := rd_rm 32 r a) in *.
  destruct (Z.eqb_spec x 0) as [Hx|Hx]; [reflexivity|].
  rewrite <- (signed_sgn 32 x) by auto. set (den := signed 32 x) in *.
  change (32 =? 8) with false. change (32 =? 32) with true. cbv iota.
  rewrite (acc2_st 32 (fun n0 => if (sgn (2 * 32) n0 =? - 2 ^ (2 * 32 - 1)) && (den =? -1)
   then undef UbDivOverflow
   else
    if
     (2 ^ (32 - 1) - 1 <? Z.quot (sgn (2 * 32) n0) den)
     || (Z.quot (sgn (2 * 32) n0) den <? 2147483648)
    then err E_DIVERR
    else
     set_gpr 64 32 (Z.rem (sgn (2 * 32) n0) den);;;
     set_gpr 0 32 (Z.quot (sgn (2 * 32) n0) den))) by (auto; lia).
  rewrite <- (signed_sgn (2 * 32) (acc2 32 a)) by exact Hacc. set (num := signed (2 * 32) (acc2 32 a)) in *.
  replace ((num =? - 2 ^ (2 * 32 - 1)) && (den =? -1)) with false by (symmetry; apply not_true_iff_false; lia).
  replace ((2 ^ (32 - 1) - 1 <? Z.quot num den) || (Z.quot num den <? 2147483648)) with true by (cbn; lia).
  reflexivity.
Qed.

(** The F6/F7 frame. *)
Lemma muldiv_frame s pre p bs rg w r :
  fetched E base s pre p bs -> decode_muldiv p (ar s) bs = Some (rg, w, r) -> operand_ok p (ar s) bs ->
  width w /\ rm_ok r /\ 4 <= rg < 8 /\
  exists o, dispatch bs = Some (o, rg, 1) /\ forall g n l,
    exec1 E o rg (mkSt (ar s) (dec_of p (blen pre + 1)) g n l) =
    misc_select E rg w (ptr_of base w r) (mkSt (ar s) (dec_of p (blen pre + blen bs)) g n l).
Proof.
  intros Hf Hdec Hop. destruct bs as [|op t]; [discriminate|].
  destruct (instr_ctx _ _ _ _ _ _ _ Hf) as (F & W & Hp & C & Hb).
  cbn [decode_muldiv] in Hdec.
  assert (H : op = 246 \/ op = 247).
  { destruct (parse_rm p (ar s) t) as [[[? ?] [|? ?]]|]; try discriminate. destruct (4 <=? z); [|discriminate].
    destruct (Z.eqb_spec op 246); [auto|]. destruct (Z.eqb_spec op 247); [auto|discriminate]. }
  destruct H as [-> | ->]; mrform0 Hf Hop Hdec; destruct (Z.leb_spec 4 rg0); try discriminate; injection Hdec as <- <- <-.
  - split; [auto with width|]. split; [auto|]. split; [lia|].
    exists OMiscMI. split; [cbn [dispatch]; rewrite Hrg; reflexivity|].
    intros. cbn [exec1]. unfold x_misc_mi. xs E base. do 3 f_equal. blia.
  - split; [auto with width|]. split; [auto|]. split; [lia|].
    exists OMiscMIX. split; [cbn [dispatch]; rewrite Hrg; reflexivity|].
    intros. cbn [exec1]. unfold x_misc_mix. xs E base. xs E base. do 3 f_equal. blia.
Qed.
Lemma mul_instr s pre p bs w r :
  fetched E base s pre p bs -> decode_muldiv p (ar s) bs = Some (4, w, r) -> operand_ok p (ar s) bs ->
  executes E s (pre ++ bs) (mul_effect w (rd_rm w r (ar s)) (ar s)).
Proof.
  intros Hf Hdec Hop. destruct (muldiv_frame _ _ _ _ _ _ _ Hf Hdec Hop) as (Hw & Hr & Hrg & o & Hd & Hx).
  pose proof Hf as ([F W _ _] & _ & _).
  eapply fr_straight; [exact Hf|exact Hd| | | | |].
  - intros. rewrite Hx. cbn [misc_select]. apply mul_body_ok; auto.
  - reflexivity.
  - unfold mul_effect; auto with flat.
  - apply acc2_ip.
  - apply same_refl.
Qed.
Lemma imul_instr s pre p bs w r :
  fetched E base s pre p bs -> decode_muldiv p (ar s) bs = Some (5, w, r) -> operand_ok p (ar s) bs ->
  executes E s (pre ++ bs) (imul_effect w (rd_rm w r (ar s)) (ar s)).
Proof.
  intros Hf Hdec Hop. destruct (muldiv_frame _ _ _ _ _ _ _ Hf Hdec Hop) as (Hw & Hr & Hrg & o & Hd & Hx).
  pose proof Hf as ([F W _ _] & _ & _).
  eapply fr_straight; [exact Hf|exact Hd| | | | |].
  - intros. rewrite Hx. cbn [misc_select]. apply imul_body_ok; auto.
  - reflexivity.
  - unfold imul_effect; auto with flat.
  - apply acc2_ip.
  - apply same_refl.
Qed.
Lemma with_quot_flat w q r a : flat E base a -> flat E base (with_quot w q r a).
Proof. intros. unfold with_quot. auto with flat. Qed.
Lemma with_quot_ip w q r a : r_ip (with_quot w q r a) = r_ip a.
Proof. unfold with_quot. rewrite !wreg_ip. reflexivity. Qed.
Lemma div_fits_instr s pre p bs w r a' :
  fetched E base s pre p bs -> decode_muldiv p (ar s) bs = Some (6, w, r) -> operand_ok p (ar s) bs ->
  div_effect w (rd_rm w r (ar s)) (ar s) = Some a' ->
  executes E s (pre ++ bs) a'.
Proof.
  intros Hf Hdec Hop He. destruct (muldiv_frame _ _ _ _ _ _ _ Hf Hdec Hop) as (Hw & Hr & Hrg & o & Hd & Hx).
  pose proof Hf as ([F W _ _] & _ & _).
  assert (Ha' : exists q m, a' = with_quot w q m (ar s)).
  { unfold div_effect in He. destruct (_ =? _); [discriminate|]. destruct (_ <? _); [|discriminate]. injection He as <-. eauto. }
  destruct Ha' as (q & m & ->).
  eapply fr_straight; [exact Hf|exact Hd| | | | |].
  - intros. rewrite Hx. cbn [misc_select]. rewrite div_body_ok, He by auto. reflexivity.
  - reflexivity.
  - apply with_quot_flat, F.
  - apply with_quot_ip.
  - apply same_refl.
Qed.
Lemma div_fault_instr s pre p bs w r :
  fetched E base s pre p bs -> decode_muldiv p (ar s) bs = Some (6, w, r) -> operand_ok p (ar s) bs ->
  div_effect w (rd_rm w r (ar s)) (ar s) = None -> faults E s.
Proof.
  intros Hf Hdec Hop He. destruct (muldiv_frame _ _ _ _ _ _ _ Hf Hdec Hop) as (Hw & Hr & Hrg & o & Hd & Hx).
  pose proof Hf as ([F W _ _] & _ & _).
  eapply run_fault; [exact Hf|exact Hd|]. rewrite Hx. cbn [misc_select]. rewrite div_body_ok, He by auto. reflexivity.
Qed.
Lemma idiv_fits_instr s pre p bs w r a' :
  fetched E base s pre p bs -> decode_muldiv p (ar s) bs = Some (7, w, r) -> operand_ok p (ar s) bs ->
  w <> 32 -> idiv_effect w (rd_rm w r (ar s)) (ar s) = Some a' ->
  executes E s (pre ++ bs) a'.
Proof.
  intros Hf Hdec Hop Hn He. destruct (muldiv_frame _ _ _ _ _ _ _ Hf Hdec Hop) as (Hw & Hr & Hrg & o & Hd & Hx).
  pose proof Hf as ([F W _ _] & _ & _).
  assert (Ha' : exists q m, a' = with_quot w q m (ar s)).
  { unfold idiv_effect in He. destruct (_ =? _); [discriminate|]. destruct (overflows _ _); [discriminate|]. injection He as <-. eauto. }
  destruct Ha' as (q & m & ->).
  assert (Hmn : ~ (w = 16 /\ most_negative_by_minus_one w (rd_rm w r (ar s)) (ar s))).
  { intros [-> [H1 H2]]. unfold idiv_effect in He. rewrite H1, H2 in He. discriminate. }
  eapply fr_straight; [exact Hf|exact Hd| | | | |].
  - intros. rewrite Hx. cbn [misc_select]. rewrite idiv_body_ok, He by (auto; destruct Hw as [->|[->| ->]]; auto; lia). reflexivity.
  - reflexivity.
  - apply with_quot_flat, F.
  - apply with_quot_ip.
  - apply same_refl.
Qed.
Lemma idiv_fault_instr s pre p bs w r :
  fetched E base s pre p bs -> decode_muldiv p (ar s) bs = Some (7, w, r) -> operand_ok p (ar s) bs ->
  idiv_effect w (rd_rm w r (ar s)) (ar s) = None -> 
  (w <> 8 -> ~ most_negative_by_minus_one w (rd_rm w r (ar s)) (ar s)) -> faults E s.
Proof.
  intros Hf Hdec Hop He Hmn. destruct (muldiv_frame _ _ _ _ _ _ _ Hf Hdec Hop) as (Hw & Hr & Hrg & o & Hd & Hx).
  pose proof Hf as ([F W _ _] & _ & _).
  eapply run_fault; [exact Hf|exact Hd|]. rewrite Hx. cbn [misc_select].
  destruct (Z.eq_dec w 32) as [->|].
  - apply idiv32_body; auto. apply Hmn. lia.
  - rewrite idiv_body_ok, He; auto; [destruct Hw as [->|[->| ->]]; auto; lia|].
    intros [-> H]. apply Hmn in H; auto. lia.
Qed.
Lemma idiv32_fault_instr s pre p bs r :
  fetched E base s pre p bs -> decode_muldiv p (ar s) bs = Some (7, 32, r) -> operand_ok p (ar s) bs ->
  ~ most_negative_by_minus_one 32 (rd_rm 32 r (ar s)) (ar s) -> faults E s.
Proof.
  intros Hf Hdec Hop Hmn. destruct (muldiv_frame _ _ _ _ _ _ _ Hf Hdec Hop) as (Hw & Hr & Hrg & o & Hd & Hx).
  pose proof Hf as ([F W _ _] & _ & _).
  eapply run_fault; [exact Hf|exact Hd|]. rewrite Hx. cbn [misc_select]. apply idiv32_body; auto.
Qed.

(** ** Two- and three-operand IMUL *)
Lemma signed_prod x y : inrange 16 x -> inrange 16 y -> low 16 (signed 16 x * signed 16 y) = low 16 (x * y).
Proof.
  intros Hx Hy. unfold low.
  rewrite Z.mul_mod by lia. fold (low 16 (signed 16 x)). fold (low 16 (signed 16 y)).
  rewrite !PShift.low_signed by auto with width. reflexivity.
Qed.
Lemma imul2_ok dst x y a d g n l : flat E base a -> 0 <= dst < 8 -> inrange 16 x -> inrange 16 y ->
  x * y < 2 ^ 31 ->
  imul2 (ptr_of base 16 (RReg dst)) x y (mkSt a d g n l) =
  Ok tt (mkSt (wr_m base 16 (RReg dst) (low 16 (x * y))
     (a_flags (mul_flags (32767 <? low 16 (x * y)) 16 (low 16 (x * y)) (r_flags a)) a)) d g n l).
Proof.
  intros F Hd Hx Hy Hxy. unfold imul2. replace (2 ^ 31 <=? x * y) with false by lia.
  change wrap with low. pose proof (low_range 16 (x * y) ltac:(auto with width)) as Hv.
  rewrite st_getflags. rewrite cfof_ok by auto with width.
  replace (imul_ovf 16 (low 16 (x * y))) with (32767 <? low 16 (x * y)).
  2:{ unfold imul_ovf. change (2 ^ (16 - 1)) with 32768. unfold inrange in Hv. change (2 ^ 16) with 65536 in *. lia. }
  rewrite st_set_flags. tail. rewrite (st_store E base) by (auto with flat width; exact Hd). reflexivity.
Qed.
Lemma imul2_frame s pre p bs dst x y :
  fetched E base s pre p bs -> decode_imul2 p (ar s) bs = Some (dst, x, y) -> operand_ok p (ar s) bs ->
  p_os p = false ->
  inrange 16 x /\ inrange 16 y /\ 0 <= dst < 8 /\
  exists o k m, dispatch bs = Some (o, k, m) /\ forall g n l,
    exec1 E o k (mkSt (ar s) (dec_of p (blen pre + m)) g n l) =
    imul2 (ptr_of base 16 (RReg dst)) x y (mkSt (ar s) (dec_of p (blen pre + blen bs)) g n l).
Proof.
  intros Hf Hdec Hop Ho. destruct bs as [|op t]; [discriminate|].
  destruct (instr_ctx _ _ _ _ _ _ _ Hf) as (F & W & Hp & C & Hb).
  assert (H : op = 105 \/ op = 107 \/ op = 15).
  { clear - Hdec. unfold decode_imul2 in Hdec.
    destruct op as [|q|q]; try discriminate. do 7 (destruct q as [q|q|]; try discriminate Hdec; auto). }
  assert (Hw : osz p = 16) by (unfold osz; rewrite Ho; reflexivity).
  destruct H as [-> | [-> | ->]]; cbn [decode_imul2] in Hdec.
  - mrform Hf Hop Hdec. destruct (imm 16 rest) as [i|] eqn:Hi; [|discriminate]. cbn [after] in Hdec. apply some_inj in Hdec. injection Hdec as <- <- <-.
    pose proof (imm_range E base 16 _ _ _ _ F W width16 Cr Hi).
    split; [auto with wf width|]. { eapply rd_rm_range'; eauto with width. } split; [auto|]. split; [auto|].
    exists OImulMIX, 0, 1. split; [reflexivity|]. intros. cbn [exec1]. unfold x_imul_mix.
    rewrite st_getD. cbn [d_op dec_of]. rewrite Ho.
    erewrite (st_parsex E base 16) by eauto with width. cbn [fst snd]. unfold fetch16. xs E base.
    rewrite (st_load E base) by auto with width. do 3 f_equal. blia.
  - mrform Hf Hop Hdec. destruct (imm 8 rest) as [i|] eqn:Hi; [|discriminate]. cbn [after] in Hdec. apply some_inj in Hdec. injection Hdec as <- <- <-.
    pose proof (imm_range E base 8 _ _ _ _ F W width8 Cr Hi).
    split; [eapply rd_rm_range'; eauto with width|]. split; [apply low_range; auto with width|]. split; [auto|].
    exists OImulMI8X, 0, 1. split; [reflexivity|]. intros. cbn [exec1]. unfold x_imul_mi8x.
    rewrite st_getD. cbn [d_op dec_of]. rewrite Ho.
    erewrite (st_parsex E base 16) by eauto with width. cbn [fst snd].
    destruct rest as [|i' [|? [|? [|? [|? ?]]]]]; try discriminate. injection Hi as ->.
    erewrite (st_fetch8s E base) by eauto.
    rewrite (st_load E base) by auto with width. change (wrap 16) with (low 16). do 3 f_equal. blia.
  - destruct t as [|op2 t2]; [discriminate|].
    destruct (Z.eqb_spec op2 175) as [->|Hn].
    2:{ exfalso. clear - Hdec Hn. destruct op2 as [|q|q]; try discriminate. 
        do 8 (destruct q as [q|q|]; try discriminate Hdec). lia. }
    cbv iota in Hdec. mrform0 Hf Hop Hdec. apply some_inj in Hdec. injection Hdec as <- <- <-.
    pose proof (instr_ctx2 _ _ _ _ _ _ _ _ Hf) as C2.
    split; [eapply rd_rm_range'; eauto with width|]. split; [apply reg_range; auto with width|]. split; [auto|].
    exists OImulRMX, 0, 2. split; [reflexivity|]. intros. cbn [exec1]. unfold x_imul_rmx.
    rewrite st_getD. cbn [d_op dec_of]. rewrite Ho.
    erewrite (st_parsex E base 16) by eauto with width. cbn [fst snd].
    rewrite !(st_load E base) by auto with width. cbn [rd_rm]. do 3 f_equal. blia.
Qed.
Lemma imul2_instr s pre p bs dst x y :
  fetched E base s pre p bs -> decode_imul2 p (ar s) bs = Some (dst, x, y) -> operand_ok p (ar s) bs ->
  p_os p = false -> x * y < 2 ^ 31 ->
  exists c, executes E s (pre ++ bs) (imul2_effect dst x y c (ar s)) /\
    (x < 32768 -> y < 32768 -> x * y < 65536 -> c = overflows 16 (signed 16 x * signed 16 y)).
Proof.
  intros Hf Hdec Hop Ho Hxy. destruct (imul2_frame _ _ _ _ _ _ _ Hf Hdec Hop Ho) as (Hx & Hy & Hd & o & k & m & Hdi & He).
  pose proof Hf as ([F W _ _] & _ & _).
  exists (32767 <? low 16 (x * y)). split.
  - eapply fr_straight; [exact Hf|exact Hdi| | | | |].
    + intros. rewrite He. apply imul2_ok; auto.
    + reflexivity.
    + auto with flat.
    + rewrite wr_m_ip. reflexivity.
    + unfold imul2_effect. cbv zeta. rewrite signed_prod by auto.
      eapply same_wr_m_reg; eauto using low_range with width flat. apply same_refl.
  - intros H1 H2 H3. unfold signed, inrange in *. change (2 ^ (16 - 1)) with 32768 in *. change (2 ^ 16) with 65536 in *.
    replace (x <? 32768) with true by lia. replace (y <? 32768) with true by lia.
    unfold overflows, low. change (2 ^ (16 - 1)) with 32768. change (2 ^ 16) with 65536.
    rewrite Z.mod_small by nia. assert (0 <= x * y) by nia. lia.
Qed.
End WithEnv.
