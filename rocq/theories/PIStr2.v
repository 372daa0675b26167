(** End-to-end: string instructions with the address-size prefix. *)
From Coq Require Import Znumtheory.
From Verif Require Import Base Cpu Alu Ops Machine Spec SpecOps SpecOps2 SpecStr SpecStr2 PBase PMem PRun PFrame PAlu PExec PIAlu PStep PIJump PAlg PIBcd PIStr.

Lemma at32_range x d k : inrange 32 (at32 x d k).
Proof. apply low_range. auto with width. Qed.
Lemma at32_S x d k : at32 x d (S k) = low 32 (at32 x d k + d).
Proof. unfold at32, low. rewrite Zplus_mod_idemp_l. f_equal. lia. Qed.
Lemma at32_0 x d : inrange 32 x -> at32 x d 0 = x.
Proof. intros. unfold at32. replace (x + Z.of_nat 0 * d) with x by lia. apply low_id; auto. Qed.
Lemma low16_32 x : low 16 (low 32 x) = low 16 x.
Proof. unfold low. symmetry. apply Zmod_div_mod; try reflexivity. exists 65536. reflexivity. Qed.
Lemma reg16_32 n a : 0 <= n < 8 -> reg 16 n a = low 16 (reg 32 n a).
Proof.
  intros H. rewrite !reg_getf by auto with width. unfold rpos. cbn [Z.eqb Pos.eqb]. unfold getf, wrap, low.
  apply Zmod_div_mod; try reflexivity. exists 65536. reflexivity.
Qed.
Lemma at32_low n d k a : 0 <= n < 8 -> low 16 (at32 (reg 32 n a) d k) = at_k (reg 16 n a) d k.
Proof.
  intros H. unfold at32, at_k. rewrite low16_32, reg16_32 by auto. unfold low. rewrite Zplus_mod_idemp_l. reflexivity.
Qed.
Lemma rd_wrap E w sg x : rd E w sg x = rd E w sg (low 16 x).
Proof. unfold rd. f_equal. f_equal. unfold wrap, low. rewrite Z.mod_mod by discriminate. reflexivity. Qed.
Lemma wr_wrap E w sg x v : wr E w sg x v = wr E w sg (low 16 x) v.
Proof. unfold wr. f_equal. f_equal. unfold wrap, low. rewrite Z.mod_mod by discriminate. reflexivity. Qed.
Lemma str_body_wrap E o w ss so ds do_ s : str_body E o w ss so ds do_ s = str_body E o w ss (low 16 so) ds (low 16 do_) s.
Proof.
  destruct o; cbn [str_body]; unfold bind; rewrite <- ?rd_wrap; repeat match goal with |- context [match ?x with Ok _ _ => _ | _ => _ end] => destruct x as [? ?| | |]; try reflexivity end; rewrite <- ?wr_wrap, <- ?rd_wrap; try reflexivity.
Qed.

Section WithEnv.
Context (E : env) (base : Z).
Notation inp := (port_in E).
Lemma str_body32_ok o w ssM soM dsM doM sg so dg do_ a : flat E base a -> width w ->
  inrange 16 sg -> inrange 16 so -> inrange 16 dg -> inrange 16 do_ ->
  (uses_si o = true -> ssM = sg /\ low 16 soM = so) -> (uses_di o = true -> dsM = dg /\ low 16 doM = do_) ->
  exists a', flat E base a' /\ same a' (elem inp o w (lin sg so) (lin dg do_) a) /\
    forall d g n l, str_body E (sop_model o) w ssM soM dsM doM (mkSt a d g n l) = Ok tt (mkSt a' d g n l).
Proof.
  intros F Hw H1 H2 H3 H4 Hs Hd. destruct (str_body_ok E base o w ssM (low 16 soM) dsM (low 16 doM) sg so dg do_ a) as (a' & F' & S' & H'); auto.
  exists a'. split; [exact F'|]. split; [exact S'|]. intros. rewrite str_body_wrap. apply H'.
Qed.

Section Loop.
Context (p : pfx) (o : sop) (w : Z) (a0 : arch).
Context (F0 : flat E base a0) (W0 : wf_regs a0) (Hw : width w).
Notation dd := (stride w (r_flags a0)).
Notation sg := (sreg (data_sreg p) a0).
Notation dg := (r_es a0).
Notation si := (reg 16 SI a0).
Notation di := (reg 16 DI a0).
Notation cx := (reg 16 CX a0).
Notation esi := (reg 32 SI a0).
Notation edi := (reg 32 DI a0).
Notation el n := (elems inp o w sg si dg di dd n a0).
(** The loop with a repeat prefix: m elements are left, k are done. *)
Lemma loop32_ok ssM dsM m : (uses_si o = true -> ssM = sg) -> (uses_di o = true -> dsM = dg) ->
  p_rep p = 242 \/ p_rep p = 243 ->
  forall fuel k a soM doM off g c l, (m < fuel)%nat -> cx = Z.of_nat k + Z.of_nat m -> flat E base a ->
  same a (with_reg 16 CX (low 16 (cx - Z.of_nat k)) (el k)) ->
  (uses_si o = true -> soM = at32 esi dd k) -> (uses_di o = true -> doM = at32 edi dd k) ->
  exists n a' soN doN, (k <= n)%nat /\ Z.of_nat n <= cx /\ flat E base a' /\
    same a' (with_reg 16 CX (low 16 (cx - Z.of_nat n)) (el n)) /\
    (uses_si o = true -> soN = at32 esi dd n) /\ (uses_di o = true -> doN = at32 edi dd n) /\
    (forall j, (k <= j)%nat -> (S j < n)%nat -> going p o w a0 j = true) /\
    (Z.of_nat n = cx \/ (Z.of_nat n < cx /\ exists j, n = S j /\ going p o w a0 j = false)) /\
    str_loop E fuel (sop_model o) w 32 ssM dsM soM doM (mkSt a (dec_of p off) g c l) =
    Ok (soN, doN) (mkSt a' (dec_of p off) g c l).
Proof.
  intros HsM HdM Hrep. pose proof (sg_range p a0 W0) as Rsg. pose proof (dg_range a0 W0) as Rdg.
  pose proof (reg_range 16 CX a0 width16 ltac:(lia)) as Rcx.
  induction m as [|m IH]; intros fuel k a soM doM off g c l Hfu Hcx F HS Hso Hdo.
  - destruct fuel as [|fuel]; [lia|].
    exists k, a, soM, doM. split; [lia|]. split; [lia|]. split; [exact F|]. split; [exact HS|].
    split; [exact Hso|]. split; [exact Hdo|]. split; [intros; lia|]. split; [left; lia|].
    cbn [str_loop]. xs E base. xs E base.
    rewrite (same_reg _ _ 16 R_CX HS). unfold R_CX.
    rewrite reg_same by (auto using width16, low_range; lia).
    replace (cx - Z.of_nat k) with 0 by lia. change (low 16 0) with 0.
    replace (p_rep p =? 0) with false by lia. cbn [negb andb Z.eqb]. reflexivity.
  - destruct fuel as [|fuel]; [lia|].
    assert (Hc : reg 16 CX a = cx - Z.of_nat k).
    { rewrite (same_reg _ _ 16 CX HS), reg_same by (auto using width16, low_range; lia).
      apply low_id. unfold inrange in *. lia. }
    set (a1 := with_reg 16 CX (low 16 (cx - Z.of_nat k - 1)) a).
    assert (F1 : flat E base a1) by (apply flat_with_reg, F).
    assert (S1 : same a1 (with_reg 16 CX (low 16 (cx - Z.of_nat (S k))) (el k))).
    { unfold a1. replace (cx - Z.of_nat (S k)) with (cx - Z.of_nat k - 1) by lia.
      eapply same_trans; [apply same_with_reg, HS|].
      rewrite wreg_twice by (auto using width16, low_range; lia). apply same_refl. }
    destruct (str_body32_ok o w ssM soM dsM doM sg (at_k si dd k) dg (at_k di dd k) a1) as (a2 & F2 & S2 & Hb);
      auto using at_k_range.
    { intros Hu. split; [auto|]. rewrite Hso by auto. apply at32_low. lia. }
    { intros Hu. split; [auto|]. rewrite Hdo by auto. apply at32_low. lia. }
    assert (S2' : same a2 (with_reg 16 CX (low 16 (cx - Z.of_nat (S k))) (el (S k)))).
    { eapply same_trans; [exact S2|]. eapply same_trans; [apply elem_same, S1|].
      cbn [elems]. rewrite (elem_cx E base) by (auto using at_k_range, width16, low_range; apply elems_flat; auto).
      apply same_refl. }
    assert (Hfl : r_flags a2 = r_flags (el (S k))).
    { rewrite (sm_flags _ _ S2'), wreg_flags. reflexivity. }
    assert (HDF : flag DF (r_flags a2) = flag DF (r_flags a0)) by (rewrite Hfl; apply elems_regs).
    assert (Hstep : str_loop E (S fuel) (sop_model o) w 32 ssM dsM soM doM (mkSt a (dec_of p off) g c l) =
      if compares o && negb (goes_on p o w k a0)
      then Ok (wrap 32 (soM + dd), wrap 32 (doM + dd)) (mkSt a2 (dec_of p off) g c l)
      else str_loop E fuel (sop_model o) w 32 ssM dsM (wrap 32 (soM + dd)) (wrap 32 (doM + dd)) (mkSt a2 (dec_of p off) g c l)).
    { cbn [str_loop]. xs E base. xs E base. unfold R_CX. rewrite Hc.
      replace (p_rep p =? 0) with false by lia. replace (cx - Z.of_nat k =? 0) with false by lia.
      cbn [negb andb]. xs E base. rewrite (bind_ok _ _ _ _ _ (Hb _ _ _ _)). xs E base.
      rewrite ftest_DF, HDF. fold (stride w (r_flags a0)).
      rewrite ftest_ZF, Hfl.
      assert (Hz : str_zf (sop_model o) = compares o) by (destruct o; reflexivity). rewrite Hz.
      destruct (compares o) eqn:Ho; cbn [andb]; [|reflexivity].
      rewrite (el_zf E base p o w a0 F0 W0 Hw) by auto. unfold goes_on.
      destruct Hrep as [-> | ->]; cbn [Z.eqb Pos.eqb andb];
      destruct (elem_equal p o w k a0); reflexivity. }
    rewrite Hstep. clear Hstep.
    destruct (compares o && negb (goes_on p o w k a0)) eqn:Hgo.
    + exists (S k), a2, (wrap 32 (soM + dd)), (wrap 32 (doM + dd)).
      split; [lia|]. split; [lia|]. split; [exact F2|]. split; [exact S2'|].
      split; [intros Hu; rewrite Hso by auto; symmetry; apply at32_S|].
      split; [intros Hu; rewrite Hdo by auto; symmetry; apply at32_S|].
      split; [intros; lia|]. split; [|reflexivity].
      apply andb_true_iff in Hgo as [G1 G2].
      destruct (Z.eq_dec (Z.of_nat (S k)) cx) as [He|He]; [left; exact He|right].
      split; [lia|]. exists k. split; [reflexivity|]. unfold going. rewrite G1.
      destruct (goes_on p o w k a0); [discriminate|reflexivity].
    + destruct (IH fuel (S k) a2 (wrap 32 (soM + dd)) (wrap 32 (doM + dd)) off g c l) as
        (n & a' & soN & doN & Hn1 & Hn2 & F' & S' & A1 & A2 & A3 & A4 & A5); auto; try lia.
      { intros Hu. rewrite Hso by auto. symmetry. apply at32_S. }
      { intros Hu. rewrite Hdo by auto. symmetry. apply at32_S. }
      exists n, a', soN, doN. split; [lia|]. split; [exact Hn2|]. split; [exact F'|]. split; [exact S'|].
      split; [exact A1|]. split; [exact A2|]. split; [|split; [exact A4|exact A5]].
      intros j Hj1 Hj2. destruct (Nat.eq_dec j k) as [->|Hne]; [|apply A3; lia].
      unfold going. destruct (compares o), (goes_on p o w k a0); try reflexivity; discriminate.
Qed.

(** Without one. *)
Lemma loop32_once ssM dsM soM doM fuel off g c l : p_rep p = 0 ->
  (uses_si o = true -> ssM = sg /\ soM = esi) -> (uses_di o = true -> dsM = dg /\ doM = edi) ->
  exists a', flat E base a' /\ same a' (el 1) /\
    str_loop E (S fuel) (sop_model o) w 32 ssM dsM soM doM (mkSt a0 (dec_of p off) g c l) =
    Ok (wrap 32 (soM + dd), wrap 32 (doM + dd)) (mkSt a' (dec_of p off) g c l).
Proof.
  intros Hrep Hs Hd. pose proof (sg_range p a0 W0) as Rsg. pose proof (dg_range a0 W0) as Rdg.
  pose proof (reg_range 16 SI a0 width16 ltac:(lia)) as Rsi. pose proof (reg_range 16 DI a0 width16 ltac:(lia)) as Rdi.
  destruct (str_body32_ok o w ssM soM dsM doM sg si dg di a0) as (a2 & F2 & S2 & Hb); auto.
  { intros Hu. destruct (Hs Hu) as [-> ->]. split; [reflexivity|]. symmetry. apply reg16_32. lia. }
  { intros Hu. destruct (Hd Hu) as [-> ->]. split; [reflexivity|]. symmetry. apply reg16_32. lia. }
  assert (S2' : same a2 (el 1)).
  { cbn [elems]. rewrite !at_k_0 by auto. exact S2. }
  assert (HDF : flag DF (r_flags a2) = flag DF (r_flags a0)).
  { rewrite (sm_flags _ _ S2'). apply elems_regs. }
  exists a2. split; [exact F2|]. split; [exact S2'|].
  cbn [str_loop]. xs E base. xs E base. rewrite Hrep. cbn [Z.eqb negb andb]. xs E base.
  rewrite (bind_ok _ _ _ _ _ (Hb _ _ _ _)). xs E base. rewrite ftest_DF, HDF. fold (stride w (r_flags a0)).
  rewrite !andb_false_r. reflexivity.
Qed.
End Loop.

(** Final index-register updates. *)
Lemma str_tail32 o w n a0 a b soN doN off p g c l : width w -> flat E base a -> same a b ->
  (uses_si o = true -> soN = at32 (reg 32 SI a0) (stride w (r_flags a0)) n) ->
  (uses_di o = true -> doN = at32 (reg 32 DI a0) (stride w (r_flags a0)) n) ->
  exists a', flat E base a' /\ same a' (advance67 o w n a0 b) /\
   ((if str_di (sop_model o) then set_gpr 224 32 doN else ret tt) ;;;
    (if str_si (sop_model o) then set_gpr 192 32 soN else ret tt) ;;;
    upd_dc (dd_rep 0)) (mkSt a (dec_of p off) g c l) =
   Ok tt (mkSt a' (dd_rep 0 (dec_of p off)) g c l).
Proof.
  intros Hw F S Hs Hd. unfold advance67. cbv zeta.
  assert (Hlow : forall x d k, low 32 (at32 x d k) = at32 x d k) by (intros; apply low_id, at32_range).
  destruct o; cbn [uses_si uses_di sop_model str_di str_si] in *;
    try rewrite (Hs eq_refl); try rewrite (Hd eq_refl);
    (eexists; split; [|split; [|xrun E base]]); rewrite ?Hlow; auto with flat;
    repeat apply same_with_reg; auto.
Qed.


Lemma decode_str67_ok p bs o w : decode_str67 p bs = Some (o, w) ->
  p_as p = true /\ width w /\ exists (wide : bool) (k : Z), w = (if wide then osz p else 8) /\ blen bs = 1 /\
  dispatch bs = Some (OStr (sop_model o) wide, k, 1).
Proof.
  unfold decode_str67. destruct (p_as p); [|discriminate]. intros H. split; [reflexivity|].
  destruct (decode_str_ok _ _ _ _ H) as (_ & Hw & wide & k & H1 & H2 & H3). split; [exact Hw|]. exists wide, k. auto.
Qed.

(** Entry of the handler: operands are read, then the loop (or nothing) runs. *)
Lemma x_str_entry32 p o w (wide : bool) a off g c l : pfx_ok p -> p_as p = true -> w = (if wide then osz p else 8) ->
  exists ssM soM dsM doM,
    (uses_si o = true -> ssM = sreg (data_sreg p) a /\ soM = reg 32 SI a) /\
    (uses_di o = true -> dsM = r_es a /\ doM = reg 32 DI a) /\
    x_str E (sop_model o) wide (mkSt a (dec_of p off) g c l) =
    (if negb (p_rep p =? 0) && (reg 16 CX a =? 0) then upd_dc (dd_rep 0) else
     so <- str_loop E (S (Z.to_nat (reg 16 CX a))) (sop_model o) w 32 ssM dsM soM doM ;;
     (if str_di (sop_model o) then set_gpr 224 32 (snd so) else ret tt) ;;;
     (if str_si (sop_model o) then set_gpr 192 32 (fst so) else ret tt) ;;;
     upd_dc (dd_rep 0)) (mkSt a (dec_of p off) g c l).
Proof.
  intros Hp Has Hw.
  exists (if uses_si o then sreg (data_sreg p) a else 0), (if uses_si o then reg 32 SI a else 0),
         (if uses_di o then r_es a else 0), (if uses_di o then reg 32 DI a else 0).
  split; [intros ->; auto|]. split; [intros ->; auto|].
  assert (H1 : str_di (sop_model o) = uses_di o) by (destruct o; reflexivity).
  assert (H2 : str_si (sop_model o) = uses_si o) by (destruct o; reflexivity).
  unfold x_str. rewrite H1, H2. xs E base. xs E base. rewrite Has.
  replace (if wide then osz p else 8) with w by auto.
  destruct (uses_di o), (uses_si o); unfold S_ES, R_CX;
  repeat first [rewrite st_getseg by lia; cbn [sreg] | xs E base]; reflexivity.
Qed.

Lemma str_once_instr32 s pre p bs o w : fetched E base s pre p bs ->
  decode_str67 p bs = Some (o, w) -> p_rep p = 0 ->
  executes E s (pre ++ bs) (advance67 o w 1 (ar s) (run_elems inp p o w 1 (ar s))).
Proof.
  intros Hf Hdec Hrep. pose proof Hf as ([F W _ _] & Hpre & _).
  pose proof (prefixes_ok _ _ Hpre) as Hp.
  destruct (decode_str67_ok _ _ _ _ Hdec) as (Has & Hw & wide & k & Hwd & Hbl & Hdis).
  destruct (x_str_entry32 p o w wide (ar s) (blen pre + 1) (dbg s) (icount s + 1) (lastnull s) Hp Has Hwd)
    as (ssM & soM & dsM & doM & Hs & Hd & Hx).
  destruct (loop32_once p o w (ar s) F W Hw ssM dsM soM doM (Z.to_nat (reg 16 CX (ar s))) (blen pre + 1)
     (dbg s) (icount s + 1) (lastnull s) Hrep Hs Hd) as (a1 & F1 & S1 & L1).
  destruct (str_tail32 o w 1 (ar s) a1 _ (wrap 32 (soM + stride w (r_flags (ar s)))) (wrap 32 (doM + stride w (r_flags (ar s))))
     (blen pre + 1) p (dbg s) (icount s + 1) (lastnull s) Hw F1 S1) as (a2 & F2 & S2 & L2).
  { intros Hu. destruct (Hs Hu) as [_ ->]. unfold at32. rewrite Z.mul_1_l. reflexivity. }
  { intros Hu. destruct (Hd Hu) as [_ ->]. unfold at32. rewrite Z.mul_1_l. reflexivity. }
  eapply (run_straight_rep E base s pre p bs _ _ _ a2); [exact Hf|exact Hdis| |exact F2| |exact S2].
  - cbn [exec1]. rewrite Hx, Hrep. cbn [Z.eqb negb andb]. rewrite (bind_ok _ _ _ _ _ L1). cbn [fst snd].
    rewrite L2, Hbl. reflexivity.
  - rewrite (sm_ip _ _ S2). unfold advance67. cbv zeta.
    destruct (uses_si o), (uses_di o); rewrite ?wreg_ip; apply elems_regs.
Qed.

Lemma str_rep_gen32 s pre p bs o w : fetched E base s pre p bs ->
  decode_str67 p bs = Some (o, w) -> p_rep p <> 0 ->
  exists n, Z.of_nat n <= reg 16 CX (ar s) /\
    (forall j, (S j < n)%nat -> going p o w (ar s) j = true) /\
    (Z.of_nat n = reg 16 CX (ar s) \/ (Z.of_nat n < reg 16 CX (ar s) /\ exists j, n = S j /\ going p o w (ar s) j = false)) /\
    executes E s (pre ++ bs) (advance67 o w n (ar s) (with_reg 16 CX (low 16 (reg 16 CX (ar s) - Z.of_nat n)) (run_elems inp p o w n (ar s)))).
Proof.
  intros Hf Hdec Hrep. pose proof Hf as ([F W _ _] & Hpre & _).
  pose proof (prefixes_ok _ _ Hpre) as Hp.
  assert (Hrep2 : p_rep p = 242 \/ p_rep p = 243).
  { destruct (pfx_rep_cases _ _ Hpre) as [|]; [contradiction|assumption]. }
  destruct (decode_str67_ok _ _ _ _ Hdec) as (Has & Hw & wide & k & Hwd & Hbl & Hdis).
  destruct (x_str_entry32 p o w wide (ar s) (blen pre + 1) (dbg s) (icount s + 1) (lastnull s) Hp Has Hwd)
    as (ssM & soM & dsM & doM & Hs & Hd & Hx).
  pose proof (reg_range 16 CX (ar s) width16 ltac:(lia)) as Rcx.
  pose proof (reg_range 32 SI (ar s) ltac:(auto with width) ltac:(lia)) as Rsi. pose proof (reg_range 32 DI (ar s) ltac:(auto with width) ltac:(lia)) as Rdi.
  replace (p_rep p =? 0) with false in Hx by lia. cbn [negb andb] in Hx.
  assert (S0 : same (ar s) (with_reg 16 CX (low 16 (reg 16 CX (ar s) - Z.of_nat 0)) (ar s))).
  { rewrite Z.sub_0_r, low_id by auto. rewrite wreg_id by (auto with width; lia). apply same_refl. }
  destruct (Z.eqb_spec (reg 16 CX (ar s)) 0) as [Hz|Hz].
  - exists 0%nat. split; [lia|]. split; [intros; lia|]. split; [left; lia|].
    eapply (run_straight_rep E base s pre p bs _ _ _ (ar s)); [exact Hf|exact Hdis| |exact F|reflexivity|].
    + cbn [exec1]. rewrite Hx, Hbl. reflexivity.
    + unfold advance67, run_elems. cbv zeta. cbn [elems]. rewrite !at32_0 by auto.
      destruct (uses_si o), (uses_di o); repeat (eapply same_trans; [|apply same_with_reg; exact S0]); try exact S0;
      repeat (rewrite wreg_id by (auto with width; lia)); try apply same_refl.
      eapply same_trans; [|apply same_with_reg, same_with_reg; exact S0].
      repeat (rewrite wreg_id by (auto with width; lia)). apply same_refl.
  - destruct (loop32_ok p o w (ar s) F W Hw ssM dsM (Z.to_nat (reg 16 CX (ar s)))) with
       (fuel := S (Z.to_nat (reg 16 CX (ar s)))) (k := 0%nat) (a := ar s) (soM := soM) (doM := doM)
       (off := blen pre + 1) (g := dbg s) (c := icount s + 1) (l := lastnull s)
      as (n & a1 & soN & doN & Hn1 & Hn2 & F1 & S1 & A1 & A2 & A3 & A4 & L1); auto; try apply Hs; try apply Hd.
    { unfold inrange in *. lia. }
    { intros Hu. destruct (Hs Hu) as [_ ->]. symmetry. apply at32_0; auto. }
    { intros Hu. destruct (Hd Hu) as [_ ->]. symmetry. apply at32_0; auto. }
    exists n. split; [exact Hn2|]. split; [intros; apply A3; lia|]. split; [exact A4|].
    destruct (str_tail32 o w n (ar s) a1 _ soN doN (blen pre + 1) p (dbg s) (icount s + 1) (lastnull s) Hw F1 S1 A1 A2)
      as (a2 & F2 & S2 & L2).
    eapply (run_straight_rep E base s pre p bs _ _ _ a2); [exact Hf|exact Hdis| |exact F2| |exact S2].
    + cbn [exec1]. rewrite Hx. rewrite (bind_ok _ _ _ _ _ L1). cbn [fst snd]. rewrite L2, Hbl. reflexivity.
    + rewrite (sm_ip _ _ S2). unfold advance67. cbv zeta.
      destruct (uses_si o), (uses_di o); rewrite ?wreg_ip; apply elems_regs.
Qed.


End WithEnv.

(** Conversion to the specification. *)
Lemma at32_small x d k n a : 0 <= n < 8 -> x = reg 32 n a -> at32 x d k < 65536 -> at32 x d k = at_k (reg 16 n a) d k.
Proof.
  intros Hn -> H. rewrite <- at32_low by auto. symmetry. apply low_id. pose proof (at32_range (reg 32 n a) d k) as R. unfold inrange in *. lia.
Qed.
Lemma elem_ext i o w x y x' y' a : (uses_si o = true -> x = x') -> (uses_di o = true -> y = y') -> elem i o w x y a = elem i o w x' y' a.
Proof. intros Hx Hy. destruct o; cbn [uses_si uses_di elem] in *; rewrite ?Hx, ?Hy by reflexivity; reflexivity. Qed.
Lemma run_elems_67 i p o w n a : within67 o w n a -> run_elems i p o w n a = run_elems67 i p o w n a.
Proof.
  unfold run_elems, run_elems67. induction n as [|n IH]; intros H; cbn [elems elems67]; [reflexivity|].
  rewrite IH by (intros k Hk; apply H; lia). destruct (H n ltac:(lia)) as [H1 H2].
  apply elem_ext; intros Hu; f_equal; symmetry; eapply at32_small; auto; try lia.
Qed.
Lemma ecx_16 n b : reg 32 CX b < 65536 -> Z.of_nat n <= reg 32 CX b -> low 16 (reg 16 CX b - Z.of_nat n) = reg 32 CX b - Z.of_nat n.
Proof.
  intros H Hn. pose proof (reg_range 32 CX b ltac:(auto with width) ltac:(lia)) as R. unfold inrange in R.
  rewrite reg16_32 by lia. rewrite (low_id 16 (reg 32 CX b)) by (unfold inrange; lia). apply low_id. unfold inrange. lia.
Qed.
Lemma wreg_cx n v a : n = CX -> reg 32 n a < 65536 -> with_reg 16 n v a = with_reg 32 n v a.
Proof.
  intros -> H. unfold reg in H. unfold with_reg. cbn [Z.eqb Pos.eqb] in *.
  assert (R : 0 <= gpr 1 a < 2 ^ 32) by (unfold gpr; apply Z.mod_pos_bound; reflexivity).
  rewrite Z.mod_small in H by exact R. rewrite !Z.mod_small by lia. reflexivity.
Qed.
Lemma elem_ecx i o w x y a E base : flat E base a -> width w -> inmem w x -> reg 32 CX (elem i o w x y a) = reg 32 CX a.
Proof.
  intros F Hw Hx. destruct o; cbn [elem]; cbv zeta; rewrite ?wmem_reg; try reflexivity.
  apply reg_other; auto with width; try lia.
  - eapply mem_range; eauto; apply Hx.
  - unfold rpos. destruct Hw as [->|[->| ->]]; cbn; lia.
Qed.
Lemma elems_ecx i o w sg si dg di d n a E base : flat E base a -> width w -> inrange 16 sg -> inrange 16 dg ->
  reg 32 CX (elems i o w sg si dg di d n a) = reg 32 CX a.
Proof.
  intros F Hw H1 H2. induction n as [|n IH]; cbn [elems]; [reflexivity|].
  rewrite (elem_ecx _ _ _ _ _ _ E base); [exact IH|apply elems_flat; auto|auto|apply inmem_lin; auto using at_k_range].
Qed.

Section Final.
Context (E : env) (base : Z).
Theorem str_once67_instr s pre p bs o w : fetched E base s pre p bs -> decode_str67 p bs = Some (o, w) -> p_rep p = 0 -> within67 o w 1 (ar s) ->
  executes E s (pre ++ bs) (str_once67 (port_in E) p o w (ar s)).
Proof. intros Hf Hd Hr Hin. unfold str_once67. rewrite <- run_elems_67 by exact Hin. eapply str_once_instr32; eauto. Qed.
Lemma cx_32 p o w n a : flat E base a -> wf_regs a -> pfx_ok p -> width w -> reg 32 CX a < 65536 -> Z.of_nat n <= reg 32 CX a ->
  with_reg 16 CX (low 16 (reg 16 CX a - Z.of_nat n)) (run_elems (port_in E) p o w n a) =
  with_reg 32 CX (reg 32 CX a - Z.of_nat n) (run_elems (port_in E) p o w n a).
Proof.
  intros F W Hp Hw H1 H2. rewrite ecx_16 by auto. apply wreg_cx; [reflexivity|]. unfold run_elems.
  rewrite (elems_ecx _ _ _ _ _ _ _ _ _ _ E base) by (auto; try apply sreg_range; apply W). exact H1.
Qed.
Lemma cx16_32 a : reg 32 CX a < 65536 -> reg 16 CX a = reg 32 CX a.
Proof.
  intros H. pose proof (reg_range 32 CX a ltac:(auto with width) ltac:(lia)) as R. unfold inrange in R. rewrite reg16_32 by lia. apply low_id. unfold inrange. lia.
Qed.
Theorem str_rep67_instr s pre p bs o w : fetched E base s pre p bs -> decode_str67 p bs = Some (o, w) -> p_rep p <> 0 -> compares o = false ->
  reg 32 CX (ar s) < 65536 -> let n := Z.to_nat (reg 32 CX (ar s)) in within67 o w n (ar s) ->
  executes E s (pre ++ bs) (str_rep67 (port_in E) p o w n (ar s)).
Proof.
  cbv zeta. intros Hf Hd Hr Ho Hc Hin. pose proof Hf as ([F W _ _] & Hpre & _). pose proof (prefixes_ok _ _ Hpre) as Hp.
  destruct (decode_str67_ok _ _ _ _ Hd) as (_ & Hw & _).
  destruct (str_rep_gen32 E base s pre p bs o w Hf Hd Hr) as (n & Hn & _ & Hs & Hx). rewrite (cx16_32 _ Hc) in Hn, Hs.
  destruct Hs as [Hs|(_ & j & _ & Hs)]; [|unfold going in Hs; rewrite Ho in Hs; discriminate].
  replace (Z.to_nat (reg 32 CX (ar s))) with n in * by lia.
  unfold str_rep67. rewrite <- run_elems_67, <- cx_32 by (auto; lia). exact Hx.
Qed.
Theorem str_scan67_instr s pre p bs o w : fetched E base s pre p bs -> decode_str67 p bs = Some (o, w) -> p_rep p <> 0 -> compares o = true ->
  reg 32 CX (ar s) < 65536 -> within67 o w (Z.to_nat (reg 32 CX (ar s))) (ar s) ->
  exists n, scan_stops67 p o w n (ar s) /\ executes E s (pre ++ bs) (str_rep67 (port_in E) p o w n (ar s)).
Proof.
  intros Hf Hd Hr Ho Hc Hin. pose proof Hf as ([F W _ _] & Hpre & _). pose proof (prefixes_ok _ _ Hpre) as Hp.
  destruct (decode_str67_ok _ _ _ _ Hd) as (_ & Hw & _).
  destruct (str_rep_gen32 E base s pre p bs o w Hf Hd Hr) as (n & Hn & Hg & Hs & Hx). rewrite (cx16_32 _ Hc) in Hn, Hs.
  assert (Hin' : within67 o w n (ar s)) by (intros k Hk; apply Hin; lia).
  assert (Q : forall k, (k < n)%nat -> elem_equal p o w k (ar s) = elem_equal67 p o w k (ar s)).
  { intros k Hk. destruct (Hin' k Hk) as [A1 A2]. unfold elem_equal, elem_equal67. cbv zeta.
    assert (D : uses_di o = true) by (destruct o; try discriminate; reflexivity).
    rewrite (at32_small _ _ k DI (ar s) ltac:(lia) eq_refl (A2 D)).
    destruct o; try discriminate Ho; [|reflexivity]. rewrite (at32_small _ _ k SI (ar s) ltac:(lia) eq_refl (A1 eq_refl)). reflexivity. }
  unfold going in Hg, Hs. rewrite Ho in Hg, Hs. cbn [negb orb] in Hg, Hs. unfold goes_on in Hg, Hs.
  exists n. split.
  - split.
    + intros k Hk. specialize (Hg k Hk). rewrite Q in Hg by lia. apply Bool.eqb_prop in Hg. exact Hg.
    + destruct Hs as [Hs|(Hs & j & -> & Hj)]; [left; exact Hs|right]. split; [exact Hs|]. exists j. split; [reflexivity|].
      rewrite Q in Hj by lia. apply Bool.eqb_false_iff in Hj. exact Hj.
  - unfold str_rep67. rewrite <- run_elems_67, <- cx_32 by (auto; lia). exact Hx.
Qed.
End Final.
