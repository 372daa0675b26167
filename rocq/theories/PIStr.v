(** End-to-end: string instructions, single and repeated. *)
From Verif Require Import Base Cpu Alu Ops Machine Spec SpecOps SpecOps2 SpecStr PBase PMem PRun PFrame PAlu PExec PIAlu PStep PIJump PAlg PIBcd.

Definition sop_model (o : sop) : strop :=
  match o with
  | S_MOVS => MOVS | S_CMPS => CMPS | S_STOS => STOS | S_LODS => LODS
  | S_SCAS => SCAS | S_INS => INS | S_OUTS => OUTS
  end.

(** ** Algebra *)
Lemma poke_gprs n : forall x v g a, poke n x v (a_gprs g a) = a_gprs g (poke n x v a).
Proof.
  induction n as [|n IH]; intros x v g a; cbn [poke]; [reflexivity|]. apply (IH _ _ g (with_byte x (v mod 256) a)).
Qed.
Lemma wmem_wreg w x v w' n u a : width w' -> 0 <= n < 8 -> inrange w' u ->
  with_mem w x v (with_reg w' n u a) = with_reg w' n u (with_mem w x v a).
Proof.
  intros. rewrite !with_reg_setf by auto. unfold with_mem. rewrite poke_gprs.
  destruct (poke_fields (Z.to_nat (w / 8)) x v a) as (-> & _). reflexivity.
Qed.
Lemma mem_wreg w x w' n u a : mem w (with_reg w' n u a) x = mem w a x.
Proof. apply mem_ext; [apply wreg_mtab|apply wreg_hmem]. Qed.
Lemma wreg_wreg w n u w' n' u' a : width w -> width w' -> 0 <= n < 8 -> 0 <= n' < 8 ->
  inrange w u -> inrange w' u' -> rpos w' n' + w' <= rpos w n \/ rpos w n + w <= rpos w' n' ->
  with_reg w n u (with_reg w' n' u' a) = with_reg w' n' u' (with_reg w n u a).
Proof.
  intros Hw Hw' Hn Hn' Hu Hu' Hd. rewrite !with_reg_setf by auto. cbn [gprs a_gprs].
  pose proof (rpos_bound w n Hw Hn). pose proof (rpos_bound w' n' Hw' Hn').
  pose proof (wpos w Hw). pose proof (wpos w' Hw').
  rewrite setf_comm by lia. reflexivity.
Qed.
Lemma wreg_flags_swap w n v f a : with_reg w n v (a_flags f a) = a_flags f (with_reg w n v a).
Proof. unfold with_reg, with_gpr. destruct (w =? 8); [destruct (n <? 4)|]; reflexivity. Qed.

Lemma spec_sub_DF w x y c f : flag DF (snd (spec_sub w x y c f)) = flag DF f.
Proof. unfold spec_sub, put6, put_szp, flag. cbn [snd]. rewrite !tb_put by lia. reflexivity. Qed.
Lemma spec_sub_ZF w x y f : width w -> inrange w x -> inrange w y ->
  flag ZF (snd (spec_sub w x y 0 f)) = (x =? y).
Proof.
  intros Hw Hx Hy. unfold spec_sub, put6, put_szp, flag. cbn [snd]. rewrite !tb_put by lia. cbn [Z.eqb Pos.eqb].
  rewrite Z.sub_0_r. unfold low, inrange in *.
  destruct (Z.eqb_spec x y) as [->|Hne].
  - rewrite Z.sub_diag, Z.mod_0_l by lia. reflexivity.
  - apply Z.eqb_neq. intros Hz. apply Hne. apply Z.mod_divide in Hz; [|lia]. destruct Hz as [q Hq].
    assert (q = 0) by nia. subst q. lia.
Qed.

Lemma elem_flat E base inp o w sg so dg do_ a : flat E base a -> width w ->
  inrange 16 sg -> inrange 16 so -> inrange 16 dg -> inrange 16 do_ ->
  flat E base (elem inp o w (lin sg so) (lin dg do_) a).
Proof.
  intros F Hw H1 H2 H3 H4.
  destruct o; cbn [elem]; auto with flat; apply wmem_flat; auto using inmem_lin; auto with flat.
Qed.
Lemma elem_same inp o w x y a b : same a b -> same (elem inp o w x y a) (elem inp o w x y b).
Proof.
  intros S. destruct o; cbn [elem]; cbv zeta;
  rewrite ?(same_mem a b), ?(same_reg a b), ?(sm_io a b), ?(sm_flags a b) by auto;
  auto with same; try (apply same_with_mem; auto with same); try apply same_with_reg; auto;
  try apply same_a_flags; auto; try apply same_a_iolog; auto.
Qed.
Lemma elem_cx E base inp o w sg so dg do_ c a : flat E base a -> width w ->
  inrange 16 sg -> inrange 16 so -> inrange 16 dg -> inrange 16 do_ -> inrange 16 c ->
  elem inp o w (lin sg so) (lin dg do_) (with_reg 16 CX c a) =
  with_reg 16 CX c (elem inp o w (lin sg so) (lin dg do_) a).
Proof.
  intros F Hw H1 H2 H3 H4 Hc.
  assert (HA : reg w AX (with_reg 16 CX c a) = reg w AX a).
  { apply reg_other; auto using width16; try lia. unfold rpos. destruct Hw as [->|[->| ->]]; cbn; lia. }
  assert (HD : reg 16 DX (with_reg 16 CX c a) = reg 16 DX a).
  { apply reg_other; auto using width16; try lia. cbn. lia. }
  destruct o; cbn [elem]; cbv zeta; rewrite ?mem_wreg, ?HA, ?HD, ?PExec.wreg_iolog, ?wreg_flags.
  - apply wmem_wreg; auto using width16; lia.
  - symmetry; apply wreg_flags_swap.
  - apply wmem_wreg; auto using width16; lia.
  - apply wreg_wreg; auto using width16; try lia.
    + destruct (lin_ok w sg so Hw H1 H2). eapply mem_range; eauto.
    + unfold rpos. destruct Hw as [->|[->| ->]]; cbn; lia.
  - symmetry; apply wreg_flags_swap.
  - rewrite <- wmem_wreg by (auto using width16; lia). rewrite PIBcd.wreg_iolog. reflexivity.
  - rewrite PIBcd.wreg_iolog. reflexivity.
Qed.
Lemma elem_regs inp o w x y a :
  r_ip (elem inp o w x y a) = r_ip a /\ r_cs (elem inp o w x y a) = r_cs a /\
  flag DF (r_flags (elem inp o w x y a)) = flag DF (r_flags a).
Proof.
  destruct o; cbn [elem]; cbv zeta; rewrite ?wmem_ip, ?wmem_cs, ?wmem_flags, ?wreg_ip, ?wreg_cs, ?wreg_flags;
  cbn [r_ip r_cs r_flags a_flags a_iolog]; rewrite ?spec_sub_DF; auto.
Qed.
Lemma at_k_range x d k : inrange 16 (at_k x d k).
Proof. apply low_range, width16. Qed.
Lemma at_k_S x d k : at_k x d (S k) = low 16 (at_k x d k + d).
Proof.
  unfold at_k, low. rewrite Zplus_mod_idemp_l. f_equal. lia.
Qed.
Lemma at_k_0 x d : inrange 16 x -> at_k x d 0 = x.
Proof. intros. unfold at_k. replace (x + Z.of_nat 0 * d) with x by lia. apply low_id; auto. Qed.

Section Elems.
Context (E : env) (base : Z) (inp : list ioev -> Z -> Z -> Z).
Lemma elems_flat o w sg si dg di d n a : flat E base a -> width w -> inrange 16 sg -> inrange 16 dg ->
  flat E base (elems inp o w sg si dg di d n a).
Proof.
  intros F Hw Hs Hd. induction n as [|n IH]; cbn [elems]; [exact F|].
  apply elem_flat; auto using at_k_range.
Qed.
Lemma elems_regs o w sg si dg di d n a :
  r_ip (elems inp o w sg si dg di d n a) = r_ip a /\ r_cs (elems inp o w sg si dg di d n a) = r_cs a /\
  flag DF (r_flags (elems inp o w sg si dg di d n a)) = flag DF (r_flags a).
Proof.
  induction n as [|n IH]; cbn [elems]; [auto|].
  destruct (elem_regs inp o w (lin sg (at_k si d n)) (lin dg (at_k di d n)) (elems inp o w sg si dg di d n a)) as (-> & -> & ->).
  exact IH.
Qed.
(** Comparisons change nothing but FLAGS. *)
Lemma elems_cmp o w sg si dg di d n a : compares o = true ->
  exists f, elems inp o w sg si dg di d n a = a_flags f a.
Proof.
  intros Ho. induction n as [|n [f IH]]; cbn [elems].
  - exists (r_flags a). symmetry. apply a_flags_self.
  - rewrite IH. destruct o; try discriminate; cbn [elem]; eexists; unfold a_flags at 1; cbn; reflexivity.
Qed.
End Elems.

Section WithEnv.
Context (E : env) (base : Z).
Notation inp := (port_in E).

Lemma cmp_ok w q x y a d g n l : width w -> inrange w x -> inrange w y ->
  alu_vals CMP w q x y (mkSt a d g n l) =
  Ok tt (mkSt (a_flags (snd (spec_sub w x y 0 (r_flags a))) a) d g n l).
Proof.
  intros Hw Hx Hy. unfold alu_vals. rewrite st_getflags.
  pose proof (alu_op_ok 7 w x y (r_flags a) Hw Hx Hy ltac:(lia)) as H.
  change (op_of 7) with CMP in H. rewrite H. cbn [alu_result].
  destruct (spec_sub w x y 0 (r_flags a)) as [v f]. reflexivity.
Qed.

Ltac iox := repeat first [xs E base | tail | rewrite st_io_in | rewrite st_io_out]; try reflexivity.
Lemma rpos0 w : width w -> 0 = rpos w 0.
Proof. intros [->|[->| ->]]; reflexivity. Qed.
#[local] Hint Resolve rpos0 : width.
Lemma str_body_ok o w ssM soM dsM doM sg so dg do_ a : flat E base a -> width w ->
  inrange 16 sg -> inrange 16 so -> inrange 16 dg -> inrange 16 do_ ->
  (uses_si o = true -> ssM = sg /\ soM = so) -> (uses_di o = true -> dsM = dg /\ doM = do_) ->
  exists a', flat E base a' /\ same a' (elem inp o w (lin sg so) (lin dg do_) a) /\
    forall d g n l, str_body E (sop_model o) w ssM soM dsM doM (mkSt a d g n l) = Ok tt (mkSt a' d g n l).
Proof.
  intros F Hw H1 H2 H3 H4 Hs Hd.
  assert (Rs : inrange w (mem w a (lin sg so))).
  { destruct (lin_ok w sg so Hw H1 H2). eapply mem_range; eauto. }
  assert (Rd : inrange w (mem w a (lin dg do_))).
  { destruct (lin_ok w dg do_ Hw H3 H4). eapply mem_range; eauto. }
  pose proof (reg_range w AX a Hw ltac:(lia)) as Ra.
  assert (Sm : forall v b, flat E base b -> same (smem base w (lin dg do_) v b) (with_mem w (lin dg do_) v b)).
  { intros v b Fb. destruct (lin_ok w dg do_ Hw H3 H4). eapply smem_same; eauto. }
  destruct o; cbn [uses_si uses_di] in Hs, Hd; try (specialize (Hs eq_refl); destruct Hs as [-> ->]);
    try (specialize (Hd eq_refl); destruct Hd as [-> ->]); cbn [sop_model str_body elem]; cbv zeta.
  - eexists. split; [|split; [|intros; xrun E base]].
    + apply smem_flat; auto.
    + rewrite !low_id by auto. apply Sm; auto.
  - eexists. split; [|split; [|intros; xs E base; xs E base; rewrite cmp_ok by (rewrite ?low_id; auto); reflexivity]].
    + auto with flat.
    + rewrite !low_id by auto. apply same_refl.
  - eexists. split; [|split; [|intros; xrun E base]].
    + apply smem_flat; auto.
    + rewrite !low_id by auto. apply Sm; auto.
  - eexists. split; [|split; [|intros; xrun E base]].
    + auto with flat.
    + rewrite !low_id by (rewrite ?low_id; auto). apply same_refl.
  - eexists. split; [|split; [|intros; xs E base; xs E base; rewrite cmp_ok by (rewrite ?low_id; auto); reflexivity]].
    + auto with flat.
    + rewrite !low_id by auto. apply same_refl.
  - eexists. split; [|split; [|intros; unfold R_DX; iox]].
    + apply smem_flat; auto with flat.
    + rewrite !low_id by auto. apply Sm; auto with flat.
  - eexists. split; [|split; [|intros; unfold R_DX; iox]].
    + auto with flat.
    + rewrite !low_id by auto. apply same_refl.
Qed.

Section Loop.
Context (p : pfx) (o : sop) (w : Z) (a0 : arch).
Context (F0 : flat E base a0) (W0 : wf_regs a0) (Hw : width w).
Notation dd := (stride w (r_flags a0)).
Notation sg := (sreg (data_sreg p) a0).
Notation dg := (r_es a0).
Notation si := (reg 16 SI a0).
Notation di := (reg 16 DI a0).
Notation cx := (reg 16 CX a0).
Notation el n := (elems inp o w sg si dg di dd n a0).
Definition going (k : nat) : bool := negb (compares o) || goes_on p o w k a0.

Lemma sg_range : inrange 16 sg. Proof. apply sreg_range, W0. Qed.
Lemma dg_range : inrange 16 dg. Proof. apply W0. Qed.

Lemma el_zf k : compares o = true -> flag ZF (r_flags (el (S k))) = elem_equal p o w k a0.
Proof.
  intros Ho. cbn [elems]. destruct (elems_cmp inp o w sg si dg di dd k a0 Ho) as [f Hf]. rewrite Hf.
  pose proof sg_range. pose proof dg_range.
  assert (Rs : inrange w (mem w a0 (lin sg (at_k si dd k)))).
  { destruct (lin_ok w sg (at_k si dd k) Hw) as [? ?]; auto using at_k_range. eapply mem_range; eauto. }
  assert (Rd : inrange w (mem w a0 (lin dg (at_k di dd k)))).
  { destruct (lin_ok w dg (at_k di dd k) Hw) as [? ?]; auto using at_k_range. eapply mem_range; eauto. }
  pose proof (reg_range w AX a0 Hw ltac:(lia)) as Ra.
  assert (Hm : forall x, mem w (a_flags f a0) x = mem w a0 x) by (intros; apply mem_ext; reflexivity).
  unfold elem_equal. cbv zeta.
  destruct o; try discriminate; cbn [elem r_flags a_flags]; rewrite ?Hm; rewrite spec_sub_ZF; auto.
Qed.

(** The loop with a repeat prefix: m elements are left, k are done. *)
Lemma loop_ok ssM dsM m : (uses_si o = true -> ssM = sg) -> (uses_di o = true -> dsM = dg) ->
  p_rep p = 242 \/ p_rep p = 243 ->
  forall fuel k a soM doM off g c l, (m < fuel)%nat -> cx = Z.of_nat k + Z.of_nat m -> flat E base a ->
  same a (with_reg 16 CX (low 16 (cx - Z.of_nat k)) (el k)) ->
  (uses_si o = true -> soM = at_k si dd k) -> (uses_di o = true -> doM = at_k di dd k) ->
  exists n a' soN doN, (k <= n)%nat /\ Z.of_nat n <= cx /\ flat E base a' /\
    same a' (with_reg 16 CX (low 16 (cx - Z.of_nat n)) (el n)) /\
    (uses_si o = true -> soN = at_k si dd n) /\ (uses_di o = true -> doN = at_k di dd n) /\
    (forall j, (k <= j)%nat -> (S j < n)%nat -> going j = true) /\
    (Z.of_nat n = cx \/ (Z.of_nat n < cx /\ exists j, n = S j /\ going j = false)) /\
    str_loop E fuel (sop_model o) w 16 ssM dsM soM doM (mkSt a (dec_of p off) g c l) =
    Ok (soN, doN) (mkSt a' (dec_of p off) g c l).
Proof.
  intros HsM HdM Hrep. pose proof sg_range as Rsg. pose proof dg_range as Rdg.
  pose proof (reg_range 16 CX a0 width16 ltac:(lia)) as Rcx.
  induction m as [|m IH]; intros fuel k a soM doM off g c l Hfu Hcx F HS Hso Hdo.
  - destruct fuel as [|fuel]; [lia|].
    exists k, a, soM, doM. split; [lia|]. split; [lia|]. split; [exact F|]. split; [exact HS|].
    split; [exact Hso|]. split; [exact Hdo|]. split; [intros; lia|]. split; [left; lia|].
    cbn [str_loop]. xs E base. xs E base.
    rewrite (same_reg _ _ 16 R_CX HS). unfold R_CX.
    rewrite reg_same by (auto using width16, low_range; lia).
    replace (cx - Z.of_nat k) with 0 by lia. change (low 16 0) with 0.
    replace (p_rep p =? 0) with false by lia. cbn [negb andb Z.eqb]. reflexivity.
  - destruct fuel as [|fuel]; [lia|].
    assert (Hc : reg 16 CX a = cx - Z.of_nat k).
    { rewrite (same_reg _ _ 16 CX HS), reg_same by (auto using width16, low_range; lia).
      apply low_id. unfold inrange in *. lia. }
    set (a1 := with_reg 16 CX (low 16 (cx - Z.of_nat k - 1)) a).
    assert (F1 : flat E base a1) by (apply flat_with_reg, F).
    assert (S1 : same a1 (with_reg 16 CX (low 16 (cx - Z.of_nat (S k))) (el k))).
    { unfold a1. replace (cx - Z.of_nat (S k)) with (cx - Z.of_nat k - 1) by lia.
      eapply same_trans; [apply same_with_reg, HS|].
      rewrite wreg_twice by (auto using width16, low_range; lia). apply same_refl. }
    destruct (str_body_ok o w ssM soM dsM doM sg (at_k si dd k) dg (at_k di dd k) a1) as (a2 & F2 & S2 & Hb);
      auto using at_k_range.
    assert (S2' : same a2 (with_reg 16 CX (low 16 (cx - Z.of_nat (S k))) (el (S k)))).
    { eapply same_trans; [exact S2|]. eapply same_trans; [apply elem_same, S1|].
      cbn [elems]. rewrite (elem_cx E base) by (auto using at_k_range, width16, low_range; apply elems_flat; auto).
      apply same_refl. }
    assert (Hfl : r_flags a2 = r_flags (el (S k))).
    { rewrite (sm_flags _ _ S2'), wreg_flags. reflexivity. }
    assert (HDF : flag DF (r_flags a2) = flag DF (r_flags a0)) by (rewrite Hfl; apply elems_regs).
    assert (Hstep : str_loop E (S fuel) (sop_model o) w 16 ssM dsM soM doM (mkSt a (dec_of p off) g c l) =
      if compares o && negb (goes_on p o w k a0)
      then Ok (wrap 16 (soM + dd), wrap 16 (doM + dd)) (mkSt a2 (dec_of p off) g c l)
      else str_loop E fuel (sop_model o) w 16 ssM dsM (wrap 16 (soM + dd)) (wrap 16 (doM + dd)) (mkSt a2 (dec_of p off) g c l)).
    { cbn [str_loop]. xs E base. xs E base. unfold R_CX. rewrite Hc.
      replace (p_rep p =? 0) with false by lia. replace (cx - Z.of_nat k =? 0) with false by lia.
      cbn [negb andb]. xs E base. rewrite (bind_ok _ _ _ _ _ (Hb _ _ _ _)). xs E base.
      rewrite ftest_DF, HDF. fold (stride w (r_flags a0)).
      rewrite ftest_ZF, Hfl.
      assert (Hz : str_zf (sop_model o) = compares o) by (destruct o; reflexivity). rewrite Hz.
      destruct (compares o) eqn:Ho; cbn [andb]; [|reflexivity].
      rewrite el_zf by auto. unfold goes_on.
      destruct Hrep as [-> | ->]; cbn [Z.eqb Pos.eqb andb];
      destruct (elem_equal p o w k a0); reflexivity. }
    rewrite Hstep. clear Hstep.
    destruct (compares o && negb (goes_on p o w k a0)) eqn:Hgo.
    + exists (S k), a2, (wrap 16 (soM + dd)), (wrap 16 (doM + dd)).
      split; [lia|]. split; [lia|]. split; [exact F2|]. split; [exact S2'|].
      split; [intros Hu; rewrite Hso by auto; symmetry; apply at_k_S|].
      split; [intros Hu; rewrite Hdo by auto; symmetry; apply at_k_S|].
      split; [intros; lia|]. split; [|reflexivity].
      apply andb_true_iff in Hgo as [G1 G2].
      destruct (Z.eq_dec (Z.of_nat (S k)) cx) as [He|He]; [left; exact He|right].
      split; [lia|]. exists k. split; [reflexivity|]. unfold going. rewrite G1.
      destruct (goes_on p o w k a0); [discriminate|reflexivity].
    + destruct (IH fuel (S k) a2 (wrap 16 (soM + dd)) (wrap 16 (doM + dd)) off g c l) as
        (n & a' & soN & doN & Hn1 & Hn2 & F' & S' & A1 & A2 & A3 & A4 & A5); auto; try lia.
      { intros Hu. rewrite Hso by auto. symmetry. apply at_k_S. }
      { intros Hu. rewrite Hdo by auto. symmetry. apply at_k_S. }
      exists n, a', soN, doN. split; [lia|]. split; [exact Hn2|]. split; [exact F'|]. split; [exact S'|].
      split; [exact A1|]. split; [exact A2|]. split; [|split; [exact A4|exact A5]].
      intros j Hj1 Hj2. destruct (Nat.eq_dec j k) as [->|Hne]; [|apply A3; lia].
      unfold going. destruct (compares o), (goes_on p o w k a0); try reflexivity; discriminate.
Qed.

(** Without one. *)
Lemma loop_once ssM dsM soM doM fuel off g c l : p_rep p = 0 ->
  (uses_si o = true -> ssM = sg /\ soM = si) -> (uses_di o = true -> dsM = dg /\ doM = di) ->
  exists a', flat E base a' /\ same a' (el 1) /\
    str_loop E (S fuel) (sop_model o) w 16 ssM dsM soM doM (mkSt a0 (dec_of p off) g c l) =
    Ok (wrap 16 (soM + dd), wrap 16 (doM + dd)) (mkSt a' (dec_of p off) g c l).
Proof.
  intros Hrep Hs Hd. pose proof sg_range as Rsg. pose proof dg_range as Rdg.
  pose proof (reg_range 16 SI a0 width16 ltac:(lia)) as Rsi. pose proof (reg_range 16 DI a0 width16 ltac:(lia)) as Rdi.
  destruct (str_body_ok o w ssM soM dsM doM sg si dg di a0) as (a2 & F2 & S2 & Hb); auto.
  assert (S2' : same a2 (el 1)).
  { cbn [elems]. rewrite !at_k_0 by auto. exact S2. }
  assert (HDF : flag DF (r_flags a2) = flag DF (r_flags a0)).
  { rewrite (sm_flags _ _ S2'). apply elems_regs. }
  exists a2. split; [exact F2|]. split; [exact S2'|].
  cbn [str_loop]. xs E base. xs E base. rewrite Hrep. cbn [Z.eqb negb andb]. xs E base.
  rewrite (bind_ok _ _ _ _ _ (Hb _ _ _ _)). xs E base. rewrite ftest_DF, HDF. fold (stride w (r_flags a0)).
  rewrite !andb_false_r. reflexivity.
Qed.
End Loop.

(** Final index-register updates. *)
Lemma str_tail o w n a0 a b soN doN off p g c l : width w -> flat E base a -> same a b ->
  (uses_si o = true -> soN = at_k (reg 16 SI a0) (stride w (r_flags a0)) n) ->
  (uses_di o = true -> doN = at_k (reg 16 DI a0) (stride w (r_flags a0)) n) ->
  exists a', flat E base a' /\ same a' (advance o w n a0 b) /\
   ((if str_di (sop_model o) then set_gpr 224 16 doN else ret tt) ;;;
    (if str_si (sop_model o) then set_gpr 192 16 soN else ret tt) ;;;
    upd_dc (dd_rep 0)) (mkSt a (dec_of p off) g c l) =
   Ok tt (mkSt a' (dd_rep 0 (dec_of p off)) g c l).
Proof.
  intros Hw F S Hs Hd. unfold advance. cbv zeta.
  assert (Hlow : forall x d k, low 16 (at_k x d k) = at_k x d k) by (intros; apply low_id, at_k_range).
  destruct o; cbn [uses_si uses_di sop_model str_di str_si] in *;
    try rewrite (Hs eq_refl); try rewrite (Hd eq_refl);
    (eexists; split; [|split; [|xrun E base]]); rewrite ?Hlow; auto with flat;
    repeat apply same_with_reg; auto.
Qed.

Lemma decode_str_ok p bs o w : decode_str p bs = Some (o, w) ->
  p_as p = false /\ width w /\ exists (wide : bool) (k : Z), w = (if wide then osz p else 8) /\ blen bs = 1 /\
  dispatch bs = Some (OStr (sop_model o) wide, k, 1).
Proof.
  unfold decode_str. destruct (p_as p); [discriminate|]. intros H. split; [reflexivity|].
  destruct bs as [|op [|? ?]]; try discriminate.
  - destruct op as [|q|q]; try discriminate;
    repeat (destruct q as [q|q|]; try discriminate H);
    injection H as <- <-; (split; [auto with width|]);
    first [exists false; eexists; split; [reflexivity|split; [reflexivity|reflexivity]]
          |exists true; eexists; split; [reflexivity|split; [reflexivity|reflexivity]]].
  - exfalso. destruct op as [|q|q]; try discriminate; repeat (destruct q as [q|q|]; try discriminate H).
Qed.

Lemma pfx_rep_cases pre p : prefixes pre = Some p -> p_rep p = 0 \/ p_rep p = 242 \/ p_rep p = 243.
Proof.
  assert (H : forall pre q, (p_rep q = 0 \/ p_rep q = 242 \/ p_rep q = 243) ->
     prefixes_from q pre = Some p -> p_rep p = 0 \/ p_rep p = 242 \/ p_rep p = 243).
  { clear. induction pre as [|b t IH]; intros q Hq H; cbn [prefixes_from] in H.
    - apply some_inj in H. subst p. exact Hq.
    - destruct (add_prefix q b) as [q'|] eqn:Ha; [|discriminate]. apply (IH q'); auto.
      destruct (add_prefix_cases _ _ _ Ha) as [(k & Hk & E1 & ->)|[(-> & E1 & ->)|[(-> & E1 & ->)|(E0 & E1 & ->)]]]; cbn; auto. }
  intros Hp. apply (H pre (mkPfx None false false 0)); auto.
Qed.

(** Entry of the handler: operands are read, then the loop (or nothing) runs. *)
Lemma x_str_entry p o w (wide : bool) a off g c l : pfx_ok p -> p_as p = false -> w = (if wide then osz p else 8) ->
  exists ssM soM dsM doM,
    (uses_si o = true -> ssM = sreg (data_sreg p) a /\ soM = reg 16 SI a) /\
    (uses_di o = true -> dsM = r_es a /\ doM = reg 16 DI a) /\
    x_str E (sop_model o) wide (mkSt a (dec_of p off) g c l) =
    (if negb (p_rep p =? 0) && (reg 16 CX a =? 0) then upd_dc (dd_rep 0) else
     so <- str_loop E (S (Z.to_nat (reg 16 CX a))) (sop_model o) w 16 ssM dsM soM doM ;;
     (if str_di (sop_model o) then set_gpr 224 16 (snd so) else ret tt) ;;;
     (if str_si (sop_model o) then set_gpr 192 16 (fst so) else ret tt) ;;;
     upd_dc (dd_rep 0)) (mkSt a (dec_of p off) g c l).
Proof.
  intros Hp Has Hw.
  exists (if uses_si o then sreg (data_sreg p) a else 0), (if uses_si o then reg 16 SI a else 0),
         (if uses_di o then r_es a else 0), (if uses_di o then reg 16 DI a else 0).
  split; [intros ->; auto|]. split; [intros ->; auto|].
  assert (H1 : str_di (sop_model o) = uses_di o) by (destruct o; reflexivity).
  assert (H2 : str_si (sop_model o) = uses_si o) by (destruct o; reflexivity).
  unfold x_str. rewrite H1, H2. xs E base. xs E base. rewrite Has.
  replace (if wide then osz p else 8) with w by auto.
  destruct (uses_di o), (uses_si o); unfold S_ES, R_CX;
  repeat first [rewrite st_getseg by lia; cbn [sreg] | xs E base]; reflexivity.
Qed.

Theorem str_once_instr s pre p bs o w : fetched E base s pre p bs ->
  decode_str p bs = Some (o, w) -> p_rep p = 0 ->
  executes E s (pre ++ bs) (str_once inp p o w (ar s)).
Proof.
  intros Hf Hdec Hrep. pose proof Hf as ([F W _ _] & Hpre & _).
  pose proof (prefixes_ok _ _ Hpre) as Hp.
  destruct (decode_str_ok _ _ _ _ Hdec) as (Has & Hw & wide & k & Hwd & Hbl & Hdis).
  destruct (x_str_entry p o w wide (ar s) (blen pre + 1) (dbg s) (icount s + 1) (lastnull s) Hp Has Hwd)
    as (ssM & soM & dsM & doM & Hs & Hd & Hx).
  destruct (loop_once p o w (ar s) F W Hw ssM dsM soM doM (Z.to_nat (reg 16 CX (ar s))) (blen pre + 1)
     (dbg s) (icount s + 1) (lastnull s) Hrep Hs Hd) as (a1 & F1 & S1 & L1).
  destruct (str_tail o w 1 (ar s) a1 _ (wrap 16 (soM + stride w (r_flags (ar s)))) (wrap 16 (doM + stride w (r_flags (ar s))))
     (blen pre + 1) p (dbg s) (icount s + 1) (lastnull s) Hw F1 S1) as (a2 & F2 & S2 & L2).
  { intros Hu. destruct (Hs Hu) as [_ ->]. unfold at_k. rewrite Z.mul_1_l. reflexivity. }
  { intros Hu. destruct (Hd Hu) as [_ ->]. unfold at_k. rewrite Z.mul_1_l. reflexivity. }
  eapply (run_straight_rep E base s pre p bs _ _ _ a2); [exact Hf|exact Hdis| |exact F2| |exact S2].
  - cbn [exec1]. rewrite Hx, Hrep. cbn [Z.eqb negb andb]. rewrite (bind_ok _ _ _ _ _ L1). cbn [fst snd].
    rewrite L2, Hbl. reflexivity.
  - rewrite (sm_ip _ _ S2). unfold advance. cbv zeta.
    destruct (uses_si o), (uses_di o); rewrite ?wreg_ip; apply elems_regs.
Qed.

Lemma str_rep_gen s pre p bs o w : fetched E base s pre p bs ->
  decode_str p bs = Some (o, w) -> p_rep p <> 0 ->
  exists n, Z.of_nat n <= reg 16 CX (ar s) /\
    (forall j, (S j < n)%nat -> going p o w (ar s) j = true) /\
    (Z.of_nat n = reg 16 CX (ar s) \/ (Z.of_nat n < reg 16 CX (ar s) /\ exists j, n = S j /\ going p o w (ar s) j = false)) /\
    executes E s (pre ++ bs) (str_rep inp p o w n (ar s)).
Proof.
  intros Hf Hdec Hrep. pose proof Hf as ([F W _ _] & Hpre & _).
  pose proof (prefixes_ok _ _ Hpre) as Hp.
  assert (Hrep2 : p_rep p = 242 \/ p_rep p = 243).
  { destruct (pfx_rep_cases _ _ Hpre) as [|]; [contradiction|assumption]. }
  destruct (decode_str_ok _ _ _ _ Hdec) as (Has & Hw & wide & k & Hwd & Hbl & Hdis).
  destruct (x_str_entry p o w wide (ar s) (blen pre + 1) (dbg s) (icount s + 1) (lastnull s) Hp Has Hwd)
    as (ssM & soM & dsM & doM & Hs & Hd & Hx).
  pose proof (reg_range 16 CX (ar s) width16 ltac:(lia)) as Rcx.
  pose proof (reg_range 16 SI (ar s) width16 ltac:(lia)) as Rsi. pose proof (reg_range 16 DI (ar s) width16 ltac:(lia)) as Rdi.
  replace (p_rep p =? 0) with false in Hx by lia. cbn [negb andb] in Hx.
  assert (S0 : same (ar s) (with_reg 16 CX (low 16 (reg 16 CX (ar s) - Z.of_nat 0)) (ar s))).
  { rewrite Z.sub_0_r, low_id by auto. rewrite wreg_id by (auto using width16; lia). apply same_refl. }
  destruct (Z.eqb_spec (reg 16 CX (ar s)) 0) as [Hz|Hz].
  - exists 0%nat. split; [lia|]. split; [intros; lia|]. split; [left; lia|].
    eapply (run_straight_rep E base s pre p bs _ _ _ (ar s)); [exact Hf|exact Hdis| |exact F|reflexivity|].
    + cbn [exec1]. rewrite Hx, Hbl. reflexivity.
    + unfold str_rep, advance, run_elems. cbv zeta. cbn [elems]. rewrite !at_k_0 by auto.
      destruct (uses_si o), (uses_di o); repeat (eapply same_trans; [|apply same_with_reg; exact S0]); try exact S0;
      repeat (rewrite wreg_id by (auto using width16; lia)); try apply same_refl.
      eapply same_trans; [|apply same_with_reg, same_with_reg; exact S0].
      repeat (rewrite wreg_id by (auto using width16; lia)). apply same_refl.
  - destruct (loop_ok p o w (ar s) F W Hw ssM dsM (Z.to_nat (reg 16 CX (ar s)))) with
       (fuel := S (Z.to_nat (reg 16 CX (ar s)))) (k := 0%nat) (a := ar s) (soM := soM) (doM := doM)
       (off := blen pre + 1) (g := dbg s) (c := icount s + 1) (l := lastnull s)
      as (n & a1 & soN & doN & Hn1 & Hn2 & F1 & S1 & A1 & A2 & A3 & A4 & L1); auto; try apply Hs; try apply Hd.
    { unfold inrange in *. lia. }
    { intros Hu. destruct (Hs Hu) as [_ ->]. symmetry. apply at_k_0; auto. }
    { intros Hu. destruct (Hd Hu) as [_ ->]. symmetry. apply at_k_0; auto. }
    exists n. split; [exact Hn2|]. split; [intros; apply A3; lia|]. split; [exact A4|].
    destruct (str_tail o w n (ar s) a1 _ soN doN (blen pre + 1) p (dbg s) (icount s + 1) (lastnull s) Hw F1 S1 A1 A2)
      as (a2 & F2 & S2 & L2).
    eapply (run_straight_rep E base s pre p bs _ _ _ a2); [exact Hf|exact Hdis| |exact F2| |exact S2].
    + cbn [exec1]. rewrite Hx. rewrite (bind_ok _ _ _ _ _ L1). cbn [fst snd]. rewrite L2, Hbl. reflexivity.
    + rewrite (sm_ip _ _ S2). unfold advance. cbv zeta.
      destruct (uses_si o), (uses_di o); rewrite ?wreg_ip; apply elems_regs.
Qed.

(** MOVS, STOS, LODS, INS, OUTS with a repeat prefix: exactly CX elements. *)
Theorem str_rep_instr s pre p bs o w : fetched E base s pre p bs ->
  decode_str p bs = Some (o, w) -> p_rep p <> 0 -> compares o = false ->
  executes E s (pre ++ bs) (str_rep inp p o w (Z.to_nat (reg 16 CX (ar s))) (ar s)).
Proof.
  intros Hf Hdec Hrep Hc. destruct (str_rep_gen s pre p bs o w Hf Hdec Hrep) as (n & Hn & _ & Hs & Hx).
  destruct Hs as [Hs|(_ & j & _ & Hs)].
  - rewrite <- Hs, Nat2Z.id. exact Hx.
  - unfold going in Hs. rewrite Hc in Hs. discriminate.
Qed.
(** CMPS and SCAS. *)
Theorem str_scan_instr s pre p bs o w : fetched E base s pre p bs ->
  decode_str p bs = Some (o, w) -> p_rep p <> 0 -> compares o = true ->
  exists n, scan_stops p o w n (ar s) /\ executes E s (pre ++ bs) (str_rep inp p o w n (ar s)).
Proof.
  intros Hf Hdec Hrep Hc. destruct (str_rep_gen s pre p bs o w Hf Hdec Hrep) as (n & Hn & Hg & Hs & Hx).
  exists n. split; [|exact Hx]. unfold scan_stops. unfold going in Hg, Hs. rewrite Hc in Hg, Hs. cbn [negb orb] in Hg, Hs.
  split; assumption.
Qed.
End WithEnv.

(** The stopping point is unique. *)
Lemma scan_unique p o w n m a : scan_stops p o w n a -> scan_stops p o w m a -> n = m.
Proof.
  intros [A1 A2] [B1 B2]. destruct (Nat.lt_trichotomy n m) as [H|[H|H]]; [|exact H|].
  - destruct A2 as [A2|(A2 & k & -> & A3)]; [destruct B2 as [|[]]; lia|].
    rewrite B1 in A3 by lia. discriminate.
  - destruct B2 as [B2|(B2 & k & -> & B3)]; [destruct A2 as [|[]]; lia|].
    rewrite A1 in B3 by lia. discriminate.
Qed.
