(** The invariant for string instructions, the opcode dispatch and one whole RME_RunOne. *)
From Verif Require Import Base Cpu Alu Ops Machine Spec PBase PMem PRun PAlu PExec PKeep PKeep2.

(** ** Operations that leave CX and the repeat type alone *)
Lemma getptr_st E sg o s p s' : getptr E sg o s = Ok p s' -> s' = s.
Proof. unfold getptr. cbv zeta. destruct (_ <? 272); [|discriminate]. destruct (_ && _ && _); [discriminate|]. congruence. Qed.
Lemma rd_st E w sg o s v s' : rd E w sg o s = Ok v s' -> s' = s.
Proof.
  unfold rd, bind. destruct (getptr E sg (wrap 16 o) s) as [p s1| | |] eqn:Hg; try discriminate.
  apply getptr_st in Hg. subst s1. unfold hload. destruct (load_bytes _ _ _); [|discriminate]. congruence.
Qed.
Lemma wr_st E w sg o v s u s' : wr E w sg o v s = Ok u s' -> gprs (ar s') = gprs (ar s) /\ dc s' = dc s.
Proof.
  unfold wr, bind. destruct (getptr E sg (wrap 16 o) s) as [p s1| | |] eqn:Hg; try discriminate.
  apply getptr_st in Hg. subst s1. unfold hstore. destruct (valid_bytes _ _ _); [|discriminate]. intros [= _ <-]. auto.
Qed.
Lemma alu_cmp_st w q a b s u s' : alu_vals CMP w q a b s = Ok u s' -> gprs (ar s') = gprs (ar s) /\ dc s' = dc s.
Proof. unfold alu_vals, bind, getflags, getA, gets. destruct (alu CMP w a b _) as [v f]. cbn. intros [= _ <-]. auto. Qed.
Definition cx_of (s : st) : Z := getf 32 16 (gprs (ar s)).
Lemma str_body_st E o w a b c d s u s' : width w -> str_body E o w a b c d s = Ok u s' ->
  cx_of s' = cx_of s /\ dc s' = dc s.
Proof.
  intros Hw. assert (K : gprs (ar s') = gprs (ar s) /\ dc s' = dc s -> cx_of s' = cx_of s /\ dc s' = dc s).
  { unfold cx_of. intros [-> ->]. auto. }
  destruct o; unfold str_body, bind, getW, getf, gets.
  - destruct (rd E w a b s) as [v s1| | |] eqn:H1; try discriminate. apply rd_st in H1. subst s1. intros H. apply K. eapply wr_st; eauto.
  - cbn. intros H. apply K. eapply wr_st; eauto.
  - destruct (rd E w a b s) as [v s1| | |] eqn:H1; try discriminate. apply rd_st in H1. subst s1. intros [= _ <-]. cbn.
    split; [|reflexivity]. unfold cx_of. cbn. rewrite getf_setf_disjoint; auto; try lia; destruct Hw as [->|[->| ->]]; lia.
  - destruct (rd E w a b s) as [v s1| | |] eqn:H1; try discriminate. apply rd_st in H1. subst s1.
    destruct (rd E w c d s) as [v1 s1| | |] eqn:H1; try discriminate. apply rd_st in H1. subst s1. intros H. apply K. eapply alu_cmp_st; eauto.
  - destruct (rd E w c d s) as [v1 s1| | |] eqn:H1; try discriminate. apply rd_st in H1. subst s1. unfold get_gpr, getA, gets. intros H. apply K. apply alu_cmp_st in H. exact H.
  - cbn. intros H. apply K. apply wr_st in H. exact H.
  - destruct (rd E w a b s) as [v s1| | |] eqn:H1; try discriminate. apply rd_st in H1. subst s1. cbn. intros [= _ <-]. apply K. auto.
Qed.

Section Keep.
Context (E : env) (P : perm) (s0 : st).
Context (Hmem : (exists base, flat E base (ar s0)) \/ (pm_ub P UbDeref /\ pm_ub P UbUninit)).
Notation K := (keeps P s0).
Notation I := (inv P s0).

Lemma k_str_body o w a b c d : width w -> inrange 16 a -> inrange 16 c -> (op_io (OStr o true) = true -> pm_io P = true) ->
  K 0 any (str_body E o w a b c d).
Proof.
  intros Hw Ha Hc Hio. assert (0 <= w <= 32) by (destruct Hw as [->|[->| ->]]; lia).
  assert (HB : forall x y, K 0 any (alu_vals CMP w (regW 0) x y)).
  { intros. apply k_alu_vals; auto; [right; unfold regW; eauto|cbn; lia]. }
  destruct o; unfold str_body; cbn [op_io] in Hio; try specialize (Hio eq_refl).
  - eapply keeps_bind; [apply keeps_rd; auto|]. intros. apply keeps_wr; auto.
  - eapply keeps_bind; [apply keeps_get_gpr; lia|]. intros. apply keeps_wr; auto.
  - eapply keeps_bind; [apply keeps_rd; auto|]. intros. apply keeps_set_gpr; lia.
  - eapply keeps_bind; [apply keeps_rd; auto|]. intros. eapply keeps_bind; [apply keeps_rd; auto|]. intros. apply HB.
  - eapply keeps_bind; [apply keeps_rd; auto|]. intros. eapply keeps_bind; [apply keeps_get_gpr; lia|]. intros. apply HB.
  - eapply keeps_bind; [apply keeps_getW|]. intros. eapply keeps_bind; [apply keeps_io_in; auto; lia|]. intros. apply keeps_wr; auto.
  - eapply keeps_bind; [apply keeps_rd; auto|]. intros. eapply keeps_bind; [apply keeps_getW|]. intros. apply keeps_io_out; auto.
Qed.
Lemma k_str_loop o w m a c : width w -> inrange 16 a -> inrange 16 c -> (op_io (OStr o true) = true -> pm_io P = true) ->
  forall fuel so do s, I s -> (if d_rep (dc s) =? 0 then 1 else cx_of s + 1) <= Z.of_nat fuel ->
  match str_loop E fuel o w m a c so do s with
  | Ok _ s' => I s' /\ d_ipoff (dc s') = d_ipoff (dc s)
  | Err c s' => I s' /\ 2 <= c <= 8 /\ (c = 5 -> pm_div P = true)
  | UB r => pm_ub P r
  | Fuel => False
  end.
Proof.
  intros Hw Ha Hc Hio. induction fuel as [|fuel IH]; intros so do s Hs Hf.
  { pose proof (getf_range 32 16 (gprs (ar s)) ltac:(lia)) as Hr. unfold inrange, cx_of in *. destruct (_ =? 0); cbn in Hf; lia. }
  cbn [str_loop]. unfold bind at 1, getD at 1, gets at 1. unfold bind at 1, getW at 1, get_gpr at 1, getA at 1, gets at 1.
  fold (cx_of s). change (32 * R_CX) with 32. fold (cx_of s).
  destruct (negb (d_rep (dc s) =? 0) && (cx_of s =? 0)) eqn:Hz; [cbn; auto|].
  unfold bind at 1.
  assert (Hpre : exists s1, (if d_rep (dc s) =? 0 then ret tt else setW R_CX (cx_of s - 1)) s = Ok tt s1 /\ I s1 /\ dc s1 = dc s /\
            (d_rep (dc s) <> 0 -> cx_of s1 = cx_of s - 1)).
  { pose proof (getf_range 32 16 (gprs (ar s)) ltac:(lia)) as Hr. fold (cx_of s) in Hr. unfold inrange in Hr.
    destruct (Z.eqb_spec (d_rep (dc s)) 0) as [Hr0|Hr0]; [exists s; cbn; auto; split; [reflexivity|]; tauto|].
    eexists. split; [reflexivity|]. split; [|split; [reflexivity|]].
    - apply inv_gprs; [exact Hs|]. apply setf_range; try (unfold R_CX; lia). apply (iv_regs _ _ _ Hs).
    - intros _. unfold cx_of at 1. cbn [set_ar ar a_gprs gprs]. change (32 * R_CX) with 32. rewrite getf_setf_same by lia. apply wrap_small. unfold inrange. apply andb_false_iff in Hz. change (2 ^ 16) with 65536 in *. lia. }
  destruct Hpre as (s1 & -> & I1 & D1 & C1).
  unfold bind at 1. pose proof (proj1 (keeps_run _ _ _ _ _) (k_str_body o w a so c do Hw Ha Hc Hio) s1 I1) as HB.
  destruct (str_body E o w a so c do s1) as [u s2|e s2|r|] eqn:Hb; auto.
  destruct HB as (I2 & L2 & _). apply str_body_st in Hb; auto. destruct Hb as [C2 D2].
  unfold bind at 1, getflags, getA, gets. cbv zeta.
  assert (HL : d_ipoff (dc s2) = d_ipoff (dc s)) by congruence.
  destruct (str_zf o && (d_rep (dc s) =? 242) && _); [cbn; auto|].
  destruct (str_zf o && (d_rep (dc s) =? 243) && _); [cbn; auto|].
  destruct (Z.eqb_spec (d_rep (dc s)) 0) as [Hr0|Hr0]; [cbn; auto|].
  match goal with |- context [str_loop E fuel o w m a c ?x ?y s2] => specialize (IH x y s2 I2) end.
  rewrite D2, D1, C2, (C1 Hr0) in IH. destruct (Z.eqb_spec (d_rep (dc s)) 0); [contradiction|].
  specialize (IH ltac:(lia)). destruct (str_loop E fuel o w m a c _ _ s2); auto.
Qed.
Lemma k_str o wide : (op_io (OStr o wide) = true -> pm_io P = true) -> K 10 any (x_str E o wide).
Proof.
  intros Hio. assert (Hio' : op_io (OStr o true) = true -> pm_io P = true) by (destruct o; auto).
  unfold x_str. eapply keeps_bind; [apply keeps_opw|]. cbn beta. intros ow How. cbv zeta.
  set (w := if wide then ow else 8). assert (Hw : width w) by (destruct wide; [apply w16_32, How|apply width8]).
  eapply keeps_bind; [apply (keeps_getD_any P s0 d_addr)|]. intros a _. set (m := if a then 32 else 16).
  assert (Hm : 0 <= m <= 32) by (unfold m; destruct a; lia).
  assert (H0 : inrange 16 0) by (apply fl_const; reflexivity).
  eapply (keeps_bind _ _ 0) with (Q := inrange 16).
  { destruct (str_di o); [apply keeps_getseg; unfold S_ES; lia|apply keeps_ret; [lia|exact H0]]. }
  intros dseg Hds. eapply (keeps_bind _ _ 0) with (Q := any).
  { destruct (str_di o); [|apply keeps_ret; [lia|exact Logic.I]].
    eapply keeps_weak; [apply keeps_get_gpr; lia|lia|intros; exact Logic.I]. }
  intros dofs _. eapply (keeps_bind _ _ 0) with (Q := inrange 16).
  { destruct (str_si o); [apply keeps_data_seg; unfold S_ES; lia|apply keeps_ret; [lia|exact H0]]. }
  intros sseg Hss. eapply (keeps_bind _ _ 0) with (Q := any).
  { destruct (str_si o); [|apply keeps_ret; [lia|exact Logic.I]].
    eapply keeps_weak; [apply keeps_get_gpr; lia|lia|intros; exact Logic.I]. }
  intros sofs _. eapply keeps_weak with (n := 0) (Q := any); [|lia|auto].
  (* the rest depends on the CX read *)
  apply keeps_run. intros s Hs. unfold bind at 1, getD at 1, gets at 1.
  unfold bind at 1, getW at 1, get_gpr at 1, getA at 1, gets at 1. change (32 * R_CX) with 32. fold (cx_of s).
  assert (HR : K 0 any (upd_dc (dd_rep 0))) by apply keeps_rep0.
  destruct (negb (d_rep (dc s) =? 0) && (cx_of s =? 0)).
  { apply (proj1 (keeps_run _ _ _ _ _) HR s Hs). }
  unfold bind at 1.
  pose proof (getf_range 32 16 (gprs (ar s)) ltac:(lia)) as Hr. fold (cx_of s) in Hr. unfold inrange in Hr.
  pose proof (k_str_loop o w m sseg dseg Hw Hss Hds Hio' (S (Z.to_nat (cx_of s))) sofs dofs s Hs) as HL.
  specialize (HL ltac:(destruct (_ =? 0); lia)).
  destruct (str_loop E (S (Z.to_nat (cx_of s))) o w m sseg dseg sofs dofs s) as [so s1|e s1|r|]; auto.
  destruct HL as [I1 L1].
  assert (HT : K 0 any ((if str_di o then set_gpr 224 m (snd so) else ret tt) ;;;
       (if str_si o then set_gpr 192 m (fst so) else ret tt) ;;; upd_dc (dd_rep 0))).
  { eapply (keeps_bind _ _ 0) with (Q := any).
    { destruct (str_di o); [apply keeps_set_gpr; lia|apply keeps_ret; [lia|exact Logic.I]]. }
    intros. eapply (keeps_bind _ _ 0) with (Q := any).
    { destruct (str_si o); [apply keeps_set_gpr; lia|apply keeps_ret; [lia|exact Logic.I]]. }
    intros. eapply keeps_weak; [exact HR|lia|auto]. }
  pose proof (proj1 (keeps_run _ _ _ _ _) HT s1 I1) as HT'. rewrite L1 in HT'. exact HT'.
Qed.

(** ** All handlers *)
Ltac hd t := lazymatch t with ?f _ => hd f | ?f => f end.
Definition op_perm (o : opid) : Prop :=
  (op_ctl o = true -> pm_ctl P = true) /\ (op_cs o = true -> pm_cs P = true) /\
  (op_io o = true -> pm_io P = true) /\ (op_cb o = true -> cb_ok E P s0) /\ (op_div o = true -> pm_div P = true) /\
  (forall r, op_ub o r = true -> pm_ub P r \/ (r = UbCpuType /\ 0 <= cpu (ar s0) <= 2)).

Lemma exec1_keeps o p : arg_ok o p -> op_perm o -> is_prefix o = false -> K (op_len o) any (exec1 E o p).
Proof.
  intros [Hp Ha] (Hctl & Hcs & Hio & Hcb & Hdv & Hub) Hpre.
  assert (Hm : op_rm o = true -> memperm P).
  { intros Hm. split; (destruct (Hub UbMapIndex Hm) as [H|[H _]]; [|discriminate]); [exact H|].
    destruct (Hub UbDeref Hm) as [H1|[H1 _]]; [exact H1|discriminate]. }
  assert (Hu : forall r, r <> UbCpuType -> op_ub o r = true -> pm_ub P r).
  { intros r Hr H. destruct (Hub r H) as [H1|[H1 _]]; [exact H1|contradiction]. }
  assert (Hc : op_ub o UbCpuType = true -> K 10 any (x_popf E)).
  { intros H. destruct (Hub _ H) as [H1|[_ H1]]; [apply k_popf; auto|apply k_popf_cpu; auto]. }
  pose proof (Hu UbShift ltac:(discriminate)) as Hsh. pose proof (Hu UbMulOverflow ltac:(discriminate)) as Hmu.
  pose proof (Hu UbDivOverflow ltac:(discriminate)) as Hdi. pose proof (Hu UbSegReg ltac:(discriminate)) as Hse. clear Hu Hub.
  destruct o; try discriminate Hpre; clear Hpre;
  cbn [op_ctl op_cs op_io op_cb op_div op_rm op_ub op_len exec1] in *;
  repeat match goal with H : true = true -> _ |- _ => specialize (H eq_refl) | H : false = true -> _ |- _ => clear H end.
  all: lazymatch goal with |- keeps _ _ _ _ ?t => let h := hd t in lazymatch h with
    | x_arith_mi => apply k_arith_mi; auto
    | x_arith_mix => apply k_arith_mix; auto
    | x_arith_mi8x => apply k_arith_mi8x; auto
    | x_misc_mi => apply k_misc_mi; auto
    | x_misc_mix => apply k_misc_mix; auto
    | x_unary_m => apply k_unary_m; auto
    | x_unary_mx => apply k_unary_mx; auto
    | x_enter => apply k_enter; auto
    | x_leave => apply k_leave; auto
    | x_flag => apply k_flag; auto
    | x_bsf => apply k_bsf; auto
    | x_lea => apply k_lea; auto
    | x_btx => apply k_btx; auto
    | x_mov_rs => apply k_mov_rs; auto
    | x_mov_sr => apply k_mov_sr; auto
    | x_mov_regb => apply k_mov_regb; auto
    | x_mov_reg => apply k_mov_reg; auto
    | x_xchg_reg => apply k_xchg_reg; auto
    | x_push_reg => apply k_push_reg; auto
    | x_pop_reg => apply k_pop_reg; auto
    | x_pusha => apply k_pusha; auto
    | x_popa => apply k_popa; auto
    | x_pushf => apply k_pushf; auto
    | x_pop_mx => apply k_pop_mx; auto
    | x_iret => apply k_iret; auto
    | x_alu => apply k_alu; auto
    | x_imul_mi8x => apply k_imuls; auto
    | x_imul_mix => apply k_imuls; auto
    | x_imul_rmx => apply k_imuls; auto
    | x_shift_mi => apply (k_shifts E P s0 Hmem p); auto
    | x_shift_mi8x => apply (k_shifts E P s0 Hmem p); auto
    | x_shift_m1 => apply (k_shifts E P s0 Hmem p); auto
    | x_shift_m1x => apply (k_shifts E P s0 Hmem p); auto
    | x_shift_mcl => apply (k_shifts E P s0 Hmem p); auto
    | x_shift_mclx => apply (k_shifts E P s0 Hmem p); auto
    | x_dbl_i8 => apply k_dbls; auto
    | x_dbl_cl => apply k_dbls; auto
    | x_call_n => apply k_calls; auto
    | x_ret_n => apply k_calls; auto
    | x_ret_in => apply k_calls; auto
    | x_call_f => apply k_fcalls; auto
    | x_ret_f => apply k_fcalls; auto
    | x_ret_if => apply k_fcalls; auto
    | x_jmp_f => apply k_fcalls; auto
    | call_interrupt => apply k_ints; auto
    | x_int_i => apply k_ints; auto
    | x_into => apply k_ints; auto
    | x_in_adx => apply (k_io E P s0 Hmem Hio)
    | x_in_adxx => apply (k_io E P s0 Hmem Hio)
    | x_in_ai => apply (k_io E P s0 Hmem Hio)
    | x_in_aix => apply (k_io E P s0 Hmem Hio)
    | x_out_dxa => apply (k_io E P s0 Hmem Hio)
    | x_out_dxax => apply (k_io E P s0 Hmem Hio)
    | x_out_ai => apply (k_io E P s0 Hmem Hio)
    | x_out_aix => apply (k_io E P s0 Hmem Hio)
    | x_cbw => apply (k_misc1 E P s0 Hmem)
    | x_aam => apply (k_misc1 E P s0 Hmem); auto
    | x_aad => apply (k_misc1 E P s0 Hmem)
    | x_cwd => apply (k_misc1 E P s0 Hmem)
    | x_xlat => apply (k_misc1 E P s0 Hmem)
    | x_mov_mr => apply k_movs; auto
    | x_mov_mrx => apply k_movs; auto
    | x_mov_rm => apply k_movs; auto
    | x_mov_rmx => apply k_movs; auto
    | x_mov_mi => apply k_movs; auto
    | x_mov_mix => apply k_movs; auto
    | x_mov_amo => apply k_movos; auto
    | x_mov_amox => apply k_movos; auto
    | x_mov_moa => apply k_movos; auto
    | x_mov_moax => apply k_movos; auto
    | x_mov_z => apply k_movz; auto
    | x_mov_zx => apply k_movz; auto
    | x_xchg_rm => apply k_xchgs; auto
    | x_xchg_rmx => apply k_xchgs; auto
    | x_push_i => apply k_push_is; auto
    | x_push_i8 => apply k_push_is; auto
    | x_jcc_s => eapply keeps_weak; [apply k_jumps; auto|lia|auto]
    | x_jcc_n => eapply keeps_weak; [apply k_jumps; auto|lia|auto]
    | x_jcxz => eapply keeps_weak; [apply k_jumps; auto|lia|auto]
    | loop_with => eapply keeps_weak; [apply k_jumps; auto|lia|auto]
    | x_jmp_n => eapply keeps_weak; [apply k_jumps; auto|lia|auto]
    | x_jmp_s => eapply keeps_weak; [apply k_jumps; auto|lia|auto]
    | @err => apply keeps_err; unfold E_BUG, E_HALT; lia
    | x_push_seg => apply (k_segs E P s0 Hmem p); lia
    | x_pop_seg => apply (k_segs E P s0 Hmem p); lia
    | x_popf => exact Hc
    | _ => idtac end end.
  - (* inc *) unfold x_inc_reg. eapply keeps_bind; [apply keeps_opw|]. cbn beta. intros w Hw.
    eapply keeps_weak; [apply k_alu1_r; auto using w16_32, fl_inc; lia|lia|auto].
  - unfold x_dec_reg. eapply keeps_bind; [apply keeps_opw|]. cbn beta. intros w Hw.
    eapply keeps_weak; [apply k_alu1_r; auto using w16_32, fl_dec; lia|lia|auto].
  - apply k_aaas. apply fl_aaa.
  - apply k_aaas. apply fl_aas.
  - apply k_daas. apply fl_daa.
  - apply k_daas. apply fl_das.
  - apply k_lxs; auto; lia.
  - apply k_str; auto.
Qed.
End Keep.
