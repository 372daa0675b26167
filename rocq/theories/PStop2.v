(** Instructions refused without effect: word operands at the end of a block, invalid and
    unsupported encodings (C50, C51). *)
From Verif Require Import Base Cpu Alu Ops Machine Spec SpecOps SpecOps2 SpecSys SpecRun SpecStop PBase PMem PRun PFrame PAlu PExec PStep PIAlu PStop.

Section Stop2.
Context (E : env) (base : Z).

Lemma err_stops s pre p bs o k m c d' : fetched E base s pre p bs -> dispatch bs = Some (o, k, m) ->
  exec1 E o k (mkSt (ar s) (dec_of p (blen pre + m)) (dbg s) (icount s + 1) (lastnull s)) =
    Err c (mkSt (ar s) d' (dbg s) (icount s + 1) (lastnull s)) ->
  c <> E_CONTINUE -> c <> E_DIVERR -> stops E s c.
Proof.
  intros Hf Hd Hx H1 H2. unfold stops. rewrite (run_err E base s pre p bs o k m c _ Hf Hd Hx H1). replace (c =? E_DIVERR) with false by lia.
  eexists. split; [reflexivity|]. cbn. split; [apply same_refl|auto].
Qed.

(** ** C50 *)
Lemma parsex_end a p off g n l t rg sg o rest : flat E base a -> wf_regs a -> pfx_ok p -> code_from a off t ->
  parse_rm p a t = Some (rg, RMem sg o, rest) -> ea_supported p a t -> lin sg o mod 4096 = 4095 ->
  exists off', parse_modrmx E (mkSt a (dec_of p off) g n l) = Err E_BADMEM (mkSt a (dec_of p off') g n l) /\
    exists m, get_modrm E (mkSt a (dec_of p off) g n l) = Ok m (mkSt a (dec_of p (off + 1)) g n l) /\
      decode_modmx E m (mkSt a (dec_of p (off + 1)) g n l) = Err E_BADMEM (mkSt a (dec_of p off') g n l).
Proof.
  intros F W Hp C Hr Hs He. destruct t as [|b t]; [discriminate|].
  pose proof (code_byte_range E base a off b t F W C) as Hb.
  assert (H3 : b / 64 <> 3).
  { intros H3. cbn [parse_rm] in Hr. rewrite H3 in Hr. discriminate. }
  pose proof (parse_rm_ok _ _ _ _ _ _ W Hr) as [[Hsr Hrange] _]. pose proof (lin_bound sg o Hsr Hrange) as Hl.
  pose proof (get_mmm_rm E base a p (off + 1) g n l b t rg sg o rest F W Hp Hb H3 (proj2 (code_from_cons _ _ _ _ C)) Hr Hs) as Hg.
  assert (D : decode_modmx E (modrm_of b) (mkSt a (dec_of p (off + 1)) g n l) = Err E_BADMEM (mkSt a (dec_of p (off + 1 + (blen t - blen rest))) g n l)).
  { unfold decode_modmx. replace (m_mod (modrm_of b)) with (b / 64) by reflexivity. replace (b / 64 =? 3) with false by lia.
    erewrite bind_ok by exact Hg. cbn [fst snd].
    assert (Hw : wrap 32 (sg * 16 + o) = lin sg o).
    { unfold lin in *. rewrite wrap_small by (unfold inrange; lia). lia. }
    rewrite Hw, He. reflexivity. }
  eexists. split.
  - unfold parse_modrmx. erewrite bind_ok by (eapply get_modrm_code; eauto). unfold bind at 1. rewrite D. reflexivity.
  - exists (modrm_of b). split; [eapply get_modrm_code; eauto|exact D].
Qed.
Lemma mem_z_In l b : mem_z l b = true <-> In b l.
Proof. unfold mem_z. rewrite existsb_exists. split; [intros (x & H1 & H2); apply Z.eqb_eq in H2; subst; exact H1|intros H; exists b; split; [exact H|apply Z.eqb_refl]]. Qed.
Definition wide1 : list Z := [1; 3; 9; 11; 17; 19; 25; 27; 33; 35; 41; 43; 49; 51; 57; 59; 105; 107; 129; 131; 133; 135; 137; 139; 140; 142; 143; 193; 199; 209; 211; 247; 255].
Lemma wide_ops op t t' : 0 <= op < 256 -> op <> 15 -> has_modrm (op :: t) = Some (true, t') -> t' = t /\ In op wide1.
Proof.
  intros Hb H15 H.
  assert (K : has_modrm (op :: t) = match has_modrm [op] with Some (w, _) => Some (w, t) | None => None end).
  { clear H. unfold has_modrm. destruct op as [|q|q]; [reflexivity| |lia].
    repeat (destruct q as [q|q|]; try reflexivity; try (exfalso; apply H15; reflexivity)). }
  rewrite K in H.
  assert (A : forallb (fun i => match has_modrm [Z.of_nat i] with Some (true, _) => mem_z wide1 (Z.of_nat i) | _ => true end) (seq 0 256) = true) by (vm_compute; reflexivity).
  rewrite forallb_forall in A. specialize (A (Z.to_nat op)). rewrite Z2Nat.id in A by lia. specialize (A ltac:(apply in_seq; lia)).
  destruct (has_modrm [op]) as [[w x]|]; [|discriminate]. injection H as -> <-. split; [reflexivity|]. apply mem_z_In, A.
Qed.
Theorem block_end_stops s pre p bs t rg sg o rest : fetched E base s pre p bs ->
  has_modrm bs = Some (true, t) -> parse_rm p (ar s) t = Some (rg, RMem sg o, rest) -> ea_supported p (ar s) t ->
  lin sg o mod 4096 = 4095 -> invalid_form bs = false -> unsupported_form p bs = false -> imul_wide p bs = false -> far_indirect bs = false -> sreg_exists bs ->
  stops E s E_BADMEM.
Proof.
  intros Hf Hm Hr Hs He Hi Hu Hw Hfar Hg. pose proof Hf as (R & Hp & C). destruct R as [F W PC Hc].
  apply prefixes_ok in Hp. apply code_from_0 in C. apply code_from_app in C. rewrite Z.add_0_l in C.
  pose proof (code_bytes E base _ _ _ _ Hf) as Hb.
  destruct bs as [|op q]; [discriminate|]. destruct (Z.eq_dec op 15) as [->|H15].
  - destruct q as [|op2 t2]; [discriminate|]. 
    assert (K : (op2 = 175 \/ op2 = 183 \/ op2 = 188) /\ t2 = t).
    { cbn [has_modrm] in Hm. cbn [unsupported_form] in Hu. revert Hm. destruct (_ || _); [discriminate|]. destruct (_ || _) eqn:K; [|discriminate]. intros [= ->].
      split; [|reflexivity]. lia. }
    clear Hm Hi Hu. destruct K as [K ->].
    assert (C2 : code_from (ar s) (blen pre + 2) t).
    { apply code_from_cons in C. destruct C as [_ C]. apply code_from_cons in C. destruct C as [_ C]. replace (blen pre + 2) with (blen pre + 1 + 1) by lia. exact C. }
    destruct (parsex_end (ar s) p _ (dbg s) (icount s + 1) (lastnull s) t rg sg o rest F W Hp C2 Hr Hs He) as (off' & P1 & mm & P2 & P3).
    assert (Hos : op2 = 175 -> p_os p = false).
    { intros ->. cbn [imul_wide] in Hw. destruct (p_os p); [discriminate|reflexivity]. }
    destruct K as [->|[->| ->]]; (eapply err_stops; [exact Hf|reflexivity| |discriminate|discriminate]); cbn [e_op e_arg exec1].
    + unfold x_imul_rmx. rewrite st_getD. cbn [dec_of d_op]. rewrite ?(Hos eq_refl). unfold bind at 1. rewrite P1. reflexivity.
    + unfold x_mov_zx. erewrite bind_ok by exact P2. unfold bind at 1. rewrite P3. reflexivity.
    + unfold x_bsf. unfold bind at 1. rewrite P1. reflexivity.
  - destruct (wide_ops op q t (Hb op (or_introl eq_refl)) H15 Hm) as [-> K]. clear Hm.
    assert (C2 : code_from (ar s) (blen pre + 1) q) by (apply code_from_cons in C; apply C).
    destruct (parsex_end (ar s) p _ (dbg s) (icount s + 1) (lastnull s) q rg sg o rest F W Hp C2 Hr Hs He) as (off' & P1 & mm & P2 & P3).
    destruct q as [|mb q]; [discriminate|].
    pose proof (Hb mb (or_intror (or_introl eq_refl))) as Hmb.
    assert (P4 : forall X (f : Z -> M X), bind (peek8 E) f (mkSt (ar s) (dec_of p (blen pre + 1)) (dbg s) (icount s + 1) (lastnull s)) =
      f mb (mkSt (ar s) (dec_of p (blen pre + 1)) (dbg s) (icount s + 1) (lastnull s))).
    { intros X f. unfold peek8. rewrite st_bind. erewrite bind_ok by (eapply fetch8_code; eauto). rewrite st_bind, st_upd_dc, st_ret.
      f_equal. unfold dec_of, dd_ipoff. cbn. do 2 f_equal. lia. }
    unfold wide1 in K. cbn [In] in K.
    repeat (destruct K as [<-|K]; [ |]); try contradiction.
    all: eapply err_stops; [exact Hf|reflexivity| |discriminate|discriminate]; cbn [e_op e_arg exec1 x_alu].
    all: cbn [far_indirect invalid_form unsupported_form imul_wide sreg_exists reg_field mod_field mem_z existsb orb andb Z.eqb Pos.eqb] in Hi, Hu, Hw, Hg, Hfar.
    all: first
     [ unfold bind at 1; rewrite P1; reflexivity
     | unfold x_arith_mix, x_arith_mi8x, x_mov_mrx, x_mov_rmx, x_mov_mix, x_shift_mi8x, x_shift_m1x, x_misc_mix; unfold bind at 1; rewrite P1; reflexivity
     | unfold x_xchg_rmx, x_shift_mclx; msteps; unfold bind at 1; rewrite P1; reflexivity
     | unfold x_imul_mix, x_imul_mi8x, x_pop_mx; msteps; cbn [dec_of d_op]; destruct (p_os p); [discriminate|]; unfold bind at 1; rewrite P1; reflexivity
     | unfold x_mov_rs, x_mov_sr; msteps; cbn [dec_of d_op]; destruct (p_os p); [discriminate|]; rewrite P4; try (rewrite st_chkseg by lia); unfold bind at 1; rewrite P1; reflexivity
     | idtac ].
    + unfold x_shift_mclx. xs E base. unfold bind at 1. rewrite P1. reflexivity.
    + unfold x_unary_mx. rewrite st_getD. cbn [dec_of d_op].
      assert (Hrr : 0 <= (mb / 8) mod 8 < 8) by lia. revert Hi Hu Hrr Hfar. generalize ((mb / 8) mod 8) as z. intros z Hi Hu Hrr Hfar.
      assert (K' : z = 0 \/ z = 1 \/ z = 6 \/ (p_os p = false /\ (z = 2 \/ z = 4))).
      { destruct (p_os p); cbn [andb orb] in *; [|]; lia. }
      destruct K' as [->|[->|[->|[Ho [->| ->]]]]]; try rewrite Ho; try destruct (p_os p); unfold bind at 1; rewrite P1; reflexivity.
Qed.

(** ** C51 *)
Lemma fetch_modrm s pre p op mb q : fetched E base s pre p (op :: mb :: q) ->
  get_modrm E (mkSt (ar s) (dec_of p (blen pre + 1)) (dbg s) (icount s + 1) (lastnull s)) =
  Ok (modrm_of mb) (mkSt (ar s) (dec_of p (blen pre + 1 + 1)) (dbg s) (icount s + 1) (lastnull s)).
Proof.
  intros (R & Hp & C). destruct R as [F W PC Hc]. apply code_from_0 in C. apply code_from_app in C. rewrite Z.add_0_l in C.
  apply code_from_cons in C. destruct C as [_ C]. eapply get_modrm_code; eauto.
Qed.
Lemma fetch_modrm2 s pre p op mb q : fetched E base s pre p (15 :: op :: mb :: q) ->
  get_modrm E (mkSt (ar s) (dec_of p (blen pre + 2)) (dbg s) (icount s + 1) (lastnull s)) =
  Ok (modrm_of mb) (mkSt (ar s) (dec_of p (blen pre + 2 + 1)) (dbg s) (icount s + 1) (lastnull s)).
Proof.
  intros (R & Hp & C). destruct R as [F W PC Hc]. apply code_from_0 in C. apply code_from_app in C. rewrite Z.add_0_l in C.
  apply code_from_cons in C. destruct C as [_ C]. apply code_from_cons in C. destruct C as [_ C].
  replace (blen pre + 2) with (blen pre + 1 + 1) by lia. eapply get_modrm_code; eauto.
Qed.
Lemma in3 l b : mem_z l b = true -> In b l. Proof. apply mem_z_In. Qed.
Theorem invalid_stops s pre p bs : fetched E base s pre p bs -> modrm_read bs -> invalid_form bs = true -> stops E s E_UNDEF.
Proof.
  intros Hf Hm Hi. pose proof (code_bytes E base _ _ _ _ Hf) as Hb.
  destruct bs as [|op q]; [discriminate|]. destruct (Z.eq_dec op 15) as [->|H15].
  - destruct q as [|op2 t]; [discriminate|]. cbn [invalid_form] in Hi. apply andb_true_iff in Hi. destruct Hi as [K H3].
    apply in3 in K. cbn [In] in K. destruct t as [|mb t]; [discriminate|]. cbn [mod_field] in H3.
    pose proof (fetch_modrm2 s pre p op2 mb t Hf) as G.
    destruct K as [<-|[<-|[<-|[]]]]; (eapply err_stops; [exact Hf|reflexivity| |discriminate|discriminate]); cbn [e_op e_arg exec1];
      unfold x_lxs, get_modrm_nocheck; unfold bind at 1; rewrite G; replace (m_mod (modrm_of mb)) with (mb / 64) by reflexivity; rewrite H3; reflexivity.
  - assert (Hi' : (mem_z [141; 196; 197] op && (mod_field q =? 3)) ||
      ((op =? 254) && (2 <=? reg_field q)) ||
      ((op =? 255) && ((reg_field q =? 7) || (mem_z [3; 5] (reg_field q) && (mod_field q =? 3)))) = true).
    { rewrite <- Hi. unfold invalid_form. clear - H15. destruct op as [|r|r]; [reflexivity| |reflexivity].
      repeat (destruct r as [r|r|]; try reflexivity; try (exfalso; apply H15; reflexivity)). }
    clear Hi. destruct q as [|mb q].
    { exfalso. cbn [mod_field reg_field] in Hi'. revert Hi'. destruct (mem_z _ op), (op =? 254), (op =? 255); cbn; discriminate. }
    pose proof (fetch_modrm s pre p op mb q Hf) as G. cbn [mod_field reg_field] in Hi'.
    assert (Hrr : 0 <= (mb / 8) mod 8 < 8) by lia.
    apply orb_true_iff in Hi'. destruct Hi' as [Hi'|Hi']; [apply orb_true_iff in Hi'; destruct Hi' as [Hi'|Hi']|]; apply andb_true_iff in Hi'; destruct Hi' as [K H3].
    + apply in3 in K. cbn [In] in K.
      destruct K as [<-|[<-|[<-|[]]]]; (eapply err_stops; [exact Hf|reflexivity| |discriminate|discriminate]); cbn [e_op e_arg exec1];
        unfold x_lxs, x_lea, get_modrm_nocheck; unfold bind at 1; rewrite G; replace (m_mod (modrm_of mb)) with (mb / 64) by reflexivity; rewrite H3; reflexivity.
    + assert (op = 254) as -> by lia. eapply err_stops; [exact Hf|reflexivity| |discriminate|discriminate]. cbn [e_op e_arg exec1]. unfold x_unary_m.
      revert H3 Hrr. generalize ((mb / 8) mod 8) as z. intros z H3 Hrr.
      assert (z = 2 \/ z = 3 \/ z = 4 \/ z = 5 \/ z = 6 \/ z = 7) as Hz by lia. repeat destruct Hz as [->|Hz]; try subst z; reflexivity.
    + assert (op = 255) as -> by lia. apply orb_true_iff in H3. destruct (p_os p) eqn:Ho.
      * eapply err_stops; [exact Hf|reflexivity| |discriminate|discriminate]. cbn [e_op e_arg exec1]. unfold x_unary_mx. rewrite st_getD. cbn [dec_of d_op].
        rewrite Ho. destruct H3 as [H7|H3]; [apply Z.eqb_eq in H7; rewrite H7; reflexivity|].
        apply andb_true_iff in H3. destruct H3 as [K3 H3]. apply in3 in K3. cbn [In] in K3. destruct K3 as [<-|[<-|[]]]; reflexivity.
      * destruct H3 as [H7|H3]; (eapply err_stops; [exact Hf|reflexivity| |discriminate|discriminate]); cbn [e_op e_arg exec1]; unfold x_unary_mx; rewrite st_getD; cbn [dec_of d_op]; rewrite Ho.
        -- apply Z.eqb_eq in H7. rewrite H7. reflexivity.
        -- apply andb_true_iff in H3. destruct H3 as [K3 H3]. apply in3 in K3. cbn [In] in K3.
           destruct K3 as [<-|[<-|[]]]; unfold parse_farptr; rewrite st_bind; unfold bind at 1; rewrite G; cbv beta iota; replace (m_mod (modrm_of mb)) with (mb / 64) by reflexivity; rewrite H3; reflexivity.
Qed.
Theorem unsupported_stops s pre p bs : fetched E base s pre p bs -> modrm_read bs -> unsupported_form p bs = true -> stops E s E_UNDEF.
Proof.
  intros Hf Hm Hi. pose proof (code_bytes E base _ _ _ _ Hf) as Hb.
  destruct bs as [|op q]; [discriminate|]. destruct (Z.eq_dec op 15) as [->|H15].
  - destruct q as [|op2 t].
    { exfalso. cbn in Hi. rewrite andb_false_r in Hi. discriminate. }
    cbn [unsupported_form] in Hi. assert (op2 = 186) as -> by lia.
    eapply err_stops; [exact Hf|reflexivity| |discriminate|discriminate]. reflexivity.
  - assert (Hi' : p_os p && (mem_z [140; 142; 143] op || ((op =? 255) && mem_z [2; 3; 4; 5] (reg_field q))) = true).
    { rewrite <- Hi. unfold unsupported_form. clear - H15. destruct op as [|r|r]; [reflexivity| |reflexivity].
      repeat (destruct r as [r|r|]; try reflexivity; try (exfalso; apply H15; reflexivity)). }
    clear Hi. apply andb_true_iff in Hi'. destruct Hi' as [Ho Hi]. apply orb_true_iff in Hi. destruct Hi as [Hi|Hi].
    + apply in3 in Hi. cbn [In] in Hi. destruct Hi as [<-|[<-|[<-|[]]]]; (eapply err_stops; [exact Hf|reflexivity| |discriminate|discriminate]); cbn [e_op e_arg exec1];
        unfold x_mov_rs, x_mov_sr, x_pop_mx; rewrite st_getD; cbn [dec_of d_op]; rewrite Ho; reflexivity.
    + apply andb_true_iff in Hi. destruct Hi as [K Hi]. assert (op = 255) as -> by lia. apply in3 in Hi. cbn [In] in Hi.
      destruct q as [|mb q]; [destruct Hm|]. cbn [reg_field] in Hi.
      eapply err_stops; [exact Hf|reflexivity| |discriminate|discriminate]. cbn [e_op e_arg exec1]; unfold x_unary_mx; rewrite st_getD; cbn [dec_of d_op]; rewrite Ho.
      repeat destruct Hi as [<-|Hi]; try contradiction; reflexivity.
Qed.
Theorem imul_wide_stops s pre p bs : fetched E base s pre p bs -> imul_wide p bs = true -> stops E s E_BUG.
Proof.
  intros Hf Hi. destruct bs as [|op q]; [discriminate|]. destruct (Z.eq_dec op 15) as [->|H15].
  - destruct q as [|op2 t].
    { exfalso. cbn in Hi. rewrite andb_false_r in Hi. discriminate. }
    cbn [imul_wide] in Hi. apply andb_true_iff in Hi. destruct Hi as [Ho Hi]. assert (op2 = 175) as -> by lia.
    eapply err_stops; [exact Hf|reflexivity| |discriminate|discriminate]. cbn [e_op e_arg exec1]. unfold x_imul_rmx. rewrite st_getD. cbn [dec_of d_op]. rewrite Ho. reflexivity.
  - assert (Hi' : p_os p && mem_z [105; 107] op = true).
    { rewrite <- Hi. unfold imul_wide. clear - H15. destruct op as [|r|r]; [reflexivity| |reflexivity].
      repeat (destruct r as [r|r|]; try reflexivity; try (exfalso; apply H15; reflexivity)). }
    apply andb_true_iff in Hi'. destruct Hi' as [Ho Hi']. apply in3 in Hi'. cbn [In] in Hi'.
    destruct Hi' as [<-|[<-|[]]]; (eapply err_stops; [exact Hf|reflexivity| |discriminate|discriminate]); cbn [e_op e_arg exec1];
      unfold x_imul_mix, x_imul_mi8x; rewrite st_getD; cbn [dec_of d_op]; rewrite Ho; reflexivity.
Qed.
(** F6 /1, F7 /1. *)
Theorem grp3_invalid_stops s pre p op t rg r rest : fetched E base s pre p (op :: t) -> op = 246 \/ op = 247 ->
  parse_rm p (ar s) t = Some (rg, r, rest) -> operand_ok p (ar s) (op :: t) -> reg_field t = 1 -> stops E s E_UNDEF.
Proof.
  intros Hf Hop Hr Hok Hrf. pose proof Hf as (R & Hp & C). destruct R as [F W PC Hc].
  apply prefixes_ok in Hp. apply code_from_0 in C. apply code_from_app in C. rewrite Z.add_0_l in C. apply code_from_cons in C. destruct C as [_ C].
  destruct t as [|mb t]; [discriminate|]. cbn [reg_field] in Hrf.
  destruct Hop as [-> | ->]; cbn [operand_ok has_modrm Z.leb Z.ltb Z.compare Pos.compare Pos.compare_cont andb orb Z.eqb Pos.eqb Z.odd CompOpp] in Hok;
    destruct Hok as [Hs Hn]; (eapply err_stops; [exact Hf|reflexivity| |discriminate|discriminate]); cbn [e_op e_arg exec1]; rewrite Hrf.
  - unfold x_misc_mi. erewrite bind_ok by (eapply parse8_ok; eauto). reflexivity.
  - unfold x_misc_mix. rewrite Hr in Hn. erewrite bind_ok by (eapply parsex_ok with (w := 16); eauto). xs E base. reflexivity.
Qed.
End Stop2.
