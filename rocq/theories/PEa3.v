(** Proofs: operands outside the map and at the end of a block, by their real address. *)
From Verif Require Import Base Cpu Alu Ops Machine Spec SpecOps SpecOps2 SpecSys SpecRun SpecStop SpecEa PBase PMem PRun PFrame PAlu PExec PIAlu PIAlu2 PShift PStep PIMov PStop PStop2 PEa PEa2.

Section WithEnv.
Context (E : env) (base : Z).

Definition refusal {X} (x : Z) (s : st) : out X := if x mod 4096 =? 4095 then Err E_BADMEM s else UB UbMapIndex.
Definition narrow1 : list Z := [0; 2; 8; 10; 16; 18; 24; 26; 32; 34; 40; 42; 48; 50; 56; 58; 128; 130; 132; 134; 136; 138; 141; 192; 196; 197; 198; 208; 210; 246; 254].
Lemma narrow_ops op t t' : 0 <= op < 256 -> op <> 15 -> has_modrm (op :: t) = Some (false, t') -> t' = t /\ In op narrow1.
Proof.
  intros Hb H15 H.
  assert (K : has_modrm (op :: t) = match has_modrm [op] with Some (w, _) => Some (w, t) | None => None end).
  { clear H. unfold has_modrm. destruct op as [|q|q]; [reflexivity| |lia].
    repeat (destruct q as [q|q|]; try reflexivity; try (exfalso; apply H15; reflexivity)). }
  rewrite K in H.
  assert (A : forallb (fun i => match has_modrm [Z.of_nat i] with Some (false, _) => mem_z narrow1 (Z.of_nat i) | _ => true end) (seq 0 256) = true) by (vm_compute; reflexivity).
  rewrite forallb_forall in A. specialize (A (Z.to_nat op)). rewrite Z2Nat.id in A by lia. specialize (A ltac:(apply in_seq; lia)).
  destruct (has_modrm [op]) as [[w x]|]; [|discriminate]. injection H as -> <-. split; [reflexivity|]. apply mem_z_In, A.
Qed.

(** Byte operands. *)
Lemma narrow_far s pre p bs t rg x rest : fetched E base s pre p bs ->
  has_modrm bs = Some (false, t) -> real_address p (ar s) t = Some (rg, x, rest) -> map_size <= x ->
  no_pointer bs = false -> invalid_form bs = false -> (forall op q, bs = op :: q -> op <> 130) -> run_one E s = UB UbMapIndex.
Proof.
  intros Hf Hm Hr Hx Hn Hi H82. pose proof Hf as (R & Hp & C). destruct R as [F W PC Hc].
  apply prefixes_ok in Hp. apply code_from_0 in C. apply code_from_app in C. rewrite Z.add_0_l in C.
  pose proof (code_bytes E base _ _ _ _ Hf) as Hb.
  destruct bs as [|op q]; [discriminate|]. destruct (Z.eq_dec op 15) as [->|H15].
  - destruct q as [|op2 t2]; [discriminate|]. 
    assert (K : (op2 = 182 \/ op2 = 164 \/ op2 = 165 \/ op2 = 172 \/ op2 = 173) /\ t2 = t).
    { cbn [has_modrm] in Hm. cbn [no_pointer] in Hn. destruct ((op2 =? 182) || _ || _ || _ || _ || _ || _ || _) eqn:K in Hm; [injection Hm as ->; split; [lia|reflexivity]|]. destruct (_ || _) in Hm; discriminate Hm. }
    clear Hm Hi Hn. destruct K as [K ->].
    assert (C2 : code_from (ar s) (blen pre + 2) t).
    { apply code_from_cons in C. destruct C as [_ C]. apply code_from_cons in C. destruct C as [_ C]. replace (blen pre + 2) with (blen pre + 1 + 1) by lia. exact C. }
    pose proof (parse8_far E base (ar s) p _ (dbg s) (icount s + 1) (lastnull s) t rg x rest F W Hp C2 Hr Hx) as P1.
    destruct (real_parts E base (ar s) p _ (dbg s) (icount s + 1) (lastnull s) t rg x rest F W Hp C2 Hr) as (b & u & sg & o & _ & _ & H3 & _ & Hxx & G1 & G2).
    destruct K as [->|[->|[->|[->| ->]]]]; (eapply run_ub; [exact Hf|reflexivity|]); cbn [e_op e_arg exec1].
    2-5: unfold x_dbl_i8, x_dbl_cl; unfold bind at 1; rewrite P1; reflexivity.
    unfold x_mov_z. erewrite bind_ok by exact G1. unfold decode_modm. replace (m_mod (modrm_of b)) with (b / 64) by reflexivity. replace (b / 64 =? 3) with false by lia.
    unfold bind at 1. unfold bind at 1. rewrite G2. cbn [fst snd]. unfold bind at 1. rewrite (getptr_ub E _ _ _ _ Hxx Hx). reflexivity.
  - destruct (narrow_ops op q t (Hb op (or_introl eq_refl)) H15 Hm) as [-> K]. clear Hm.
    assert (C2 : code_from (ar s) (blen pre + 1) q) by (apply code_from_cons in C; apply C).
    pose proof (parse8_far E base (ar s) p _ (dbg s) (icount s + 1) (lastnull s) q rg x rest F W Hp C2 Hr Hx) as P1.
    destruct q as [|mb q]; [discriminate|].
    pose proof (Hb mb (or_intror (or_introl eq_refl))) as Hmb.
    unfold narrow1 in K. cbn [In] in K.
    repeat (destruct K as [<-|K]; [ |]); try contradiction.
    all: try (exfalso; eapply H82; reflexivity).
    all: try discriminate Hn.
    all: (eapply run_ub; [exact Hf|reflexivity|]); cbn [e_op e_arg exec1 x_alu].
    all: cbn [no_pointer invalid_form reg_field mod_field mem_z existsb orb andb Z.eqb Pos.eqb] in Hi, Hn.
    all: first
     [ unfold bind at 1; rewrite P1; reflexivity
     | unfold x_arith_mi, x_mov_mr, x_mov_rm, x_mov_mi, x_shift_mi, x_shift_m1, x_misc_mi; unfold bind at 1; rewrite P1; reflexivity
     | unfold x_xchg_rm, x_shift_mcl; msteps; unfold bind at 1; rewrite P1; reflexivity
     | idtac ].
    + unfold x_shift_mcl. xs E base. unfold bind at 1. rewrite P1. reflexivity.
    + unfold x_unary_m. assert (Hrr : 0 <= (mb / 8) mod 8 < 8) by lia. revert Hi Hrr. generalize ((mb / 8) mod 8) as z. intros z Hi Hrr.
      assert (z = 0 \/ z = 1) as [-> | ->] by lia; unfold bind at 1; rewrite P1; reflexivity.
Qed.

(** Word operands. *)
Lemma wide_far s pre p bs t rg x rest : fetched E base s pre p bs ->
  has_modrm bs = Some (true, t) -> real_address p (ar s) t = Some (rg, x, rest) -> (x mod 4096 = 4095 \/ map_size <= x) ->
  invalid_form bs = false -> unsupported_form p bs = false -> imul_wide p bs = false -> far_indirect bs = false -> sreg_exists bs ->
  if x mod 4096 =? 4095 then stops E s E_BADMEM else run_one E s = UB UbMapIndex.
Proof.
  intros Hf Hm Hr Hx Hi Hu Hw Hfar Hg. pose proof Hf as (R & Hp & C). destruct R as [F W PC Hc].
  apply prefixes_ok in Hp. apply code_from_0 in C. apply code_from_app in C. rewrite Z.add_0_l in C.
  pose proof (code_bytes E base _ _ _ _ Hf) as Hb.
  assert (Main : exists o k m d', dispatch bs = Some (o, k, m) /\
    exec1 E o k (mkSt (ar s) (dec_of p (blen pre + m)) (dbg s) (icount s + 1) (lastnull s)) = refusal x (mkSt (ar s) d' (dbg s) (icount s + 1) (lastnull s))).
  2:{ destruct Main as (o & k & m & d' & Hd & Hxx). unfold refusal in Hxx. destruct (x mod 4096 =? 4095).
      - eapply err_stops; [exact Hf|exact Hd|exact Hxx|discriminate|discriminate].
      - eapply run_ub; [exact Hf|exact Hd|exact Hxx]. }
  assert (P : forall off, code_from (ar s) off t ->
    let S := mkSt (ar s) (dec_of p off) (dbg s) (icount s + 1) (lastnull s) in
    let S2 := mkSt (ar s) (dec_of p (off + (blen t - blen rest))) (dbg s) (icount s + 1) (lastnull s) in
    (forall Y (f : ptr * ptr -> M Y), bind (parse_modrmx E) f S = refusal x S2) /\
    exists mm S1, get_modrm E S = Ok mm S1 /\ forall Y (f : ptr -> M Y), bind (decode_modmx E mm) f S1 = refusal x S2).
  { intros off C2. cbv zeta. destruct (parsex_all E base (ar s) p off (dbg s) (icount s + 1) (lastnull s) t rg x rest F W Hp C2 Hr) as (b & G1 & _ & _ & G2). cbv zeta in G2.
    assert (G3 : decode_modmx E (modrm_of b) (mkSt (ar s) (dec_of p (off + 1)) (dbg s) (icount s + 1) (lastnull s)) =
      refusal x (mkSt (ar s) (dec_of p (off + (blen t - blen rest))) (dbg s) (icount s + 1) (lastnull s))).
    { rewrite G2. unfold refusal. destruct (Z.eqb_spec (x mod 4096) 4095) as [|N]; [reflexivity|]. replace (x <? map_size) with false by lia. reflexivity. }
    split.
    - intros Y f. unfold parse_modrmx. unfold bind at 1. erewrite bind_ok by exact G1. unfold bind at 1. rewrite G3. unfold refusal. destruct (x mod 4096 =? 4095); reflexivity.
    - exists (modrm_of b), (mkSt (ar s) (dec_of p (off + 1)) (dbg s) (icount s + 1) (lastnull s)). split; [exact G1|]. intros Y f. unfold bind. rewrite G3. unfold refusal. destruct (x mod 4096 =? 4095); reflexivity. }
  destruct bs as [|op q]; [discriminate|]. destruct (Z.eq_dec op 15) as [->|H15].
  - destruct q as [|op2 t2]; [discriminate|]. 
    assert (K : (op2 = 175 \/ op2 = 183 \/ op2 = 188) /\ t2 = t).
    { cbn [has_modrm] in Hm. cbn [unsupported_form] in Hu. revert Hm. destruct (_ || _); [discriminate|]. destruct (_ || _) eqn:K; [|discriminate]. intros [= ->].
      split; [|reflexivity]. lia. }
    clear Hm Hi Hu. destruct K as [K ->].
    assert (C2 : code_from (ar s) (blen pre + 2) t).
    { apply code_from_cons in C. destruct C as [_ C]. apply code_from_cons in C. destruct C as [_ C]. replace (blen pre + 2) with (blen pre + 1 + 1) by lia. exact C. }
    destruct (P _ C2) as (P1 & mm & S1 & P2 & P3). clear P.
    assert (Hos : op2 = 175 -> p_os p = false).
    { intros ->. cbn [imul_wide] in Hw. destruct (p_os p); [discriminate|reflexivity]. }
    destruct K as [->|[->| ->]]; do 4 eexists; (split; [reflexivity|]); cbn [e_op e_arg exec1].
    + unfold x_imul_rmx. rewrite st_getD. cbn [dec_of d_op]. rewrite ?(Hos eq_refl). apply P1.
    + unfold x_mov_zx. erewrite bind_ok by exact P2. apply P3.
    + unfold x_bsf. apply P1.
  - destruct (wide_ops op q t (Hb op (or_introl eq_refl)) H15 Hm) as [-> K]. clear Hm.
    assert (C2 : code_from (ar s) (blen pre + 1) q) by (apply code_from_cons in C; apply C).
    destruct (P _ C2) as (P1 & mm & S1 & P2 & P3). clear P.
    destruct q as [|mb q]; [discriminate|].
    pose proof (Hb mb (or_intror (or_introl eq_refl))) as Hmb.
    assert (P4 : forall X (f : Z -> M X), bind (peek8 E) f (mkSt (ar s) (dec_of p (blen pre + 1)) (dbg s) (icount s + 1) (lastnull s)) =
      f mb (mkSt (ar s) (dec_of p (blen pre + 1)) (dbg s) (icount s + 1) (lastnull s))).
    { intros X f. unfold peek8. rewrite st_bind. erewrite bind_ok by (eapply fetch8_code; eauto). rewrite st_bind, st_upd_dc, st_ret.
      f_equal. unfold dec_of, dd_ipoff. cbn. do 2 f_equal. lia. }
    unfold wide1 in K. cbn [In] in K.
    repeat (destruct K as [<-|K]; [ |]); try contradiction.
    all: do 4 eexists; (split; [reflexivity|]); cbn [e_op e_arg exec1 x_alu].
    all: cbn [far_indirect invalid_form unsupported_form imul_wide sreg_exists reg_field mod_field mem_z existsb orb andb Z.eqb Pos.eqb] in Hi, Hu, Hw, Hg, Hfar.
    all: first
     [ apply P1
     | unfold x_arith_mix, x_arith_mi8x, x_mov_mrx, x_mov_rmx, x_mov_mix, x_shift_mi8x, x_shift_m1x, x_misc_mix; apply P1
     | unfold x_xchg_rmx, x_shift_mclx; msteps; apply P1
     | unfold x_imul_mix, x_imul_mi8x, x_pop_mx; msteps; cbn [dec_of d_op]; destruct (p_os p); [discriminate|]; apply P1
     | unfold x_mov_rs, x_mov_sr; msteps; cbn [dec_of d_op]; destruct (p_os p); [discriminate|]; rewrite P4; try (rewrite st_chkseg by lia); apply P1
     | idtac ].
    + unfold x_unary_mx. rewrite st_getD. cbn [dec_of d_op].
      assert (Hrr : 0 <= (mb / 8) mod 8 < 8) by lia. revert Hi Hu Hrr Hfar. generalize ((mb / 8) mod 8) as z. intros z Hi Hu Hrr Hfar.
      assert (K' : z = 0 \/ z = 1 \/ z = 6 \/ (p_os p = false /\ (z = 2 \/ z = 4))).
      { destruct (p_os p); cbn [andb orb] in *; [|]; lia. }
      destruct K' as [->|[->|[->|[Ho [->| ->]]]]]; try rewrite Ho; try destruct (p_os p); apply P1.
Qed.
End WithEnv.
