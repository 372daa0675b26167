(** Proofs: exactly when an instruction reaches an undefined operation (case analysis over the opcodes with a ModR/M byte). *)
From Verif Require Import Base Cpu Alu Ops Machine Spec SpecOps SpecOps2 SpecSys SpecRun SpecStop SpecEa SpecUb PBase PMem PRun PFrame PAlu PExec PIAlu PStep PIInt PKeep PKeep2 PKeep3 PTop PTop2 PTop3 PIMov PIStack PStop PStop2 PEa PEa2 PEa3 PEa4 PUb PUb2.

Section WithEnv.
Context (E : env) (base : Z).
Local Notation J := (J E base).
Local Notation okptr := (okptr base).

Ltac swd := solve [assumption | auto with width].
Ltac okp := solve [assumption | exact I].
Ltac jj := first [eassumption | match goal with H : forall d g n l, PUb.J _ _ (mkSt _ d g n l) |- _ => apply H end].
Ltac sf1 := lazymatch goal with
  | |- safe (bind _ _) _ _ => apply safe_bind
  | |- safe (if _ then _ else _) _ _ => apply safe_if
  | |- safe opw _ _ => apply safe_opw; intros
  | |- safe (ret _) _ _ => apply safe_ret
  | |- safe (err _) _ _ => exact I
  | |- safe (gets _) _ _ => apply safe_gets
  | |- safe (getA _) _ _ => apply safe_gets
  | |- safe (getD _) _ _ => apply safe_gets
  | |- safe (get_gpr _ _) _ _ => apply safe_get_gpr; intros
  | |- safe (set_gpr _ _ _) _ _ => eapply safe_set_gpr; [jj|intros]
  | |- safe (set_flags _) _ _ => eapply safe_set_flags; [jj|intros]
  | |- safe (set_ip _) _ _ => eapply safe_set_ip; [jj|intros]
  | |- safe (load _ _) _ _ => eapply safe_load; [swd|jj|okp|intros]
  | |- safe (store _ _ _) _ _ => eapply safe_store; [swd|jj|okp|intros]
  | |- safe (fetch _ _) _ _ => eapply safe_fetch; [swd|jj|intros]
  | |- True => exact I
  end.
Ltac gp_unfold := unfold getW, getL, getH, setW, setL, setH, getflags, fetch8s, fetch8, fetch16.
Ltac go := gp_unfold; repeat (cbv beta zeta; first [sf1 | progress gp_unfold]).

Lemma safe_mul w q S : width w -> J S -> okptr q -> safe (mul_body w q) (fun _ _ => True) S.
Proof. intros Hw HJ Hq. unfold mul_body. go. Qed.
Lemma safe_imul w q S : width w -> J S -> okptr q -> safe (imul_body w q) (fun _ _ => True) S.
Proof. intros Hw HJ Hq. unfold imul_body. go. Qed.
Lemma safe_div w q S : width w -> J S -> okptr q -> safe (div_body w q) (fun _ _ => True) S.
Proof. intros Hw HJ Hq. unfold div_body. go. Qed.
Lemma sgn_min w v : 1 <= w -> 0 <= v < 2 ^ w -> sgn w v = - 2 ^ (w - 1) <-> v = 2 ^ (w - 1).
Proof.
  intros H1 H. assert (2 ^ w = 2 * 2 ^ (w - 1)) by (rewrite <- Z.pow_succ_r by lia; f_equal; lia). assert (0 < 2 ^ (w - 1)) by (apply Z.pow_pos_nonneg; lia).
  unfold sgn, wrap. rewrite Z.mod_small by lia. cbv zeta. repeat match goal with |- context [if ?b then _ else _] => destruct b eqn:? end; lia.
Qed.
Lemma sgn_m1 w v : 1 <= w -> 0 <= v < 2 ^ w -> sgn w v = -1 <-> v = 2 ^ w - 1.
Proof.
  intros H1 H. assert (2 ^ w = 2 * 2 ^ (w - 1)) by (rewrite <- Z.pow_succ_r by lia; f_equal; lia). assert (0 < 2 ^ (w - 1)) by (apply Z.pow_pos_nonneg; lia).
  unfold sgn, wrap. rewrite Z.mod_small by lia. cbv zeta. repeat match goal with |- context [if ?b then _ else _] => destruct b eqn:? end; lia.
Qed.
Lemma idiv_ub w q v a d g n l : width w -> J (mkSt a d g n l) -> okptr q -> inrange w v -> load w q (mkSt a d g n l) = Ok v (mkSt a d g n l) ->
  ubres (idiv_body w q (mkSt a d g n l)) =
  if negb (w =? 8) && (reg w 2 a * 2 ^ w + reg w 0 a =? 2 ^ (2 * w - 1)) && (v =? 2 ^ w - 1) then Some UbDivOverflow else None.
Proof.
  intros Hw HJ Hq Hv HL. unfold idiv_body. erewrite bind_ok by exact HL.
  assert (Hp : 2 ^ w - 1 > 0) by (destruct Hw as [->|[->| ->]]; reflexivity).
  destruct (Z.eqb_spec v 0) as [->|N].
  { replace (0 =? 2 ^ w - 1) with false by lia. rewrite andb_false_r. reflexivity. }
  cbv zeta. destruct (w =? 8) eqn:H8; cbn [negb andb].
  - apply ubres_safe with (Q := fun _ _ => True). go.
  - unfold get_gpr. rewrite !st_getA. 
    assert (G2 : getf 64 w (gprs a) = reg w 2 a) by (rewrite reg_getf by (auto; lia); destruct Hw as [->|[->| ->]]; [discriminate|reflexivity|reflexivity]).
    assert (G0 : getf 0 w (gprs a) = reg w 0 a) by (rewrite reg_getf by (auto; lia); destruct Hw as [->|[->| ->]]; [discriminate|reflexivity|reflexivity]).
    rewrite G2, G0. pose proof (reg_range w 2 a Hw ltac:(lia)) as R2. pose proof (reg_range w 0 a Hw ltac:(lia)) as R0. unfold inrange in *.
    assert (Hw1 : 1 <= w) by (destruct Hw as [->|[->| ->]]; lia).
    assert (H2w : 2 ^ (2 * w) = 2 ^ w * 2 ^ w) by (rewrite <- Z.pow_add_r by lia; f_equal; lia).
    set (N2 := reg w 2 a * 2 ^ w + reg w 0 a) in *.
    assert (HN : 0 <= N2 < 2 ^ (2 * w)) by (unfold N2; rewrite H2w; nia).
    pose proof (sgn_min (2 * w) N2 ltac:(lia) HN) as K1. pose proof (sgn_m1 w v Hw1 Hv) as K2.
    replace (sgn (2 * w) N2 =? - 2 ^ (2 * w - 1)) with (N2 =? 2 ^ (2 * w - 1)) by lia.
    replace (sgn w v =? -1) with (v =? 2 ^ w - 1) by lia.
    destruct ((N2 =? 2 ^ (2 * w - 1)) && (v =? 2 ^ w - 1)); [reflexivity|].
    apply ubres_safe with (Q := fun _ _ => True). go.
Qed.
Lemma safe_misc k w q S : width w -> J S -> okptr q -> k <> 7 -> safe (misc_select E k w q) (fun _ _ => True) S.
Proof.
  intros Hw HJ Hq H7. unfold misc_select.
  assert (D : k = 0 \/ k = 1 \/ k = 2 \/ k = 3 \/ k = 4 \/ k = 5 \/ k = 6 \/ ~ (0 <= k <= 7)) by lia.
  destruct D as [->|[->|[->|[->|[->|[->|[->|D]]]]]]].
  - go. apply (safe_alu_vals E base); assumption.
  - exact I.
  - go.
  - apply (safe_alu1 E base); assumption.
  - apply safe_mul; assumption.
  - apply safe_imul; assumption.
  - apply safe_div; assumption.
  - assert (X : forall (x : M unit), match k with 0 => x | _ => err E_UNDEF end = err E_UNDEF) by (intros x; destruct k; [lia|reflexivity|reflexivity]).
    destruct k as [|k|k]; [lia| |exact I]. do 3 (destruct k as [k|k|]; try lia; try exact I).
Qed.

Lemma J_of a d g n l : flat E base a -> wf_regs a -> J (mkSt a d g n l).
Proof.
  intros F W. split; [exact F|]. intros c Hc. destruct W as [].
  assert (c = 0 \/ c = 1 \/ c = 2 \/ c = 3 \/ c = 4 \/ c = 5) as K by lia. repeat destruct K as [->|K]; try subst c; assumption.
Qed.
Lemma value_range w o a x : flat E base a -> width w -> match o with InReg n => 0 <= n < 8 | InMem x => 0 <= x /\ x + 4 <= map_size end -> x = value w o a -> inrange w x.
Proof.
  intros F Hw Ho ->. destruct o as [n|y]; cbn [value].
  - apply reg_range; auto.
  - unfold map_size in Ho. apply (mem_range E base); auto; [lia|]. destruct Hw as [->|[->| ->]]; cbn; lia.
Qed.

(** The operand is a register or inside the map. *)
Section InMap.
Context (s : st) (pre : list Z) (p : pfx) (bs t : list Z) (wide : bool) (rg : Z) (o : operand) (rest : list Z).
Context (Hf : fetched E base s pre p bs) (Hm : has_modrm bs = Some (wide, t)) (Hr : real_rm p (ar s) t = Some (rg, o, rest)) (Hg : good wide o).
Context (Hi : invalid_form bs = false) (Hu : unsupported_form p bs = false) (Hiw : imul_wide p bs = false) (Hn : no_pointer bs = false) (Hs : sreg_exists bs).
Context (Hlen : 4 <= blen rest).

Lemma rest_cons : exists b0 b1 u, rest = b0 :: b1 :: u.
Proof. destruct rest as [|b0 [|b1 u]]; [unfold blen in Hlen; cbn in Hlen; lia|unfold blen in Hlen; cbn in Hlen; lia|eauto]. Qed.

Definition goal_of : Prop := exists op k m, dispatch bs = Some (op, k, m) /\
  ubres (exec1 E op k (mkSt (ar s) (dec_of p (blen pre + m)) (dbg s) (icount s + 1) (lastnull s))) = operation_ub p (ar s) bs rg o rest.

Ltac sfin := apply ubres_safe with (Q := fun _ _ => True); cbn [fst snd];
  first [ solve [apply (safe_alu2 E base); solve [jj|exact I|auto with width]]
        | solve [apply (safe_alu2i E base); solve [jj|exact I|auto with width]]
        | solve [apply (safe_alu1 E base); solve [jj|exact I|auto with width]]
        | solve [apply (safe_copy E base); solve [jj|exact I|auto with width]]
        | solve [apply (safe_xchg E base); solve [jj|exact I|auto with width]]
        | solve [go]
        | solve [go; first [apply (safe_alu2i E base) | apply (safe_alu_vals E base)]; solve [jj|exact I|auto with width]] ].

Lemma op2_narrow op2 t2 : 0 <= op2 < 256 -> has_modrm (15 :: op2 :: t2) = Some (false, t) -> no_pointer (15 :: op2 :: t2) = false ->
  (op2 = 182 \/ op2 = 164 \/ op2 = 165 \/ op2 = 172 \/ op2 = 173) /\ t2 = t.
Proof.
  intros _ Hm' Hn'. cbn [has_modrm] in Hm'. cbn [no_pointer] in Hn'.
  destruct ((op2 =? 182) || _ || _ || _ || _ || _ || _ || _) eqn:K in Hm'; [injection Hm' as ->; split; [lia|reflexivity]|]. destruct (_ || _) in Hm'; discriminate Hm'.
Qed.
Lemma op2_wide op2 t2 : has_modrm (15 :: op2 :: t2) = Some (true, t) -> unsupported_form p (15 :: op2 :: t2) = false ->
  (op2 = 175 \/ op2 = 183 \/ op2 = 188) /\ t2 = t.
Proof.
  intros Hm' Hu'. cbn [has_modrm] in Hm'. cbn [unsupported_form] in Hu'. revert Hm'. destruct (_ || _); [discriminate|]. destruct (_ || _) eqn:K; [|discriminate]. intros [= ->].
  split; [|reflexivity]. lia.
Qed.
Lemma osz_w : width (osz p). Proof. unfold osz. destruct (p_os p); auto with width. Qed.

Lemma narrow_in : wide = false -> goal_of.
Proof.
  intros Hw. unfold goal_of. pose proof Hf as (R & Hp & C). destruct R as [F W PC Hc].
  apply prefixes_ok in Hp. apply code_from_0 in C. apply code_from_app in C. rewrite Z.add_0_l in C.
  pose proof (code_bytes E base _ _ _ _ Hf) as Hb. destruct rest_cons as (r0 & r1 & ru & Hrc).
  assert (HJ : forall d g n l, J (mkSt (ar s) d g n l)) by (intros; apply J_of; assumption).
  assert (Hd : forall off, code_from (ar s) off t -> exists mm q S1, get_modrm E (mkSt (ar s) (dec_of p off) (dbg s) (icount s + 1) (lastnull s)) = Ok mm S1 /\ m_rrr mm = rg /\ 0 <= rg < 8 /\ okptr q /\
    decode_modm E mm S1 = Ok q (mkSt (ar s) (dec_of p (off + (blen t - blen rest))) (dbg s) (icount s + 1) (lastnull s))).
  { intros off C2. destruct (decode_any E base (ar s) p off (dbg s) (icount s + 1) (lastnull s) t rg o rest wide F W Hp C2 Hr Hg) as (mm & q & S1 & K1 & K2 & K3 & K4 & K5 & _).
    rewrite Hw in K5. exists mm, q, S1. auto. }
  assert (Hpa : forall off, code_from (ar s) off t -> exists q, okptr q /\ 0 <= rg < 8 /\
    (forall Y (f : ptr * ptr -> M Y), bind (parse_modrm E) f (mkSt (ar s) (dec_of p off) (dbg s) (icount s + 1) (lastnull s)) = f (regB rg, q) (mkSt (ar s) (dec_of p (off + (blen t - blen rest))) (dbg s) (icount s + 1) (lastnull s))) /\
    (forall d' g' n' l', load 8 q (mkSt (ar s) d' g' n' l') = Ok (value 8 o (ar s)) (mkSt (ar s) d' g' n' l')) /\
    (forall Y (f : Z -> M Y), bind (fetch8 E) f (mkSt (ar s) (dec_of p (off + (blen t - blen rest))) (dbg s) (icount s + 1) (lastnull s)) = f r0 (mkSt (ar s) (dec_of p (off + (blen t - blen rest) + 1)) (dbg s) (icount s + 1) (lastnull s)))).
  { intros off C2. destruct (parse_any E base (ar s) p off (dbg s) (icount s + 1) (lastnull s) t rg o rest wide F W Hp C2 Hr Hg) as (q & K1 & K2 & K3 & K4).
    rewrite Hw in K3. exists q. split; [exact K1|]. split; [exact K2|]. split; [exact K3|]. split.
    - intros. apply K4; [auto with width|]. rewrite Hw. split; [discriminate|intros H; exfalso; apply H; reflexivity].
    - intros Y f. pose proof (rest_code (ar s) p off t rg o rest C2 Hr) as C3. rewrite Hrc in C3 at 2. eapply (st_fetch8 E base); eauto. }
  pose proof osz_w as Hosz. assert (Hosz2 : osz p = 16 \/ osz p = 32) by (unfold osz; destruct (p_os p); auto).
  assert (Hr0 : 0 <= r0 < 256).
  { destruct bs as [|x y]; [discriminate|]. destruct (real_rm_split _ _ _ _ _ _ Hr) as (u & Hu' & _). apply Hb.
    assert (In r0 t) by (rewrite Hu'; apply in_or_app; right; rewrite Hrc; left; reflexivity).
    assert (Hsub : exists v, x :: y = v ++ t).
    { destruct (Z.eq_dec x 15) as [Hx|Hx].
      - subst x. destruct y as [|op2 t2]; [discriminate|]. rewrite Hw in Hm. destruct (op2_narrow op2 t2 (Hb op2 (or_intror (or_introl eq_refl))) Hm Hn) as [_ ->]. exists [15; op2]. reflexivity.
      - rewrite Hw in Hm. destruct (narrow_ops x y t (Hb x (or_introl eq_refl)) Hx Hm) as [-> _]. exists [x]. reflexivity. }
    destruct Hsub as (v & ->). apply in_or_app. right. assumption. }
  pose proof (reg_range 8 1 (ar s) ltac:(auto with width) ltac:(lia)) as Rc. change (2 ^ 8) with 256 in Rc. unfold inrange in Rc.
  rewrite Hw in Hm. destruct bs as [|op q0]; [discriminate|]. destruct (Z.eq_dec op 15) as [->|H15].
  - destruct q0 as [|op2 t2]; [discriminate|]. destruct (op2_narrow op2 t2 (Hb op2 (or_intror (or_introl eq_refl))) Hm Hn) as [K Ht]. subst t2.
    assert (C2 : code_from (ar s) (blen pre + 2) t).
    { apply code_from_cons in C. destruct C as [_ C]. apply code_from_cons in C. destruct C as [_ C]. replace (blen pre + 2) with (blen pre + 1 + 1) by lia. exact C. }
    destruct (Hd _ C2) as (mm & q & S1 & D1 & D2 & D3 & D4 & D5). destruct (Hpa _ C2) as (q' & P0 & _ & P1 & P2 & P3). clear Hd Hpa.
    destruct K as [->|[->|[->|[->| ->]]]]; do 3 eexists; (split; [reflexivity|]); cbn [e_op e_arg exec1]; rewrite ?Hrc;
      cbn [operation_ub Z.eqb Pos.eqb orb andb imm8].
    + unfold x_mov_z. erewrite bind_ok by exact D1. erewrite bind_ok by exact D5. rewrite D2. sfin.
    + unfold x_dbl_i8. rewrite P1, P3, st_opw. cbn [dec_of d_op]. fold (osz p). apply (dbl_ub E base); [assumption|apply HJ|assumption|exact I|lia].
    + unfold x_dbl_cl. rewrite P1, st_getL by (unfold R_CX; lia). rewrite st_opw. cbn [dec_of d_op]. fold (osz p). apply (dbl_ub E base); [assumption|apply HJ|assumption|exact I|lia].
    + unfold x_dbl_i8. rewrite P1, P3, st_opw. cbn [dec_of d_op]. fold (osz p). apply (dbl_ub E base); [assumption|apply HJ|assumption|exact I|lia].
    + unfold x_dbl_cl. rewrite P1, st_getL by (unfold R_CX; lia). rewrite st_opw. cbn [dec_of d_op]. fold (osz p). apply (dbl_ub E base); [assumption|apply HJ|assumption|exact I|lia].
  - destruct (narrow_ops op q0 t (Hb op (or_introl eq_refl)) H15 Hm) as [Ht K]. subst q0.
    assert (C2 : code_from (ar s) (blen pre + 1) t) by (apply code_from_cons in C; apply C).
    destruct (Hpa _ C2) as (q & P0 & Prg & P1 & P2 & P3). clear Hd Hpa Hm C.
    destruct t as [|mb tl]; [discriminate|].
    assert (Erg : (mb / 8) mod 8 = rg).
    { cbn [real_rm real_address] in Hr. destruct (mb / 64 =? 3); [injection Hr as <- _ _; reflexivity|]. destruct (real_offset _ _ _ _ _) as [[? ?]|]; [injection Hr as <- _ _; reflexivity|discriminate]. }
    unfold narrow1 in K. cbn [In] in K.
    repeat (destruct K as [<-|K]; [ |]); try contradiction.
    all: try discriminate Hn.
    all: do 3 eexists; (split; [reflexivity|]); cbn [e_op e_arg exec1 x_alu]; rewrite ?Erg.
    all: cbn [no_pointer invalid_form reg_field mod_field mem_z existsb orb andb Z.eqb Pos.eqb] in Hi, Hn; rewrite ?Erg in Hi, Hn.
    all: rewrite ?Hrc; cbn [operation_ub Z.eqb Pos.eqb orb andb imm8 Z.odd Z.leb Z.compare Pos.compare Pos.compare_cont].
    all: first
     [ rewrite P1; sfin
     | unfold x_arith_mi, x_mov_mi; rewrite P1; sfin
     | unfold x_mov_mr, x_mov_rm, x_xchg_rm; rewrite P1; sfin
     | idtac ].
    + unfold x_shift_mi. rewrite P1, P3. apply (shift_ub E base); auto with width.
    + unfold x_shift_m1. rewrite P1. apply (shift_ub E base); auto with width.
    + unfold x_shift_mcl. rewrite st_getL by (unfold R_CX; lia). rewrite P1. apply (shift_ub E base); auto with width.
    + unfold x_misc_mi. rewrite P1. destruct (Z.eq_dec rg 7) as [E7|E7].
      * rewrite E7. cbn [snd misc_select]. rewrite (idiv_ub 8 q (value 8 o (ar s))); [reflexivity|auto with width|auto|assumption| |apply P2].
        pose proof (P2 (dec_of p 0) 0 0 false). eapply value_range with (o := o); [exact F|auto with width| |reflexivity].
        clear - Hr Hg. cbn [real_rm real_address] in Hr. destruct (mb / 64 =? 3); [injection Hr as _ <- _; lia|]. destruct (real_offset _ _ _ _ _) as [[? ?]|]; [|discriminate]. injection Hr as _ <- _. cbn [good] in Hg.
        split; [unfold low; change (2 ^ 32) with 4294967296; lia|lia].
      * apply ubres_safe with (Q := fun _ _ => True). apply safe_misc; auto with width.
    + unfold x_unary_m. assert (rg = 0 \/ rg = 1) as [E0|E0] by lia; rewrite E0; rewrite P1; sfin.
Qed.

Lemma wide_in : wide = true -> goal_of.
Proof.
  intros Hw. unfold goal_of. pose proof Hf as (R & Hp & C). destruct R as [F W PC Hc].
  apply prefixes_ok in Hp. apply code_from_0 in C. apply code_from_app in C. rewrite Z.add_0_l in C.
  pose proof (code_bytes E base _ _ _ _ Hf) as Hb. destruct rest_cons as (r0 & r1 & ru & Hrc).
  assert (HJ : forall d g n l, J (mkSt (ar s) d g n l)) by (intros; apply J_of; assumption).
  assert (Hd : forall off, code_from (ar s) off t -> exists mm q S1, get_modrm E (mkSt (ar s) (dec_of p off) (dbg s) (icount s + 1) (lastnull s)) = Ok mm S1 /\ m_rrr mm = rg /\ 0 <= rg < 8 /\ okptr q /\
    decode_modmx E mm S1 = Ok q (mkSt (ar s) (dec_of p (off + (blen t - blen rest))) (dbg s) (icount s + 1) (lastnull s))).
  { intros off C2. destruct (decode_any E base (ar s) p off (dbg s) (icount s + 1) (lastnull s) t rg o rest wide F W Hp C2 Hr Hg) as (mm & q & S1 & K1 & K2 & K3 & K4 & K5 & _).
    rewrite Hw in K5. exists mm, q, S1. auto. }
  assert (Hpa : forall off, code_from (ar s) off t -> exists q, okptr q /\ 0 <= rg < 8 /\
    (forall Y (f : ptr * ptr -> M Y), bind (parse_modrmx E) f (mkSt (ar s) (dec_of p off) (dbg s) (icount s + 1) (lastnull s)) = f (regW rg, q) (mkSt (ar s) (dec_of p (off + (blen t - blen rest))) (dbg s) (icount s + 1) (lastnull s))) /\
    (forall w d' g' n' l', w = 16 \/ w = 32 -> load w q (mkSt (ar s) d' g' n' l') = Ok (value w o (ar s)) (mkSt (ar s) d' g' n' l')) /\
    (forall Y (f : Z -> M Y), bind (fetch8 E) f (mkSt (ar s) (dec_of p (off + (blen t - blen rest))) (dbg s) (icount s + 1) (lastnull s)) = f r0 (mkSt (ar s) (dec_of p (off + (blen t - blen rest) + 1)) (dbg s) (icount s + 1) (lastnull s))) /\
    (forall Y (f : Z -> M Y), bind (fetch8s E) f (mkSt (ar s) (dec_of p (off + (blen t - blen rest))) (dbg s) (icount s + 1) (lastnull s)) = f (signed 8 r0) (mkSt (ar s) (dec_of p (off + (blen t - blen rest) + 1)) (dbg s) (icount s + 1) (lastnull s))) /\
    (forall Y (f : Z -> M Y), bind (fetch16 E) f (mkSt (ar s) (dec_of p (off + (blen t - blen rest))) (dbg s) (icount s + 1) (lastnull s)) = f (r0 + 256 * r1) (mkSt (ar s) (dec_of p (off + (blen t - blen rest) + 2)) (dbg s) (icount s + 1) (lastnull s)))).
  { intros off C2. destruct (parse_any E base (ar s) p off (dbg s) (icount s + 1) (lastnull s) t rg o rest wide F W Hp C2 Hr Hg) as (q & K1 & K2 & K3 & K4).
    rewrite Hw in K3. exists q. split; [exact K1|]. split; [exact K2|]. split; [exact K3|].
    pose proof (rest_code (ar s) p off t rg o rest C2 Hr) as C3. rewrite Hrc in C3 at 2.
    split; [|split; [|split]].
    - intros w d' g' n' l' H. apply K4; [destruct H as [-> | ->]; auto with width|]. rewrite Hw. split; [intros _; lia|reflexivity].
    - intros Y f. eapply (st_fetch8 E base); eauto.
    - intros Y f. eapply (st_fetch8s E base); eauto.
    - intros Y f. eapply (st_fetch16c E base); eauto. }
  pose proof osz_w as Hosz. assert (Hosz2 : osz p = 16 \/ osz p = 32) by (unfold osz; destruct (p_os p); auto).
  assert (Hov : match o with InReg n => 0 <= n < 8 | InMem x => 0 <= x /\ x + 4 <= map_size end).
  { clear - Hr Hg. destruct t as [|mb tl]; [discriminate|]. cbn [real_rm real_address] in Hr. destruct (mb / 64 =? 3); [injection Hr as _ <- _; lia|]. destruct (real_offset _ _ _ _ _) as [[? ?]|]; [|discriminate]. injection Hr as _ <- _. cbn [good] in Hg.
    split; [unfold low; change (2 ^ 32) with 4294967296; lia|lia]. }
  rewrite Hw in Hm. destruct bs as [|op q0]; [discriminate|]. destruct (Z.eq_dec op 15) as [->|H15].
  - destruct q0 as [|op2 t2]; [discriminate|]. destruct (op2_wide op2 t2 Hm Hu) as [K Ht]. subst t2.
    assert (C2 : code_from (ar s) (blen pre + 2) t).
    { apply code_from_cons in C. destruct C as [_ C]. apply code_from_cons in C. destruct C as [_ C]. replace (blen pre + 2) with (blen pre + 1 + 1) by lia. exact C. }
    destruct (Hd _ C2) as (mm & q & S1 & D1 & D2 & D3 & D4 & D5). destruct (Hpa _ C2) as (q' & P0 & _ & P1 & P2 & P3). clear Hd Hpa.
    assert (Hos : op2 = 175 -> p_os p = false).
    { intros ->. cbn [imul_wide] in Hiw. destruct (p_os p); [discriminate|reflexivity]. }
    destruct K as [->|[->| ->]]; do 3 eexists; (split; [reflexivity|]); cbn [e_op e_arg exec1];
      cbn [operation_ub Z.eqb Pos.eqb orb andb].
    + unfold x_imul_rmx. rewrite st_getD. cbn [dec_of d_op]. rewrite (Hos eq_refl), P1. cbn [fst snd].
      erewrite bind_ok by (apply P2; auto). pose proof (load_r base 16 rg (ar s)) as L. erewrite bind_ok by (apply L; [auto with width|lia]).
      apply (imul2_ub E base); [apply HJ|exact I].
    + unfold x_mov_zx. erewrite bind_ok by exact D1. erewrite bind_ok by exact D5. rewrite D2. sfin.
    + unfold x_bsf. rewrite P1. apply ubres_safe with (Q := fun _ _ => True). cbn [fst snd]. unfold upd_flags. go.
  - destruct (wide_ops op q0 t (Hb op (or_introl eq_refl)) H15 Hm) as [Ht K]. subst q0.
    assert (C2 : code_from (ar s) (blen pre + 1) t) by (apply code_from_cons in C; apply C).
    destruct (Hpa _ C2) as (q & P0 & Prg & P1 & P2 & P3 & P3s & P3w). clear Hd Hpa Hm C.
    destruct t as [|mb tl]; [discriminate|].
    assert (Erg : (mb / 8) mod 8 = rg).
    { cbn [real_rm real_address] in Hr. destruct (mb / 64 =? 3); [injection Hr as <- _ _; reflexivity|]. destruct (real_offset _ _ _ _ _) as [[? ?]|]; [injection Hr as <- _ _; reflexivity|discriminate]. }
    assert (P4 : forall X (f : Z -> M X), bind (peek8 E) f (mkSt (ar s) (dec_of p (blen pre + 1)) (dbg s) (icount s + 1) (lastnull s)) =
      f mb (mkSt (ar s) (dec_of p (blen pre + 1)) (dbg s) (icount s + 1) (lastnull s))).
    { intros X f. unfold peek8. rewrite st_bind. erewrite bind_ok by (eapply fetch8_code; eauto). rewrite st_bind, st_upd_dc, st_ret.
      f_equal. unfold dec_of, dd_ipoff. cbn. do 2 f_equal. lia. }
    unfold wide1 in K. cbn [In] in K.
    repeat (destruct K as [<-|K]; [ |]); try contradiction.
    all: do 3 eexists; (split; [reflexivity|]); cbn [e_op e_arg exec1 x_alu]; rewrite ?Erg.
    all: cbn [no_pointer invalid_form unsupported_form imul_wide sreg_exists reg_field mod_field mem_z existsb orb andb Z.eqb Pos.eqb] in Hi, Hu, Hiw, Hs, Hn; rewrite ?Erg in Hi, Hu, Hs, Hn.
    all: rewrite ?Hrc; cbn [operation_ub Z.eqb Pos.eqb orb andb imm8 imm16 Z.odd Z.leb Z.compare Pos.compare Pos.compare_cont].
    all: first
     [ rewrite P1; sfin
     | unfold x_arith_mix, x_arith_mi8x, x_mov_mix, x_mov_mrx, x_mov_rmx; rewrite P1; sfin
     | unfold x_xchg_rmx; rewrite st_opw, P1; cbn [dec_of d_op]; fold (osz p); sfin
     | idtac ].
    + unfold x_imul_mix. rewrite st_getD. cbn [dec_of d_op]. destruct (p_os p); [discriminate|]. rewrite P1, P3w. cbn [fst snd].
      erewrite bind_ok by (apply P2; auto). apply (imul2_ub E base); [apply HJ|exact I].
    + unfold x_imul_mi8x. rewrite st_getD. cbn [dec_of d_op]. destruct (p_os p); [discriminate|]. rewrite P1, P3s. cbn [fst snd].
      erewrite bind_ok by (apply P2; auto). apply (imul2_ub E base); [apply HJ|exact I].
    + unfold x_mov_rs. rewrite st_getD. cbn [dec_of d_op]. destruct (p_os p); [discriminate|]. rewrite P4, P1, Erg. cbn [fst snd].
      destruct (Z.leb_spec 6 rg) as [L|L].
      * unfold bind, getseg. assert (Hsr : sreg_of rg (ar s) = None). { assert (rg = 6 \/ rg = 7) as [-> | ->] by lia; reflexivity. } cbn [ar]. rewrite Hsr. reflexivity.
      * rewrite st_getseg by lia. sfin.
    + unfold x_mov_sr. rewrite st_getD. cbn [dec_of d_op]. destruct (p_os p); [discriminate|]. rewrite P4, Erg. specialize (Hs eq_refl). rewrite st_chkseg by lia. rewrite P1. cbn [fst snd].
      erewrite bind_ok by (apply P2; auto). apply ubres_safe with (Q := fun _ _ => True). apply safe_setseg; [lia|]. intros. exact I.
    + unfold x_pop_mx. rewrite st_getD. cbn [dec_of d_op]. destruct (p_os p); [discriminate|]. rewrite P1. cbn [fst snd].
      apply ubres_safe with (Q := fun _ _ => True). apply safe_bind. apply (safe_pop E base); [apply HJ|]. intros. go.
    + unfold x_shift_mi8x. rewrite P1, P3, st_opw. cbn [dec_of d_op]. fold (osz p). apply (shift_ub E base); [lia|assumption|apply HJ|assumption].
    + unfold x_shift_m1x. rewrite P1, st_opw. cbn [dec_of d_op]. fold (osz p). apply (shift_ub E base); [lia|assumption|apply HJ|assumption].
    + unfold x_shift_mclx. rewrite st_getL by (unfold R_CX; lia). rewrite P1, st_opw. cbn [dec_of d_op]. fold (osz p). apply (shift_ub E base); [lia|assumption|apply HJ|assumption].
    + unfold x_misc_mix. rewrite P1, st_opw. cbn [dec_of d_op]. fold (osz p). destruct (Z.eqb_spec rg 7) as [E7|E7]; cbn [andb].
      * rewrite E7. cbn [snd misc_select]. rewrite (idiv_ub (osz p) q (value (osz p) o (ar s))).
        { replace (osz p =? 8) with false by lia. reflexivity. }
        { assumption. } { apply HJ. } { assumption. }
        { eapply value_range with (o := o); [exact F|assumption|exact Hov|reflexivity]. }
        { apply P2, Hosz2. }
      * apply ubres_safe with (Q := fun _ _ => True). apply safe_misc; [assumption|apply HJ|assumption|assumption].
    + unfold x_unary_mx. rewrite st_getD. cbn [dec_of d_op].
      assert (K' : rg = 0 \/ rg = 1 \/ rg = 6 \/ (p_os p = false /\ (rg = 2 \/ rg = 4))).
      { destruct (p_os p); cbn [andb orb] in *; lia. }
      assert (PU : forall w, width w -> ubres (bind (parse_modrmx E) (fun rm => push E (load w (snd rm))) (mkSt (ar s) (dec_of p (blen pre + 1)) (dbg s) (icount s + 1) (lastnull s))) = None).
      { intros w Hww. rewrite P1. cbn [snd]. apply ubres_safe with (Q := fun _ _ => True). apply (safe_push E base); [apply HJ| |intros; exact I].
        intros s' R' J' H'. apply (safe_load E base); [assumption|exact J'|assumption|exact H']. }
      destruct K' as [E0|[E0|[E0|[Ho [E0|E0]]]]]; rewrite E0; try rewrite Ho; try (destruct (p_os p); first [rewrite P1; sfin | apply PU; auto with width]).
      * rewrite P1. cbn [snd]. apply ubres_safe with (Q := fun _ _ => True). apply safe_bind. apply (safe_push E base); [apply HJ| |].
        { intros s' R' J' H'. unfold next_ip. go. apply H'. }
        { intros s' J'. unfold dont_change_ip. go. exact I. }
      * rewrite P1. cbn [snd]. apply ubres_safe with (Q := fun _ _ => True). unfold dont_change_ip. go. exact I.
Qed.
End InMap.
End WithEnv.
