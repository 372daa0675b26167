(** End-to-end theorems: INC, DEC, NOT, NEG and the shift group. *)
From Verif Require Import Base Cpu Alu Ops Machine Spec SpecOps PBase PMem PRun PFrame PAlu PExec PIAlu PIAlu2 PShift PStep.

Section WithEnv.
Context (E : env) (base : Z).

(** *dest = f( *dest ) with flags. *)
Definition rmw_m (w : Z) (r : rm) (vf : Z * Z) (a : arch) : arch :=
  wr_m base w r (fst vf) (a_flags (snd vf) a).
Lemma alu1_ok g w r vf a d gg n l : flat E base a -> width w -> rm_ok r ->
  g w (rd_rm w r a) (r_flags a) = vf ->
  alu1 g w (ptr_of base w r) (mkSt a d gg n l) = Ok tt (mkSt (rmw_m w r vf a) d gg n l).
Proof.
  intros F Hw Hr Hg. unfold alu1. xs E base. xs E base. rewrite Hg. destruct vf as [v f].
  xrun E base.
Qed.
Lemma rmw_flat w r vf a : flat E base a -> flat E base (rmw_m w r vf a).
Proof. intros. unfold rmw_m. auto with flat. Qed.
Lemma rmw_ip w r vf a : r_ip (rmw_m w r vf a) = r_ip a.
Proof. unfold rmw_m. rewrite wr_m_ip. reflexivity. Qed.
Lemma rmw_same w r v f a : flat E base a -> width w -> rm_ok r -> inrange w v ->
  same (rmw_m w r (v, f) a) (wr_rm w r v (a_flags f a)).
Proof. intros. unfold rmw_m. eapply same_wr_m; eauto with flat. apply same_refl. Qed.

(** The operand of INC/DEC/NOT/NEG in the emulator's handlers. *)
Definition uop_model (o : uop) : Z -> Z -> Z -> Z * Z :=
  match o with
  | U_INC => alu_inc | U_DEC => alu_dec | U_NEG => alu_neg
  | U_NOT => fun w d f => (Z.lnot d, f)
  end.
Lemma uop_model_ok o w d f : width w -> inrange w d ->
  low w (fst (uop_model o w d f)) = fst (spec_unary o w d f) /\
  snd (uop_model o w d f) = snd (spec_unary o w d f).
Proof.
  intros Hw Hd. destruct o; cbn [uop_model spec_unary].
  - rewrite alu_inc_ok by auto. split; [|reflexivity]. unfold spec_inc. cbn [fst]. apply low_low, wpos; auto.
  - rewrite alu_dec_ok by auto. split; [|reflexivity]. unfold spec_dec. cbn [fst]. apply low_low, wpos; auto.
  - cbn [fst snd]. split; [|reflexivity]. apply lnot_ok; auto.
  - rewrite alu_neg_ok by auto. split; [|reflexivity]. unfold emu_neg. cbn [fst]. apply low_low, wpos; auto.
Qed.
Lemma unary_same o w r a : flat E base a -> width w -> rm_ok r ->
  same (rmw_m w r (uop_model o w (rd_rm w r a) (r_flags a)) a) (unary_effect o w r a).
Proof.
  intros F Hw Hr. destruct (uop_model_ok o w (rd_rm w r a) (r_flags a) Hw) as [H1 H2]; auto.
  { eapply rd_rm_range'; eauto. }
  unfold unary_effect, rmw_m. destruct (uop_model o w (rd_rm w r a) (r_flags a)) as [v f].
  destruct (spec_unary o w (rd_rm w r a) (r_flags a)) as [v' f']. cbn [fst snd] in *. subst.
  eapply wr_m_gen; eauto with flat. apply same_refl.
Qed.

Lemma unary_instr s pre p bs o w r :
  fetched E base s pre p bs ->
  decode_unary p (ar s) bs = Some (o, w, r) ->
  operand_ok p (ar s) bs ->
  executes E s (pre ++ bs) (unary_effect o w r (ar s)).
Proof.
  intros Hf Hdec Hop. destruct bs as [|op t]; [discriminate|].
  destruct (instr_ctx _ _ _ _ _ _ _ Hf) as (F & W & Hp & C & Hb).
  assert (fin : forall oo kk off', dispatch (op :: t) = Some (oo, kk, 1) -> width w -> rm_ok r ->
    (forall g n l, exec1 E oo kk (mkSt (ar s) (dec_of p (blen pre + 1)) g n l) =
     Ok tt (mkSt (rmw_m w r (uop_model o w (rd_rm w r (ar s)) (r_flags (ar s))) (ar s)) (dec_of p off') g n l)) ->
    off' = blen pre + blen (op :: t) ->
    executes E s (pre ++ op :: t) (unary_effect o w r (ar s))).
  { intros oo kk off' Hd Hw Hr Hx Ho. eapply fr_straight; eauto using rmw_flat, rmw_ip, unary_same. }
  cbn [decode_unary] in Hdec.
  destruct ((64 <=? op) && (op <=? 71)) eqn:H1; [|destruct ((72 <=? op) && (op <=? 79)) eqn:H2].
  - destruct t; [|discriminate]. injection Hdec as <- <- <-.
    assert (Hd : dispatch [op] = Some (OIncReg, op - 64, 1)).
    { regop 64 op (@nil Z). }
    eapply fin; [exact Hd|auto with width|cbn; lia| |reflexivity].
    intros. cbn [exec1]. unfold x_inc_reg. xs E base. fold (osz p).
    rewrite (regW_ptr base (osz p)) by auto with width.
    apply (alu1_ok alu_inc); auto with width. cbn; lia.
  - destruct t; [|discriminate]. injection Hdec as <- <- <-.
    assert (Hd : dispatch [op] = Some (ODecReg, op - 72, 1)).
    { regop 72 op (@nil Z). }
    eapply fin; [exact Hd|auto with width|cbn; lia| |reflexivity].
    intros. cbn [exec1]. unfold x_dec_reg. xs E base. fold (osz p).
    rewrite (regW_ptr base (osz p)) by auto with width.
    apply (alu1_ok alu_dec); auto with width. cbn; lia.
  - assert (H : op = 246 \/ op = 247 \/ op = 254 \/ op = 255).
    { destruct op as [|q|q]; try discriminate.
      do 8 (destruct q as [q|q|]; try discriminate; auto). }
    clear H1 H2. destruct t as [|mb t].
    { destruct H as [->|[->|[->| ->]]]; discriminate. }
    assert (Hm : has_modrm (op :: mb :: t) = Some (Z.odd op, mb :: t)).
    { destruct H as [->|[->|[->| ->]]]; reflexivity. }
    destruct (parse_rm p (ar s) (mb :: t)) as [[[rg r'] rest]|] eqn:Hr.
    2:{ destruct H as [->|[->|[->| ->]]]; cbv beta iota zeta in Hdec; discriminate. }
    destruct rest as [|? ?].
    2:{ destruct H as [->|[->|[->| ->]]]; cbv beta iota zeta in Hdec; discriminate. }
    destruct (modrm_ctx _ _ _ _ _ _ _ _ _ _ _ _ Hf Hop Hm Hr) as (Hrok & Hgok & Hg & Hs & Hnb & _ & Hrg).
    destruct H as [->|[->|[->| ->]]]; cbv beta iota zeta in Hdec;
      [destruct (Z.eqb_spec rg 2) as [Hk|]; [|destruct (Z.eqb_spec rg 3) as [Hk|]; [|discriminate]]..
      |destruct (Z.eqb_spec rg 0) as [Hk|]; [|destruct (Z.eqb_spec rg 1) as [Hk|]; [|discriminate]]
      |destruct (Z.eqb_spec rg 0) as [Hk|]; [|destruct (Z.eqb_spec rg 1) as [Hk|]; [|discriminate]]];
    injection Hdec as <- <- <-; rewrite Hk in *;
    (eapply fin; [cbn [dispatch]; rewrite Hrg; reflexivity|auto with width|exact Hrok| |];
     [intros; cbn [exec1 e_op e_arg]; unfold x_misc_mi, x_misc_mix, x_unary_m, x_unary_mx|]).
    + xs E base. cbn [misc_select]. unfold rmw_m. cbn [uop_model fst snd]. rewrite a_flags_self. xrun E base.
    + rewrite blen_nil, !blen_cons; lia.
    + xs E base. cbn [misc_select]. apply (alu1_ok alu_neg); auto with width.
    + rewrite blen_nil, !blen_cons; lia.
    + xs E base. xs E base. fold (osz p). cbn [misc_select]. unfold rmw_m. cbn [uop_model fst snd]. rewrite a_flags_self. xrun E base.
    + rewrite blen_nil, !blen_cons; lia.
    + xs E base. xs E base. fold (osz p). cbn [misc_select]. apply (alu1_ok alu_neg); auto with width.
    + rewrite blen_nil, !blen_cons; lia.
    + xs E base. apply (alu1_ok alu_inc); auto with width.
    + rewrite blen_nil, !blen_cons; lia.
    + xs E base. apply (alu1_ok alu_dec); auto with width.
    + rewrite blen_nil, !blen_cons; lia.
    + xs E base. instantiate (1 := blen pre + 1 + (blen (mb :: t) - blen [])).
      unfold osz. destruct (p_os p) eqn:Hos.
      * rewrite (st_parsex E base 32 _ _ _ _ _ _ _ _ _ _ _ F W Hp C Hr Hs (Hnb eq_refl)) by auto.
        apply (alu1_ok alu_inc); auto with width.
      * rewrite (st_parsex E base 16 _ _ _ _ _ _ _ _ _ _ _ F W Hp C Hr Hs (Hnb eq_refl)) by auto.
        apply (alu1_ok alu_inc); auto with width.
    + rewrite blen_nil, !blen_cons; lia.
    + xs E base. instantiate (1 := blen pre + 1 + (blen (mb :: t) - blen [])).
      unfold osz. destruct (p_os p) eqn:Hos.
      * rewrite (st_parsex E base 32 _ _ _ _ _ _ _ _ _ _ _ F W Hp C Hr Hs (Hnb eq_refl)) by auto.
        apply (alu1_ok alu_dec); auto with width.
      * rewrite (st_parsex E base 16 _ _ _ _ _ _ _ _ _ _ _ F W Hp C Hr Hs (Hnb eq_refl)) by auto.
        apply (alu1_ok alu_dec); auto with width.
    + rewrite blen_nil, !blen_cons; lia.
Qed.

(** ** Shifts and rotates *)
Lemma spec_shift_range op w cnt d f o : width w -> 0 <= op < 8 -> inrange w d ->
  inrange w (fst (spec_shift op w cnt d f o)).
Proof.
  intros Hw Ho Hd. unfold spec_shift. destruct (cnt mod 32 =? 0); [exact Hd|].
  pose proof (shiftn_range op w (Z.to_nat (cnt mod 32)) (d, flag CF f) Hw Hd) as H.
  unfold shift_n. destruct (Nat.iter _ _ _) as [v c]. exact H.
Qed.
Lemma do_shift_ok op w r cnt a : flat E base a -> width w -> rm_ok r -> 0 <= op < 8 ->
  shift_count_ok op w cnt ->
  exists o a', shift_of_ok op w cnt (rd_rm w r a) (r_flags a) o /\ flat E base a' /\ r_ip a' = r_ip a /\ same a' (shift_effect op w r cnt o a) /\ forall d g n l, do_shift op w (ptr_of base w r) cnt (mkSt a d g n l) = Ok tt (mkSt a' d g n l).
Proof.
  intros F Hw Hr Ho Hc. pose proof (rd_rm_range' E base a w r F Hw Hr) as Hd.
  destruct (shift_pure op w cnt (rd_rm w r a) (r_flags a) Hw Hd Ho Hc) as (o & Hof & H0 & H1).
  cbv zeta in *. exists o. unfold shift_effect.
  pose proof (spec_shift_range op w cnt (rd_rm w r a) (r_flags a) o Hw Ho Hd) as Hv.
  destruct (spec_shift op w cnt (rd_rm w r a) (r_flags a) o) as [v f] eqn:Hsp. cbn [fst] in Hv.
  destruct (Z.eqb_spec (cnt mod 32) 0) as [Hz|Hz].
  - exists a. do 4 (split; [auto using same_refl|]). intros. unfold do_shift.
    rewrite H0 by auto. reflexivity.
  - specialize (H1 Hz). destruct (Z.eqb_spec (sh_amount op w cnt) 0) as [Ha|Ha].
    + exists a. injection H1 as -> ->. do 3 (split; [auto|]). split.
      * apply same_sym. rewrite a_flags_self. eapply wr_rm_id; eauto.
      * intros. unfold do_shift. rewrite Ha. reflexivity.
    + exists (rmw_m w r (v, f) a). do 4 (split; [auto using rmw_flat, rmw_ip, rmw_same|]).
      intros. unfold do_shift. replace (sh_amount op w cnt =? 0) with false by lia.
      xs E base. xs E base. rewrite H1. xrun E base.
Qed.
Lemma shift_frame s pre p bs op w r cnt :
  fetched E base s pre p bs ->
  decode_shift p (ar s) bs = Some (op, w, r, cnt) -> operand_ok p (ar s) bs ->
  width w /\ rm_ok r /\ 0 <= op < 8 /\
  exists oo, dispatch bs = Some (oo, op, 1) /\
    forall g n l, exec1 E oo op (mkSt (ar s) (dec_of p (blen pre + 1)) g n l) =
       do_shift op w (ptr_of base w r) cnt (mkSt (ar s) (dec_of p (blen pre + blen bs)) g n l).
Proof.
  intros Hf Hdec Hop. destruct bs as [|b t]; [discriminate|].
  destruct (instr_ctx _ _ _ _ _ _ _ Hf) as (F & W & Hp & C & Hb).
  destruct t as [|mb t].
  { destruct b as [|q|q]; try discriminate.
    do 8 (destruct q as [q|q|]; try discriminate). }
  assert (H : b = 192 \/ b = 193 \/ b = 208 \/ b = 209 \/ b = 210 \/ b = 211).
  { destruct b as [|q|q]; try discriminate.
    do 8 (destruct q as [q|q|]; try discriminate; auto 10). }
  assert (Hm : has_modrm (b :: mb :: t) = Some (Z.odd b, mb :: t)).
  { destruct H as [->|[->|[->|[->|[->| ->]]]]]; reflexivity. }
  cbn [decode_shift] in Hdec.
  destruct (parse_rm p (ar s) (mb :: t)) as [[[rg r'] rest]|] eqn:Hr.
  2:{ destruct H as [->|[->|[->|[->|[->| ->]]]]]; cbv beta iota zeta in Hdec; discriminate. }
  destruct (modrm_ctx _ _ _ _ _ _ _ _ _ _ _ _ Hf Hop Hm Hr) as (Hrok & Hgok & Hg & Hs & Hnb & Cr & Hrg).
  assert (fin : forall oo off', rg = op -> r' = r -> dispatch (b :: mb :: t) = Some (oo, rg, 1) -> width w ->
    (forall g n l, exec1 E oo rg (mkSt (ar s) (dec_of p (blen pre + 1)) g n l) =
       do_shift op w (ptr_of base w r) cnt (mkSt (ar s) (dec_of p off') g n l)) ->
    off' = blen pre + blen (b :: mb :: t) ->
    width w /\ rm_ok r /\ 0 <= op < 8 /\
    exists oo, dispatch (b :: mb :: t) = Some (oo, op, 1) /\
    forall g n l, exec1 E oo op (mkSt (ar s) (dec_of p (blen pre + 1)) g n l) =
       do_shift op w (ptr_of base w r) cnt (mkSt (ar s) (dec_of p (blen pre + blen (b :: mb :: t))) g n l)).
  { intros oo off' -> -> Hd Hw Hx ->. eauto 10. }
  destruct H as [->|[->|[->|[->|[->| ->]]]]]; cbv beta iota zeta in Hdec;
    destruct rest as [|c [|? ?]]; try discriminate; injection Hdec as <- <- <- <-;
  (eapply fin; [reflexivity..|cbn [dispatch]; rewrite Hrg; reflexivity|auto with width| |];
     [intros; cbn [exec1 e_op e_arg];
      unfold x_shift_mi, x_shift_mi8x, x_shift_m1, x_shift_m1x, x_shift_mcl, x_shift_mclx|]).
  - xs E base. xs E base. reflexivity.
  - rewrite !blen_cons. change (blen []) with 0. lia.
  - xs E base. xs E base. xs E base. reflexivity.
  - rewrite !blen_cons. change (blen []) with 0. lia.
  - xs E base. reflexivity.
  - rewrite !blen_cons. change (blen []) with 0. lia.
  - xs E base. xs E base. reflexivity.
  - rewrite !blen_cons. change (blen []) with 0. lia.
  - xs E base. xs E base. reflexivity.
  - rewrite !blen_cons. change (blen []) with 0. lia.
  - xs E base. xs E base. xs E base. reflexivity.
  - rewrite !blen_cons. change (blen []) with 0. lia.
Qed.
Lemma shift_instr s pre p bs op w r cnt :
  fetched E base s pre p bs ->
  decode_shift p (ar s) bs = Some (op, w, r, cnt) ->
  operand_ok p (ar s) bs -> shift_count_ok op w cnt ->
  exists o, shift_of_ok op w cnt (rd_rm w r (ar s)) (r_flags (ar s)) o /\ executes E s (pre ++ bs) (shift_effect op w r cnt o (ar s)).
Proof.
  intros Hf Hdec Hop Hc. destruct (shift_frame s pre p bs op w r cnt Hf Hdec Hop) as (Hw & Hr & Ho & oo & Hd & Hx).
  pose proof Hf as (R & _). destruct R as [F W PC Hcn].
  destruct (do_shift_ok op w r cnt (ar s) F Hw Hr Ho Hc) as (o & a' & H1 & H2 & H3 & H4 & H5).
  exists o. split; [exact H1|]. eapply fr_straight; eauto. intros. rewrite Hx. apply H5.
Qed.
(** ROL, ROR by a non-zero multiple of the width: nothing at all happens (CF should change). *)
Lemma rotate_full_instr s pre p bs op w r cnt :
  fetched E base s pre p bs -> decode_shift p (ar s) bs = Some (op, w, r, cnt) -> operand_ok p (ar s) bs ->
  op = 0 \/ op = 1 -> (cnt mod 32) mod w = 0 -> executes E s (pre ++ bs) (ar s).
Proof.
  intros Hf Hdec Hop Ho Hc. destruct (shift_frame s pre p bs op w r cnt Hf Hdec Hop) as (Hw & Hr & _ & oo & Hd & Hx).
  pose proof Hf as (R & _). destruct R as [F W PC Hcn].
  eapply fr_straight; [exact Hf|exact Hd| |reflexivity|exact F|reflexivity|apply same_refl].
  intros. rewrite Hx. unfold do_shift. replace (sh_amount op w cnt) with 0; [reflexivity|].
  destruct Ho as [-> | ->]; cbn [sh_amount]; lia.
Qed.
(** SHL by exactly the width: a shift by -1 in the C code. *)
Lemma shl_width_instr s pre p bs op w r cnt :
  fetched E base s pre p bs -> decode_shift p (ar s) bs = Some (op, w, r, cnt) -> operand_ok p (ar s) bs ->
  op = 4 \/ op = 6 -> cnt mod 32 = w -> run_one E s = UB UbShift.
Proof.
  intros Hf Hdec Hop Ho Hc. destruct (shift_frame s pre p bs op w r cnt Hf Hdec Hop) as (Hw & Hr & _ & oo & Hd & Hx).
  pose proof Hf as (R & _). destruct R as [F W PC Hcn].
  eapply run_ub; [exact Hf|exact Hd|]. rewrite Hx. unfold do_shift.
  replace (sh_amount op w cnt) with w by (destruct Ho as [-> | ->]; cbn [sh_amount]; auto).
  replace (w =? 0) with false by (destruct Hw; lia). xs E base. xs E base.
  replace (sh_apply op w (rd_rm w r (ar s)) w (r_flags (ar s))) with (@None (Z * Z)); [reflexivity|].
  destruct Ho as [-> | ->]; cbn [sh_apply]; unfold sh_shl; replace (w <? w) with false by lia; replace (w - w - 1 <? 0) with true by lia; reflexivity.
Qed.
End WithEnv.
