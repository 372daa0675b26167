(** The reference machine, the list of refusals and the list of exceptions cover all instructions (C87): opcodes one by one. *)
From Verif Require Import Base Cpu Alu Ops Machine Spec SpecOps SpecOps2 SpecSys SpecMul SpecBcd SpecDbl SpecStr SpecStr2 SpecRun SpecTop SpecStop SpecEa SpecUb SpecIsa SpecRefuse SpecOutside PBase PMem PRun PFrame PAlu PExec PIAlu PIStack PStep PIInt PIStr PTop PTop2 PStop PStop2 PEa PEa2 PEa3 PEa4 PIsa PProg PWhole PWhole2.
Local Open Scope Z_scope.

Ltac red_dec := lazy -[ar parse_rm osz asz reg rd_rm wr_rm with_reg with_mem with_sreg a_flags a_ip a_cs mem lin sreg imm low signed app push16 top16 drop
  flag put fallthrough blen branch top spec_unary alu_result lowest_bit iolog a_iolog r_flags r_ip r_cs r_ss p_as p_os p_seg p_rep data_sreg jcc far cpu daa das aaa aas aam aad Z.pow Z.mul Z.add Z.sub ifrest after lea_offset Bool.eqb].
Section Cover.
Context (E : env) (base : Z) (inp : list ioev -> Z -> Z -> Z) (svc : Z -> Z -> arch -> arch) (s : st) (pre : list Z) (p : pfx).
Notation a := (ar s).
Notation cov := (covered inp svc s pre p).
Lemma re0 h u v : cov ((h ++ u) ++ v) -> cov (h ++ u ++ v).
Proof. rewrite app_assoc. auto. Qed.
Lemma re_n h u l v : cov ((h ++ u ++ l) ++ v) -> cov (h ++ u ++ l ++ v).
Proof. rewrite <- !app_assoc. auto. Qed.
Lemma imm8_1 c : imm 8 [c] = Some c. Proof. reflexivity. Qed.
Lemma imm_w c0 c1 c2 c3 v : exists l v' i, c0 :: c1 :: c2 :: c3 :: v = l ++ v' /\ imm (osz p) l = Some i.
Proof. unfold osz. destruct (p_os p); [exists [c0; c1; c2; c3], v|exists [c0; c1], (c2 :: c3 :: v)]; eexists; split; reflexivity. Qed.

Notation ready_mr h t := (fetched E base s pre p (h ++ t)).
(** With a ModR/M byte: what [m_split] leaves. *)
Ltac mr OP T := change (OP :: T) with ([OP] ++ T); eapply (m_split E base inp svc s pre p [OP] T);
  [discriminate|assumption|lia|intros ?; reflexivity|discriminate|first [discriminate|intros _; reflexivity]|
   intros Hi Hu Hw Hs u v rg r S Hok Hrd; destruct S as (St & S2 & S3 & S4 & S5 & S6 & S7 & S8 & S9 & S10);
   pose proof (S7 []) as P0; rewrite app_nil_r in P0; pose proof (Hok []) as O0; rewrite app_nil_r in O0;
   assert (Lv : (4 <= length v)%nat) by (rewrite St, app_length in *; lia); subst T].
Ltac mr2 OP T := change (0x0F :: OP :: T) with ([0x0F; OP] ++ T); eapply (m_split E base inp svc s pre p [0x0F; OP] T);
  [discriminate|assumption|lia|intros ?; reflexivity|discriminate|discriminate|
   intros Hi Hu Hw Hs u v rg r S Hok Hrd; destruct S as (St & S2 & S3 & S4 & S5 & S6 & S7 & S8 & S9 & S10);
   pose proof (S7 []) as P0; rewrite app_nil_r in P0; pose proof (Hok []) as O0; rewrite app_nil_r in O0;
   assert (Lv : (4 <= length v)%nat) by (rewrite St, app_length in *; lia); subst T].
Ltac dec0 H := cbn [app]; red_dec; rewrite H; reflexivity.

Ltac each Q K := cbn [In] in Q; repeat (lazymatch type of Q with False => fail | _ => idtac end; destruct Q as [<-|Q]; [solve [K]|]); exact (False_ind _ Q).

Definition L_alu_rm : list Z := [0;1;2;3;8;9;10;11;16;17;18;19;24;25;26;27;32;33;34;35;40;41;42;43;48;49;50;51;56;57;58;59;0x84;0x85].
Lemma o_alu_rm op t : In op L_alu_rm -> fetched E base s pre p (op :: t) -> (11 <= length t)%nat -> cov (op :: t).
Proof.
  intros Q Hf Hl. unfold L_alu_rm in Q.
  each Q ltac:(idtac; match goal with |- cov (?o :: _) => mr o t end; apply re0; eapply g_alu; [dec0 P0|exact O0]).
Qed.
(** An immediate operand behind the ModR/M operand. *)
Ltac tail4 v := do 4 (destruct v as [|? v]; [exfalso; cbn in *; lia|]).
Ltac byt v := do 1 (destruct v as [|? v]; [exfalso; cbn in *; lia|]).
Ltac ib S7 := match goal with |- cov ([_] ++ ?u ++ ?c :: ?v) => change (c :: v) with ([c] ++ v); pose proof (S7 [c]) as P1
                            | |- cov ([_; _] ++ ?u ++ ?c :: ?v) => change (c :: v) with ([c] ++ v); pose proof (S7 [c]) as P1 end; apply re_n.
Ltac iw S7 := match goal with |- cov (?h ++ ?u ++ ?c0 :: ?c1 :: ?c2 :: ?c3 :: ?v) => destruct (imm_w c0 c1 c2 c3 v) as (l & v' & im & El & Him); rewrite El; pose proof (S7 l) as P1 end; apply re_n.
Ltac dec1 H Hi := cbn [app]; red_dec; rewrite H; cbv beta iota; rewrite Hi; reflexivity.
Ltac dec8 H := cbn [app]; red_dec; rewrite H; reflexivity.
Lemma o_alu_rmi op t : In op [0x80; 0x81; 0x83] -> fetched E base s pre p (op :: t) -> (11 <= length t)%nat -> cov (op :: t).
Proof.
  intros Q Hf Hl. cbn [In] in Q. destruct Q as [<-|[<-|[<-|[]]]].
  - mr 0x80 t. byt v. ib S7. eapply g_alu; [dec8 P1|apply Hok].
  - mr 0x81 t. tail4 v. iw S7. eapply g_alu; [dec1 P1 Him|apply Hok].
  - mr 0x83 t. byt v. ib S7. eapply g_alu; [dec8 P1|apply Hok].
Qed.
Definition L_alu_acc : list Z := [0x04; 0x0C; 0x14; 0x1C; 0x24; 0x2C; 0x34; 0x3C; 0xA8].
Lemma o_alu_acc op t : In op L_alu_acc -> fetched E base s pre p (op :: t) -> (11 <= length t)%nat -> cov (op :: t).
Proof.
  intros Q Hf Hl. byt t. match goal with |- cov (_ :: ?c :: _) => change (op :: c :: t) with ([op; c] ++ t) end. unfold L_alu_acc in Q.
  each Q ltac:(idtac; eapply g_alu; [reflexivity|exact I]).
Qed.
Definition L_alu_accw : list Z := [0x05; 0x0D; 0x15; 0x1D; 0x25; 0x2D; 0x35; 0x3D; 0xA9].
Lemma o_alu_accw op t : In op L_alu_accw -> fetched E base s pre p (op :: t) -> (11 <= length t)%nat -> cov (op :: t).
Proof.
  intros Q Hf Hl. tail4 t. match goal with |- cov (_ :: ?c0 :: ?c1 :: ?c2 :: ?c3 :: _) => destruct (imm_w c0 c1 c2 c3 t) as (l & v' & im & El & Him) end. rewrite El.
  change (op :: l ++ v') with ((op :: l) ++ v'). unfold L_alu_accw in Q.
  each Q ltac:(idtac; eapply g_alu; [red_dec; rewrite Him; reflexivity|exact I]).
Qed.
Definition L_incdec : list Z := [64;65;66;67;68;69;70;71;72;73;74;75;76;77;78;79].
Lemma o_incdec op t : In op L_incdec -> cov (op :: t).
Proof. intros Q. change (op :: t) with ([op] ++ t). unfold L_incdec in Q. each Q ltac:(idtac; eapply g_unary; [reflexivity|exact I]). Qed.

Lemma rg_range t rg : reg_field t = rg -> 0 <= rg < 8.
Proof. intros <-. unfold reg_field. destruct t; [lia|apply Z.mod_pos_bound; lia]. Qed.
Lemma eight rg : 0 <= rg < 8 -> rg = 0 \/ rg = 1 \/ rg = 2 \/ rg = 3 \/ rg = 4 \/ rg = 5 \/ rg = 6 \/ rg = 7.
Proof. lia. Qed.
Lemma o_grp3b t : fetched E base s pre p (0xF6 :: t) -> (11 <= length t)%nat -> cov (0xF6 :: t).
Proof.
  intros Hf Hl. mr 0xF6 t. byt v. pose proof (rg_range _ _ S6) as R. destruct (eight _ R) as [->|[->|[->|[->|R4]]]].
  - ib S7. eapply g_alu; [dec8 P1|apply Hok].
  - eapply c_ref. cbn [app]. eapply rf_group3; [auto|exact S6|exact Hrd].
  - apply re0. eapply g_unary; [dec0 P0|exact O0].
  - apply re0. eapply g_unary; [dec0 P0|exact O0].
  - apply re0. eapply (g_muldiv inp svc s pre p _ _ rg 8 r); [cbn [app]; unfold decode_muldiv; rewrite P0; replace (4 <=? rg) with true by lia; reflexivity|lia|exact O0].
Qed.
Lemma o_grp3w t : fetched E base s pre p (0xF7 :: t) -> (11 <= length t)%nat -> cov (0xF7 :: t).
Proof.
  intros Hf Hl. mr 0xF7 t. tail4 v. pose proof (rg_range _ _ S6) as R. destruct (eight _ R) as [->|[->|[->|[->|R4]]]].
  - iw S7. eapply g_alu; [dec1 P1 Him|apply Hok].
  - eapply c_ref. cbn [app]. eapply rf_group3; [auto|exact S6|exact Hrd].
  - apply re0. eapply g_unary; [dec0 P0|exact O0].
  - apply re0. eapply g_unary; [dec0 P0|exact O0].
  - apply re0. eapply (g_muldiv inp svc s pre p _ _ rg (osz p) r); [cbn [app]; unfold decode_muldiv; rewrite P0; replace (4 <=? rg) with true by lia; reflexivity|lia|exact O0].
Qed.
Lemma inv_FE t : 2 <= reg_field t -> invalid_form (0xFE :: t) = true.
Proof. intros H. unfold invalid_form. cbn -[Z.leb reg_field]. apply Z.leb_le in H. rewrite H. reflexivity. Qed.
Lemma o_FE t : fetched E base s pre p (0xFE :: t) -> (11 <= length t)%nat -> cov (0xFE :: t).
Proof.
  intros Hf Hl. mr 0xFE t. pose proof (rg_range _ _ S6) as R. destruct (Z.lt_ge_cases rg 2) as [R2|R2]; [|cbn [app] in Hi; rewrite (inv_FE (u ++ v)) in Hi by lia; discriminate].
  assert (R1 : rg = 0 \/ rg = 1) by lia. destruct R1 as [->| ->]; apply re0; (eapply g_unary; [dec0 P0|exact O0]).
Qed.
Lemma o_FF t : fetched E base s pre p (0xFF :: t) -> (11 <= length t)%nat -> cov (0xFF :: t).
Proof.
  intros Hf Hl. mr 0xFF t. pose proof (rg_range _ _ S6) as R. cbn [app] in Hi, Hu.
  assert (I7 : rg <> 7) by (intros ->; unfold invalid_form in Hi; rewrite S6 in Hi; discriminate Hi).
  assert (IM : rg = 3 \/ rg = 5 -> exists sg o, r = RMem sg o).
  { intros H. apply S10. intros M. unfold invalid_form in Hi. rewrite M, S6 in Hi. destruct H as [->| ->]; discriminate Hi. }
  assert (IO : rg = 2 \/ rg = 3 \/ rg = 4 \/ rg = 5 -> p_os p = false).
  { intros H. unfold unsupported_form in Hu. rewrite S6 in Hu. destruct (p_os p); [|reflexivity]. destruct H as [->|[->|[->| ->]]]; discriminate Hu. }
  destruct (eight _ R) as [->|[->|[->|[->|[->|[->|[->|R7]]]]]]]; [| | | | | | |congruence].
  - apply re0. eapply g_unary; [dec0 P0|exact O0].
  - apply re0. eapply g_unary; [dec0 P0|exact O0].
  - pose proof (IO ltac:(auto)) as Hos. clear IM IO Hu.
    destruct (Z.eq_dec (rd_rm 16 r (push16 (fallthrough (blen (pre ++ [0xFF] ++ u)) a) a)) (rd_rm 16 r a)) as [Eq|Ne].
    + apply re0. eapply g_jump; [|exact O0]. cbn [app] in *. unfold step_jump. rewrite P0. cbv zeta. rewrite Hos, (proj2 (Z.eqb_eq _ _) Eq). reflexivity.
    + eapply c_out. cbn [app]. eapply out_call; [exact P0|]. intros H. apply Ne. rewrite <- H. unfold fallthrough. rewrite blen_app, Z.add_assoc. reflexivity.
  - pose proof (IO ltac:(auto)) as Hos. destruct (IM ltac:(auto)) as (sg & o & ->). apply re0. eapply g_jump; [|exact O0]. cbn [app]. red_dec. rewrite Hos. red_dec. rewrite P0. reflexivity.
  - pose proof (IO ltac:(auto)) as Hos. apply re0. eapply g_jump; [|exact O0]. cbn [app]. red_dec. rewrite Hos. red_dec. rewrite P0. reflexivity.
  - pose proof (IO ltac:(auto)) as Hos. destruct (IM ltac:(auto)) as (sg & o & ->). apply re0. eapply g_jump; [|exact O0]. cbn [app]. red_dec. rewrite Hos. red_dec. rewrite P0. reflexivity.
  - destruct (p_os p) eqn:Hos; [eapply c_out, out_push32; auto|]. apply re0. eapply (g_stack inp svc s pre p _ _ (K_PushRM r)); [cbn [app]; red_dec; rewrite Hos; red_dec; rewrite P0; reflexivity|exact O0|discriminate|discriminate].
Qed.
Definition L_shift_fix : list Z := [0xD0; 0xD1; 0xD2; 0xD3].
Lemma o_shift_fix op t : In op L_shift_fix -> fetched E base s pre p (op :: t) -> (11 <= length t)%nat -> cov (op :: t).
Proof.
  intros Q Hf Hl. unfold L_shift_fix in Q. each Q ltac:(idtac; match goal with |- cov (?o :: _) => mr o t end; apply re0; eapply g_shift; [dec0 P0|exact O0]).
Qed.
Lemma o_shift_imm op t : In op [0xC0; 0xC1] -> fetched E base s pre p (op :: t) -> (11 <= length t)%nat -> cov (op :: t).
Proof.
  intros Q Hf Hl. each Q ltac:(idtac; match goal with |- cov (?o :: _) => mr o t end; byt v; ib S7; eapply g_shift; [dec8 P1|apply Hok]).
Qed.
Lemma o_dbl_imm op t : In op [0xA4; 0xAC] -> fetched E base s pre p (0x0F :: op :: t) -> (10 <= length t)%nat -> cov (0x0F :: op :: t).
Proof.
  intros Q Hf Hl. each Q ltac:(idtac; match goal with |- cov (_ :: ?o :: _) => mr2 o t end; byt v; ib S7; eapply g_dbl; [dec8 P1|apply Hok]).
Qed.
Lemma o_dbl_cl op t : In op [0xA5; 0xAD] -> fetched E base s pre p (0x0F :: op :: t) -> (10 <= length t)%nat -> cov (0x0F :: op :: t).
Proof.
  intros Q Hf Hl. each Q ltac:(idtac; match goal with |- cov (_ :: ?o :: _) => mr2 o t end; apply re0; eapply g_dbl; [dec0 P0|exact O0]).
Qed.
Lemma o_imul69 t : fetched E base s pre p (0x69 :: t) -> (11 <= length t)%nat -> cov (0x69 :: t).
Proof.
  intros Hf Hl. mr 0x69 t. do 2 byt v. assert (Hos : p_os p = false) by (destruct (p_os p) eqn:H; [unfold imul_wide in Hw; rewrite H in Hw; discriminate Hw|reflexivity]).
  match goal with |- cov ([_] ++ ?u ++ ?c :: ?d :: ?v) => change (c :: d :: v) with ([c; d] ++ v); pose proof (S7 [c; d]) as P1 end. apply re_n. eapply g_imul2; [dec8 P1|apply Hok|exact Hos].
Qed.
Lemma o_imul6B t : fetched E base s pre p (0x6B :: t) -> (11 <= length t)%nat -> cov (0x6B :: t).
Proof.
  intros Hf Hl. mr 0x6B t. byt v. assert (Hos : p_os p = false) by (destruct (p_os p) eqn:H; [unfold imul_wide in Hw; rewrite H in Hw; discriminate Hw|reflexivity]).
  ib S7. eapply g_imul2; [dec8 P1|apply Hok|exact Hos].
Qed.
Lemma o_imulAF t : fetched E base s pre p (0x0F :: 0xAF :: t) -> (10 <= length t)%nat -> cov (0x0F :: 0xAF :: t).
Proof.
  intros Hf Hl. mr2 0xAF t. assert (Hos : p_os p = false) by (destruct (p_os p) eqn:H; [unfold imul_wide in Hw; rewrite H in Hw; discriminate Hw|reflexivity]).
  apply re0. eapply g_imul2; [dec0 P0|exact O0|exact Hos].
Qed.
Lemma o_bcd op t : In op [0x27; 0x2F; 0x37; 0x3F] -> cov (op :: t).
Proof. intros Q. change (op :: t) with ([op] ++ t). each Q ltac:(idtac; eapply g_bcd; reflexivity). Qed.
Lemma o_aam c t : cov (0xD4 :: c :: t).
Proof.
  change (0xD4 :: c :: t) with ([0xD4; c] ++ t). destruct (Z.eq_dec c 0) as [->|H]; [eapply c_isa, I_aam_fault; reflexivity|].
  eapply g_bcd. cbn -[aam]. replace (c =? 0) with false by lia. reflexivity.
Qed.
Lemma o_aad c t : cov (0xD5 :: c :: t).
Proof. change (0xD5 :: c :: t) with ([0xD5; c] ++ t). eapply g_bcd. reflexivity. Qed.
End Cover.
