(** The reference machine, the list of refusals and the list of exceptions cover all instructions (C87): the remaining opcodes. *)
From Verif Require Import Base Cpu Alu Ops Machine Spec SpecOps SpecOps2 SpecSys SpecMul SpecBcd SpecDbl SpecStr SpecStr2 SpecRun SpecTop SpecStop SpecEa SpecUb SpecIsa SpecRefuse SpecOutside PBase PMem PRun PFrame PAlu PExec PIAlu PIStack PStep PIInt PIStr PTop PTop2 PStop PStop2 PEa PEa2 PEa3 PEa4 PIsa PProg PWhole PWhole2 PWhole3.
Local Open Scope Z_scope.

Section Cover.
Context (E : env) (base : Z) (inp : list ioev -> Z -> Z -> Z) (svc : Z -> Z -> arch -> arch) (s : st) (pre : list Z) (p : pfx).
Notation a := (ar s).
Notation cov := (covered inp svc s pre p).
(** With a ModR/M byte: what [m_split] leaves. *)
Ltac mr OP T := change (OP :: T) with ([OP] ++ T); eapply (m_split E base inp svc s pre p [OP] T);
  [discriminate|assumption|lia|intros ?; reflexivity|discriminate|first [discriminate|intros _; reflexivity]|
   intros Hi Hu Hw Hs u v rg r S Hok Hrd; destruct S as (St & S2 & S3 & S4 & S5 & S6 & S7 & S8 & S9 & S10);
   pose proof (S7 []) as P0; rewrite app_nil_r in P0; pose proof (Hok []) as O0; rewrite app_nil_r in O0;
   assert (Lv : (4 <= length v)%nat) by (rewrite St, app_length in *; lia); subst T].
Ltac mr2 OP T := change (0x0F :: OP :: T) with ([0x0F; OP] ++ T); eapply (m_split E base inp svc s pre p [0x0F; OP] T);
  [discriminate|assumption|lia|intros ?; reflexivity|discriminate|discriminate|
   intros Hi Hu Hw Hs u v rg r S Hok Hrd; destruct S as (St & S2 & S3 & S4 & S5 & S6 & S7 & S8 & S9 & S10);
   pose proof (S7 []) as P0; rewrite app_nil_r in P0; pose proof (Hok []) as O0; rewrite app_nil_r in O0;
   assert (Lv : (4 <= length v)%nat) by (rewrite St, app_length in *; lia); subst T].
Ltac dec0 H := cbn [app]; red_dec; rewrite H; reflexivity.

Ltac each Q K := cbn [In] in Q; repeat (lazymatch type of Q with False => fail | _ => idtac end; destruct Q as [<-|Q]; [solve [K]|]); exact (False_ind _ Q).

(** An immediate operand behind the ModR/M operand. *)
Ltac tail4 v := do 4 (destruct v as [|? v]; [exfalso; cbn in *; lia|]).
Ltac byt v := do 1 (destruct v as [|? v]; [exfalso; cbn in *; lia|]).
Ltac ib S7 := match goal with |- cov ([_] ++ ?u ++ ?c :: ?v) => change (c :: v) with ([c] ++ v); pose proof (S7 [c]) as P1
                            | |- cov ([_; _] ++ ?u ++ ?c :: ?v) => change (c :: v) with ([c] ++ v); pose proof (S7 [c]) as P1 end; apply re_n.
Ltac iw S7 := match goal with |- cov (?h ++ ?u ++ ?c0 :: ?c1 :: ?c2 :: ?c3 :: ?v) => destruct (imm_w p c0 c1 c2 c3 v) as (l & v' & im & El & Him); rewrite El; pose proof (S7 l) as P1 end; apply re_n.
Ltac dec1 H Hi := cbn [app]; red_dec; rewrite H; cbv beta iota; rewrite Hi; reflexivity.
Ltac dec8 H := cbn [app]; red_dec; rewrite H; reflexivity.
Definition L_mov_rm : list Z := [0x88; 0x89; 0x8A; 0x8B; 0x86; 0x87].
Lemma o_mov_rm op t : In op L_mov_rm -> fetched E base s pre p (op :: t) -> (11 <= length t)%nat -> cov (op :: t).
Proof.
  intros Q Hf Hl. unfold L_mov_rm in Q. each Q ltac:(idtac; match goal with |- cov (?o :: _) => mr o t end; apply re0; eapply g_mov; [dec0 P0|exact O0]).
Qed.
Lemma o_C6 t : fetched E base s pre p (0xC6 :: t) -> (11 <= length t)%nat -> cov (0xC6 :: t).
Proof.
  intros Hf Hl. mr 0xC6 t. byt v. destruct (Z.eq_dec rg 0) as [->|Hr]; [|eapply c_out; cbn [app]; eapply out_group; [cbn; tauto|rewrite S6; exact Hr]].
  ib S7. eapply g_mov; [dec8 P1|apply Hok].
Qed.
Lemma o_C7 t : fetched E base s pre p (0xC7 :: t) -> (11 <= length t)%nat -> cov (0xC7 :: t).
Proof.
  intros Hf Hl. mr 0xC7 t. tail4 v. destruct (Z.eq_dec rg 0) as [->|Hr]; [|eapply c_out; cbn [app]; eapply out_group; [cbn; tauto|rewrite S6; exact Hr]].
  iw S7. eapply g_mov; [|apply Hok]. cbn [app]. unfold step_mov. rewrite P1, Him. reflexivity.
Qed.
Definition L_mov_i8 : list Z := [0xB0; 0xB1; 0xB2; 0xB3; 0xB4; 0xB5; 0xB6; 0xB7].
Lemma o_mov_i8 op t : In op L_mov_i8 -> (11 <= length t)%nat -> cov (op :: t).
Proof.
  intros Q Hl. byt t. match goal with |- cov (_ :: ?c :: _) => change (op :: c :: t) with ([op; c] ++ t) end. unfold L_mov_i8 in Q.
  each Q ltac:(idtac; eapply g_mov; [reflexivity|exact I]).
Qed.
Definition L_mov_iw : list Z := [0xB8; 0xB9; 0xBA; 0xBB; 0xBC; 0xBD; 0xBE; 0xBF].
Lemma o_mov_iw op t : In op L_mov_iw -> (11 <= length t)%nat -> cov (op :: t).
Proof.
  intros Q Hl. tail4 t. match goal with |- cov (_ :: ?c0 :: ?c1 :: ?c2 :: ?c3 :: _) => destruct (imm_w p c0 c1 c2 c3 t) as (l & v' & im & El & Him) end. rewrite El.
  change (op :: l ++ v') with ((op :: l) ++ v'). unfold L_mov_iw in Q.
  each Q ltac:(idtac; eapply g_mov; [unfold step_mov; rewrite Him; reflexivity|exact I]).
Qed.
Lemma imm_a c0 c1 c2 c3 v : (forall b, In b [c0; c1] -> 0 <= b < 256) -> (exists l v' o, c0 :: c1 :: c2 :: c3 :: v = l ++ v' /\ imm (asz p) l = Some o /\ o < 65536) \/
  (p_as p = true /\ exists o r, dword (c0 :: c1 :: c2 :: c3 :: v) = Some (o, r) /\ 65536 <= o).
Proof.
  intros B. unfold asz. destruct (p_as p).
  - destruct (Z.lt_ge_cases (c0 + 256 * c1 + 65536 * c2 + 16777216 * c3) 65536) as [H|H].
    + left. exists [c0; c1; c2; c3], v. eexists. split; [reflexivity|]. split; [reflexivity|exact H].
    + right. split; [reflexivity|]. do 2 eexists. split; [reflexivity|exact H].
  - left. exists [c0; c1], (c2 :: c3 :: v). eexists. split; [reflexivity|]. split; [reflexivity|]. pose proof (B c0 ltac:(cbn; auto)). pose proof (B c1 ltac:(cbn; auto)). lia.
Qed.
Lemma o_moffs op t : In op [0xA0; 0xA1; 0xA2; 0xA3] -> fetched E base s pre p (op :: t) -> (11 <= length t)%nat -> cov (op :: t).
Proof.
  intros Q Hf Hl. pose proof (code_bytes _ _ _ _ _ _ Hf) as Hb. tail4 t. match goal with |- cov (_ :: ?c0 :: ?c1 :: ?c2 :: ?c3 :: _) => destruct (imm_a c0 c1 c2 c3 t) as [(l & v' & o & El & Him & Ho)|(Ha & o & r & Hd & Ho)] end.
  { intros b Hin. apply Hb. cbn in *. tauto. }
  - rewrite El. change (op :: l ++ v') with ((op :: l) ++ v'). apply Z.ltb_lt in Ho.
    each Q ltac:(idtac; eapply g_mov; [unfold step_mov; rewrite Him; cbn [after]; rewrite Ho; reflexivity|exact I]).
  - eapply c_out, out_moffs; eauto. cbn [In] in Q. lia.
Qed.
Lemma o_8C t : fetched E base s pre p (0x8C :: t) -> (11 <= length t)%nat -> cov (0x8C :: t).
Proof.
  intros Hf Hl. mr 0x8C t. assert (Hos : p_os p = false) by (destruct (p_os p) eqn:H; [unfold unsupported_form in Hu; rewrite H in Hu; discriminate Hu|reflexivity]).
  destruct (Z.lt_ge_cases 5 rg) as [H5|H5]; [eapply c_out; cbn [app]; eapply out_sreg; [cbn; tauto|rewrite S6; lia]|].
  apply re0. eapply g_mov; [|exact O0]. cbn [app]. unfold step_mov. rewrite P0. cbv zeta. rewrite Hos. replace (5 <? rg) with false by lia. reflexivity.
Qed.
Lemma o_8E t : fetched E base s pre p (0x8E :: t) -> (11 <= length t)%nat -> cov (0x8E :: t).
Proof.
  intros Hf Hl. mr 0x8E t. assert (Hos : p_os p = false) by (destruct (p_os p) eqn:H; [unfold unsupported_form in Hu; rewrite H in Hu; discriminate Hu|reflexivity]).
  destruct (Z.lt_ge_cases 5 rg) as [H5|H5]; [eapply c_out; cbn [app]; eapply out_sreg; [cbn; tauto|rewrite S6; lia]|].
  destruct (Z.eq_dec rg 1) as [H1|H1]; [eapply c_out; cbn [app]; eapply out_sreg; [cbn; tauto|rewrite S6; auto]|].
  apply re0. eapply g_mov; [|exact O0]. cbn [app]. unfold step_mov. rewrite P0. cbv zeta. rewrite Hos. replace (5 <? rg) with false by lia. replace (rg =? 1) with false by lia. reflexivity.
Qed.
Definition L_xchg : list Z := [0x90; 0x91; 0x92; 0x93; 0x94; 0x95; 0x96; 0x97].
Lemma o_xchg op t : In op L_xchg -> cov (op :: t).
Proof. intros Q. change (op :: t) with ([op] ++ t). unfold L_xchg in Q. each Q ltac:(idtac; eapply g_mov; [reflexivity|exact I]). Qed.
Lemma o_lxs op t : In op [0xC4; 0xC5] -> fetched E base s pre p (op :: t) -> (11 <= length t)%nat -> cov (op :: t).
Proof.
  intros Q Hf Hl. each Q ltac:(idtac; match goal with |- cov (?o :: _) => mr o t end;
    (assert (HM : exists sg o, r = RMem sg o) by (apply S10; intros M; unfold invalid_form in Hi; cbn [app] in M, Hi; rewrite M in Hi; discriminate Hi));
    destruct HM as (sg & o & ->); apply re0; eapply g_mov; [cbn [app]; unfold step_mov; rewrite P0; reflexivity|exact O0]).
Qed.
Lemma o_lxs2 op t : In op [0xB2; 0xB4; 0xB5] -> fetched E base s pre p (0x0F :: op :: t) -> (10 <= length t)%nat -> cov (0x0F :: op :: t).
Proof.
  intros Q Hf Hl. each Q ltac:(idtac; match goal with |- cov (_ :: ?o :: _) => mr2 o t end;
    (assert (HM : exists sg o, r = RMem sg o) by (apply S10; intros M; unfold invalid_form in Hi; cbn [app] in M, Hi; rewrite M in Hi; discriminate Hi));
    destruct HM as (sg & o & ->); apply re0; eapply g_mov; [cbn [app]; unfold step_mov; rewrite P0; reflexivity|exact O0]).
Qed.
Lemma o_movzx op t : In op [0xB6; 0xB7] -> fetched E base s pre p (0x0F :: op :: t) -> (10 <= length t)%nat -> cov (0x0F :: op :: t).
Proof.
  intros Q Hf Hl. each Q ltac:(idtac; match goal with |- cov (_ :: ?o :: _) => mr2 o t end; apply re0; eapply g_mov; [cbn [app]; unfold step_mov; rewrite P0; reflexivity|exact O0]).
Qed.
Lemma o_xlat t : cov (0xD7 :: t).
Proof.
  destruct (Z.lt_ge_cases (low (asz p) (reg (asz p) BX a + reg 8 AX a)) 65536) as [H|H]; [|eapply c_out, out_xlat; exact H].
  change (0xD7 :: t) with ([0xD7] ++ t). eapply g_mov; [|exact I]. apply Z.ltb_lt in H. unfold step_mov. cbv zeta. rewrite H. reflexivity.
Qed.
Lemma o_lea t : (11 <= length t)%nat -> cov (0x8D :: t).
Proof.
  intros Hl. destruct (Z.eq_dec (mod_field t) 3) as [M|M]; [eapply c_ref, rf_invalid; unfold invalid_form; rewrite M; reflexivity|].
  destruct (lea_dec p a t) as [D|D]; [|eapply c_out, out_lea; exact D].
  destruct (lea_split p a t ltac:(lia) M) as (u & v & rg & o & -> & H1 & H2). change (0x8D :: u ++ v) with ((0x8D :: u) ++ v). eapply c_isa, I_lea; [reflexivity|exact H1|apply H2, D].
Qed.
(** ** Stack *)
Lemma in_os op t L : In op L -> In op [0x06; 0x0E; 0x16; 0x1E; 0x07; 0x17; 0x1F; 0x54; 0x5C; 0x68; 0xC9; 0xC8] -> p_os p = true -> cov (op :: t).
Proof. intros _ H1 H2. eapply c_out, out_stack1; eauto. Qed.
Definition L_pushpop : list Z := [0x50; 0x51; 0x52; 0x53; 0x55; 0x56; 0x57; 0x58; 0x59; 0x5A; 0x5B; 0x5D; 0x5E; 0x5F].
Lemma o_pushpop op t : In op L_pushpop -> cov (op :: t).
Proof.
  intros Q. change (op :: t) with ([op] ++ t). unfold L_pushpop in Q.
  each Q ltac:(idtac; eapply g_stack; [unfold decode_stack; destruct (p_os p); reflexivity|exact I|discriminate|discriminate]).
Qed.
Definition L_seg : list Z := [0x06; 0x0E; 0x16; 0x1E; 0x07; 0x17; 0x1F; 0x54; 0x5C; 0xC9].
Lemma o_seg op t : In op L_seg -> cov (op :: t).
Proof.
  intros Q. destruct (p_os p) eqn:Hos; [eapply c_out, out_stack1; [exact Hos|unfold L_seg in Q; cbn [In] in *; tauto]|].
  change (op :: t) with ([op] ++ t). unfold L_seg in Q.
  each Q ltac:(idtac; eapply g_stack; [unfold decode_stack; rewrite Hos; reflexivity|exact I|discriminate|discriminate]).
Qed.
Lemma o_seg2 op t : In op [0xA0; 0xA1; 0xA8; 0xA9] -> cov (0x0F :: op :: t).
Proof.
  intros Q. destruct (p_os p) eqn:Hos; [eapply c_out, out_stack2; [exact Hos|exact Q]|].
  change (0x0F :: op :: t) with ([0x0F; op] ++ t).
  each Q ltac:(idtac; eapply g_stack; [unfold decode_stack; rewrite Hos; reflexivity|exact I|discriminate|discriminate]).
Qed.
Lemma o_6A c t : cov (0x6A :: c :: t).
Proof. change (0x6A :: c :: t) with ([0x6A; c] ++ t). eapply g_stack; [reflexivity|exact I|discriminate|discriminate]. Qed.
Lemma o_68 c d t : cov (0x68 :: c :: d :: t).
Proof.
  destruct (p_os p) eqn:Hos; [eapply c_out, out_stack1; [exact Hos|cbn; tauto]|]. change (0x68 :: c :: d :: t) with ([0x68; c; d] ++ t).
  eapply g_stack; [unfold decode_stack; rewrite Hos; reflexivity|exact I|discriminate|discriminate].
Qed.
Lemma o_stack66 op t : In op [0x60; 0x61; 0x9C; 0x9D] -> cov (op :: t).
Proof.
  intros Q. destruct (p_os p) eqn:Hos; [eapply c_ref, rf_stack; [exact Hos|exact Q]|].
  destruct (Z.eq_dec op 0x9D) as [->|H9].
  - assert (D : 0 <= cpu a <= 2 \/ ~ 0 <= cpu a <= 2) by lia. destruct D as [D|D]; [|eapply c_out, out_popf; exact D].
    change (0x9D :: t) with ([0x9D] ++ t). eapply (g_stack inp svc s pre p _ _ K_PopF); [unfold decode_stack; rewrite Hos; reflexivity|exact I|intros _; lia|discriminate].
  - change (op :: t) with ([op] ++ t). cbn [In] in Q.
    destruct Q as [<-|[<-|[<-|[<-|[]]]]]; try congruence; (eapply g_stack; [unfold decode_stack; rewrite Hos; reflexivity|exact I|discriminate|discriminate]).
Qed.
Lemma o_enter l h lv t : cov (0xC8 :: l :: h :: lv :: t).
Proof.
  destruct (Z.eq_dec (lv mod 32) 1) as [H1|H1]; [eapply c_out, out_enter; exact H1|]. pose proof (Z.mod_pos_bound lv 32 ltac:(lia)) as R.
  destruct (p_os p) eqn:Hos.
  - destruct (Z.eq_dec (lv mod 32) 0) as [H0|H0]; [eapply c_out, out_stack1; [exact Hos|cbn; tauto]|eapply c_ref, rf_enter; [exact Hos|lia]].
  - change (0xC8 :: l :: h :: lv :: t) with ([0xC8; l; h; lv] ++ t). eapply (g_stack inp svc s pre p _ _ (K_Enter (l + 256 * h) (lv mod 32))); [unfold decode_stack; rewrite Hos; reflexivity|exact I|discriminate|].
    intros z [= _ Hz]. congruence.
Qed.
Lemma o_8F t : fetched E base s pre p (0x8F :: t) -> (11 <= length t)%nat -> cov (0x8F :: t).
Proof.
  intros Hf Hl. mr 0x8F t. assert (Hos : p_os p = false) by (destruct (p_os p) eqn:H; [unfold unsupported_form in Hu; rewrite H in Hu; discriminate Hu|reflexivity]).
  destruct (Z.eq_dec rg 0) as [->|Hr]; [|eapply c_out; cbn [app]; eapply out_group; [cbn; tauto|rewrite S6; exact Hr]].
  apply re0. eapply (g_stack inp svc s pre p _ _ (K_PopRM r)); [cbn [app]; unfold decode_stack; cbn [push_seg_op pop_seg_op]; rewrite P0, Hos; reflexivity|exact O0|discriminate|discriminate].
Qed.
(** ** Conversions, flags, ports *)
Lemma o_98 t : cov (0x98 :: t).
Proof.
  destruct (p_os p) eqn:Hos; [eapply c_out, out_cbw; exact Hos|]. change (0x98 :: t) with ([0x98] ++ t). eapply g_misc; [unfold step_misc; rewrite Hos; reflexivity|exact I].
Qed.
Definition L_misc : list Z := [0x99; 0xF5; 0xF8; 0xF9; 0xFA; 0xFB; 0xFC; 0xFD; 0x9E; 0x9F].
Lemma o_misc op t : In op L_misc -> cov (op :: t).
Proof. intros Q. change (op :: t) with ([op] ++ t). unfold L_misc in Q. each Q ltac:(idtac; eapply g_misc; [reflexivity|exact I]). Qed.
Lemma o_bsf t : fetched E base s pre p (0x0F :: 0xBC :: t) -> (10 <= length t)%nat -> cov (0x0F :: 0xBC :: t).
Proof.
  intros Hf Hl. destruct (p_os p) eqn:Hos; [eapply c_out, out_bsf; exact Hos|]. mr2 0xBC t. apply re0. destruct (lowest_bit (rd_rm 16 r a)) as [i|] eqn:Hb;
    (eapply g_misc; [cbn [app]; unfold step_misc; destruct u as [|m u]; [congruence|]; cbv beta iota zeta; rewrite Hos, P0; cbv beta iota; rewrite Hb; reflexivity|exact O0]).
Qed.
Lemma o_io_i op c t : In op [0xE4; 0xE5; 0xE6; 0xE7] -> cov (op :: c :: t).
Proof. intros Q. change (op :: c :: t) with ([op; c] ++ t). each Q ltac:(idtac; eapply g_io; reflexivity). Qed.
Lemma o_io op t : In op [0xEC; 0xED; 0xEE; 0xEF] -> cov (op :: t).
Proof. intros Q. change (op :: t) with ([op] ++ t). each Q ltac:(idtac; eapply g_io; reflexivity). Qed.
Definition L_str : list Z := [0x6C; 0x6D; 0x6E; 0x6F; 0xA4; 0xA5; 0xA6; 0xA7; 0xAA; 0xAB; 0xAC; 0xAD; 0xAE; 0xAF].
Lemma o_str op t : In op L_str -> wf_regs a -> cov (op :: t).
Proof. intros Q W. change (op :: t) with ([op] ++ t). unfold L_str in Q. each Q ltac:(idtac; eapply g_str; [exact W|reflexivity]). Qed.
(** ** Control transfer *)
Definition L_short : list Z := [0x70; 0x71; 0x72; 0x73; 0x74; 0x75; 0x76; 0x77; 0x78; 0x79; 0x7A; 0x7B; 0x7C; 0x7D; 0x7E; 0x7F; 0xEB].
Lemma o_short op c t : In op L_short -> cov (op :: c :: t).
Proof. intros Q. change (op :: c :: t) with ([op; c] ++ t). unfold L_short in Q. each Q ltac:(idtac; eapply g_jump; [reflexivity|exact I]). Qed.
Lemma o_loop op c t : In op [0xE0; 0xE1; 0xE2] -> cov (op :: c :: t).
Proof.
  intros Q. destruct (p_as p) eqn:Ha; [eapply c_out, out_loop; [exact Ha|cbn [In] in Q; lia]|]. change (op :: c :: t) with ([op; c] ++ t).
  each Q ltac:(idtac; eapply g_jump; [unfold step_jump; rewrite Ha; reflexivity|exact I]).
Qed.
Lemma o_jcxz c t : cov (0xE3 :: c :: t).
Proof.
  destruct (Bool.eqb (p_os p) (p_as p)) eqn:Hb; [|eapply c_out, out_jcxz; apply eqb_false_iff; exact Hb]. change (0xE3 :: c :: t) with ([0xE3; c] ++ t).
  eapply g_jump; [unfold step_jump; rewrite Hb; reflexivity|exact I].
Qed.
Lemma o_near op c d t : In op [0xE8; 0xE9; 0xC2; 0xCA] -> cov (op :: c :: d :: t).
Proof.
  intros Q. destruct (p_os p) eqn:Hos; [eapply c_out, out_jump1; [exact Hos|cbn [In] in *; tauto]|]. change (op :: c :: d :: t) with ([op; c; d] ++ t).
  each Q ltac:(idtac; eapply g_jump; [unfold step_jump; rewrite Hos; reflexivity|exact I]).
Qed.
Lemma o_far op c d e f t : In op [0xEA; 0x9A] -> cov (op :: c :: d :: e :: f :: t).
Proof.
  intros Q. destruct (p_os p) eqn:Hos; [eapply c_out, out_jump1; [exact Hos|cbn [In] in *; tauto]|]. change (op :: c :: d :: e :: f :: t) with ([op; c; d; e; f] ++ t).
  each Q ltac:(idtac; eapply g_jump; [unfold step_jump; rewrite Hos; reflexivity|exact I]).
Qed.
Lemma o_ret op t : In op [0xC3; 0xCB; 0xCF] -> cov (op :: t).
Proof.
  intros Q. destruct (p_os p) eqn:Hos; [eapply c_out, out_jump1; [exact Hos|cbn [In] in *; tauto]|]. change (op :: t) with ([op] ++ t).
  each Q ltac:(idtac; eapply g_jump; [unfold step_jump; rewrite Hos; reflexivity|exact I]).
Qed.
Definition L_jcc2 : list Z := [0x80; 0x81; 0x82; 0x83; 0x84; 0x85; 0x86; 0x87; 0x88; 0x89; 0x8A; 0x8B; 0x8C; 0x8D; 0x8E; 0x8F].
Lemma o_jcc2 op c d t : In op L_jcc2 -> cov (0x0F :: op :: c :: d :: t).
Proof.
  intros Q. unfold L_jcc2 in Q. destruct (p_os p) eqn:Hos; [eapply c_out, out_jump2; [exact Hos|cbn [In] in *; lia]|]. change (0x0F :: op :: c :: d :: t) with ([0x0F; op; c; d] ++ t).
  each Q ltac:(idtac; eapply g_jump; [unfold step_jump; rewrite Hos; reflexivity|exact I]).
Qed.
Lemma o_int3 t : cov (0xCC :: t).
Proof. change (0xCC :: t) with ([0xCC] ++ t). eapply g_int; [reflexivity|discriminate|constructor]. Qed.
Lemma o_intn n t : cov (0xCD :: n :: t).
Proof. change (0xCD :: n :: t) with ([0xCD; n] ++ t). eapply g_int; [reflexivity|discriminate|constructor]. Qed.
Lemma o_into t : cov (0xCE :: t).
Proof.
  change (0xCE :: t) with ([0xCE] ++ t). destruct (flag OF (r_flags a)) eqn:Hf; [|eapply c_isa, I_into; [reflexivity|exact Hf]].
  eapply g_int; [reflexivity|intros _; exact Hf|constructor; exact Hf].
Qed.
End Cover.
