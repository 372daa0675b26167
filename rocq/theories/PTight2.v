(** No instruction on the list of exceptions (SpecOutside.v) is a step of the reference machine (SpecIsa.v) (C87): opcode by opcode. *)
From Verif Require Import Base Cpu Alu Ops Machine Spec SpecOps SpecOps2 SpecSys SpecMul SpecBcd SpecDbl SpecStr SpecStr2 SpecRun SpecTop SpecStop SpecEa SpecUb SpecIsa SpecRefuse SpecOutside PTight.
Local Open Scope Z_scope.

Section Tight.
Context (inp : list ioev -> Z -> Z -> Z) (svc : Z -> Z -> arch -> arch) (p : pfx) (a : arch).
Definition idiv_out (rg w : Z) (r : rm) : Prop :=
  rg = 7 /\ ((w = 32 /\ idiv_effect w (rd_rm w r a) a <> None) \/ (w <> 8 /\ most_negative_by_minus_one w (rd_rm w r a) a)).
Lemma idiv_mn w : forall x, w = 16 \/ w = 32 -> most_negative_by_minus_one w x a -> idiv_effect w x a = None.
Proof.
  intros x Hw [H1 H2]. unfold idiv_effect. cbv zeta. rewrite H1, H2. change (-1 =? 0) with false. cbv iota.
  destruct Hw as [->| ->]; reflexivity.
Qed.
Lemma muldiv_w i rg w r : decode_muldiv p a i = Some (rg, w, r) -> w = 8 \/ w = 16 \/ w = 32.
Proof.
  unfold decode_muldiv. destruct i as [|op t]; [discriminate|]. destruct (parse_rm p a t) as [[[g q] [|]]|]; try discriminate. destruct (4 <=? g); [|discriminate].
  destruct (op =? 0xF6); [intros [= _ <- _]; auto|]. destruct (op =? 0xF7); [|discriminate]. intros [= _ <- _]. unfold osz. destruct (p_os p); auto.
Qed.
Inductive step_of (len : Z) (i : list Z) : Prop :=
| s_alu k w d s : decode_alu p a i = Some (k, w, d, s) -> (k = 3 -> sbb_cf_wrong w s (b2z (flag CF (r_flags a))) = false) -> step_of len i
| s_unary x : decode_unary p a i = Some x -> step_of len i
| s_shift o w r c : decode_shift p a i = Some (o, w, r, c) -> shift_count_ok o w c -> step_of len i
| s_dbl l w r s n : decode_dbl p a i = Some (l, w, r, s, n) -> dbl_supported w r s n -> step_of len i
| s_muldiv rg w r : decode_muldiv p a i = Some (rg, w, r) -> ~ idiv_out rg w r -> step_of len i
| s_imul2 d x y : decode_imul2 p a i = Some (d, x, y) -> x < 32768 -> y < 32768 -> x * y < 65536 -> step_of len i
| s_mov x : step_mov p a i = Some x -> step_of len i
| s_stack k : decode_stack p a i = Some k -> (k = K_PopF -> 0 <= cpu a <= 2) -> (forall z, k <> K_Enter z 1) -> step_of len i
| s_misc x : step_misc p a i = Some x -> step_of len i
| s_jump x : step_jump p len a i = Some x -> step_of len i
| s_bcd x : step_bcd a i = Some x -> step_of len i
| s_aam : i = [0xD4; 0] -> step_of len i
| s_io x : step_io inp p a i = Some x -> step_of len i
| s_str o w : decode_str p i = Some (o, w) -> step_of len i
| s_str67 o w : decode_str67 p i = Some (o, w) -> within67 o w (if p_rep p =? 0 then 1 else Z.to_nat (reg 32 CX a)) a -> (p_rep p <> 0 -> reg 32 CX a < 65536) -> step_of len i
| s_int n : int_number i = Some n -> step_of len i
| s_lea t : i = 0x8D :: t -> step_of len i.
Lemma isa_step len i R : isa inp svc p len a i R -> step_of len i.
Proof.
  intros H. destruct H.
  - eapply s_alu; [eassumption|congruence].
  - eapply s_alu; [eassumption|auto].
  - eapply s_unary; eassumption.
  - eapply s_unary; eassumption.
  - eapply s_shift; eassumption.
  - eapply s_dbl; eassumption.
  - eapply s_muldiv; [eassumption|intros [? _]; discriminate].
  - eapply s_muldiv; [eassumption|intros [? _]; discriminate].
  - eapply s_imul2; eassumption.
  - eapply s_muldiv; [eassumption|intros [? _]; discriminate].
  - eapply s_muldiv; [eassumption|intros [? _]; discriminate].
  - eapply s_muldiv; [eassumption|]. intros [_ [[Q _]|[Q1 Q2]]]; [contradiction|]. rewrite (idiv_mn w _ ltac:(destruct (muldiv_w _ _ _ _ H) as [?|[?|?]]; auto; contradiction) Q2) in *. discriminate.
  - eapply s_muldiv; [eassumption|]. intros [_ [[_ Q]|[Q1 Q2]]]; [contradiction|]. match goal with N : _ <> 8 -> ~ _ |- _ => exact (N Q1 Q2) end.
  - eapply s_bcd; eassumption.
  - eapply s_aam; assumption.
  - eapply s_mov; eassumption.
  - eapply s_lea; eassumption.
  - eapply s_stack; [eassumption| |assumption]. intros Q. match goal with N : _ -> cpu a = 0 \/ _ |- _ => specialize (N Q) end. lia.
  - eapply s_misc; eassumption.
  - eapply s_io; eassumption.
  - eapply s_str; eassumption.
  - eapply s_str; eassumption.
  - eapply s_str; eassumption.
  - eapply s_str67; [eassumption| |intros; contradiction]. rewrite (proj2 (Z.eqb_eq _ _)) by assumption. assumption.
  - eapply s_str67; [eassumption| |auto]. rewrite (proj2 (Z.eqb_neq _ _)) by assumption. subst n. assumption.
  - eapply s_str67; [eassumption| |auto]. rewrite (proj2 (Z.eqb_neq _ _)) by assumption. assumption.
  - eapply s_jump; eassumption.
  - eapply s_int; eassumption.
  - subst. eapply s_int; reflexivity.
  - eapply s_int; eassumption.
Qed.
(** Ways to see that a decoder does not know an instruction with a given opcode. *)
Ltac kd D := first
  [ discriminate D
  | solve [exfalso; unfold decode_muldiv in D; match type of D with context [parse_rm p a ?t] => destruct (parse_rm p a t) as [[[? ?] [|? ?]]|] end; try discriminate D; match type of D with context [4 <=? ?x] => destruct (4 <=? x); discriminate D end]
  | solve [exfalso; unfold decode_dbl in D; match type of D with context [parse_rm p a ?t] => destruct (parse_rm p a t) as [[[? ?] ?]|] end; discriminate D]
  | solve [exfalso; unfold decode_str67, decode_str in D; cbn [p_as] in D; destruct (p_as p); discriminate D]
  | solve [exfalso; unfold decode_stack in D; destruct (p_os p); discriminate D]
  | solve [exfalso; unfold step_jump in D; destruct (p_os p), (p_as p); discriminate D]
  | solve [exfalso; match type of D with context [_ :: ?t] => destruct t as [|? ?]; first [discriminate D | destruct (p_os p); discriminate D] end] ].
Ltac rule HI D := apply isa_step in HI; destruct HI as [? ? ? ? D ?|? D|? ? ? ? D ?|? ? ? ? ? D ?|? ? ? D ?|? ? ? D ? ? ?|? D|? D ? ?|? D|? D|? D|D|? D|? ? D|? ? D ? ?|? D|? D]; try (kd D).
Ltac known D H := first [ kd D | solve [exfalso; unfold decode_stack, step_jump, step_misc in D; rewrite H in D; first [discriminate D | destruct (p_as p); discriminate D | match type of D with context [_ :: ?t] => destruct t; discriminate D end]]
  | solve [exfalso; match type of D with context [_ :: ?t] => destruct t as [|? ?] end; unfold step_misc in D; try rewrite H in D; discriminate D] ].

Lemma t_os1 len op t R : p_os p = true -> In op [0x06; 0x0E; 0x16; 0x1E; 0x07; 0x17; 0x1F; 0x54; 0x5C; 0x68; 0xC9; 0xC8; 0x98; 0xE8; 0xE9; 0xEA; 0x9A; 0xC2; 0xC3; 0xCA; 0xCB; 0xCF] -> ~ isa inp svc p len a (op :: t) R.
Proof.
  intros H Q HI. cbn [In] in Q. repeat (destruct Q as [<-|Q]; [solve [rule HI D; known D H]|]). contradiction.
Qed.
Lemma t_os2 len op t R : p_os p = true -> In op [0xA0; 0xA1; 0xA8; 0xA9; 0xBC; 128; 129; 130; 131; 132; 133; 134; 135; 136; 137; 138; 139; 140; 141; 142; 143] -> ~ isa inp svc p len a (0x0F :: op :: t) R.
Proof.
  intros H Q HI. cbn [In] in Q. repeat (destruct Q as [<-|Q]; [solve [rule HI D; known D H]|]). contradiction.
Qed.
Lemma t_moffs len op t o r R j : p_as p = true -> In op [0xA0; 0xA1; 0xA2; 0xA3] -> dword (t ++ j) = Some (o, r) -> 65536 <= o -> ~ isa inp svc p len a (op :: t) R.
Proof.
  intros H Q Hd Ho HI. assert (K : forall y, imm (asz p) t = Some y -> y = o).
  { unfold asz. rewrite H. intros y Hy. do 5 (destruct t as [|? t]; try discriminate Hy). cbn [app dword imm] in *. injection Hy as <-. injection Hd as <- _. reflexivity. }
  cbn [In] in Q. repeat (destruct Q as [<-|Q]; [solve [rule HI D; unfold step_mov in D; destruct (imm (asz p) t) as [y|]; [|discriminate D]; cbn [after] in D; rewrite (K y eq_refl) in D; replace (o <? 65536) with false in D by lia; discriminate D]|]). contradiction.
Qed.
Lemma t_xlat len t R : 65536 <= low (asz p) (reg (asz p) BX a + reg 8 AX a) -> ~ isa inp svc p len a (0xD7 :: t) R.
Proof.
  intros H HI. rule HI D. unfold step_mov in D. cbv zeta in D. replace (low (asz p) (reg (asz p) BX a + reg 8 AX a) <? 65536) with false in D by lia. discriminate D.
Qed.
Lemma t_enter len t j s0 s1 level v R : t ++ j = s0 :: s1 :: level :: v -> level mod 32 = 1 -> ~ isa inp svc p len a (0xC8 :: t) R.
Proof.
  intros E H HI. rule HI D. unfold decode_stack in D. destruct (p_os p); [discriminate D|]. do 3 (destruct t as [|? t]; try discriminate D). cbn [app] in E. injection E as -> -> -> _.
  destruct t; [|discriminate D]. injection D as <-. rewrite H in *. match goal with N : forall z, _ <> _ |- _ => exact (N _ eq_refl) end.
Qed.
Lemma t_popf len t R : ~ 0 <= cpu a <= 2 -> ~ isa inp svc p len a (0x9D :: t) R.
Proof.
  intros H HI. rule HI D. unfold decode_stack in D. destruct (p_os p); [discriminate D|]. destruct t; [|discriminate D]. injection D as <-.
  match goal with N : _ -> 0 <= cpu a <= 2 |- _ => exact (H (N eq_refl)) end.
Qed.
Lemma t_loop len op t R : p_as p = true -> In op [0xE0; 0xE1; 0xE2] -> ~ isa inp svc p len a (op :: t) R.
Proof.
  intros H Q HI. cbn [In] in Q. repeat (destruct Q as [<-|Q]; [solve [rule HI D; unfold step_jump in D; rewrite H in D; destruct (p_os p); discriminate D]|]). contradiction.
Qed.
Lemma t_jcxz len t R : p_os p <> p_as p -> ~ isa inp svc p len a (0xE3 :: t) R.
Proof.
  intros H HI. apply eqb_false_iff in H. rule HI D. unfold step_jump in D. rewrite H in D. destruct (p_os p); discriminate D.
Qed.
Lemma t_str len op t o w R : decode_str67 p [op] = Some (o, w) -> (~ within67 o w (if p_rep p =? 0 then 1 else Z.to_nat (reg 32 CX a)) a \/ (p_rep p <> 0 /\ 65536 <= reg 32 CX a)) -> ~ isa inp svc p len a (op :: t) R.
Proof.
  intros H Q HI. assert (Ha : p_as p = true) by (unfold decode_str67 in H; destruct (p_as p); [reflexivity|discriminate]).
  assert (HL : In op [0x6C; 0x6D; 0x6E; 0x6F; 0xA4; 0xA5; 0xA6; 0xA7; 0xAA; 0xAB; 0xAC; 0xAD; 0xAE; 0xAF]).
  { unfold decode_str67, decode_str in H. rewrite Ha in H. cbn [p_as] in H. clear -H. destruct op as [|q|q]; try discriminate H.
    do 8 (try (destruct q as [q|q|]; try discriminate H)); cbn [In]; tauto. }
  assert (K : decode_str67 p (op :: t) = Some (o, w) \/ decode_str67 p (op :: t) = None).
  { cbn [In] in HL. destruct t as [|c t]; [left; exact H|right]. unfold decode_str67, decode_str. rewrite Ha. cbn [p_as]. repeat (destruct HL as [<-|HL]; [reflexivity|]). contradiction. }
  assert (KK : forall o' w', decode_str67 p (op :: t) = Some (o', w') -> within67 o' w' (if p_rep p =? 0 then 1 else Z.to_nat (reg 32 CX a)) a -> (p_rep p <> 0 -> reg 32 CX a < 65536) -> False).
  { intros o' w' D1 D2 D3. destruct K as [K|K]; [|congruence]. rewrite D1 in K. injection K as -> ->. destruct Q as [Q|[Q1 Q2]]; [auto|]. specialize (D3 Q1). lia. }
  clear K H Q. cbn [In] in HL. repeat (destruct HL as [<-|HL]; [solve [rule HI D; first [eapply KK; eassumption | unfold decode_str in D; rewrite Ha in D; discriminate D]]|]). contradiction.
Qed.
End Tight.
