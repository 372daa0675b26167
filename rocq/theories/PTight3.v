(** No instruction on the list of exceptions (SpecOutside.v) is a step of the reference machine (SpecIsa.v) (C87): operand conditions, and all together. *)
From Verif Require Import Base Cpu Alu Ops Machine Spec SpecOps SpecOps2 SpecSys SpecMul SpecBcd SpecDbl SpecStr SpecStr2 SpecRun SpecTop SpecStop SpecEa SpecUb SpecIsa SpecRefuse SpecOutside PTight PTight2.
Local Open Scope Z_scope.

Lemma app_inj_len (l l0 j j0 : list Z) : l ++ j = l0 ++ j0 -> length l = length l0 -> l = l0 /\ j = j0.
Proof.
  revert l0. induction l as [|x l IH]; intros [|y l0] H L; try discriminate L; [auto|]. cbn [app] in H. injection H as -> H. injection L as L. destruct (IH l0 H L) as [-> ->]. auto.
Qed.
Section Tight.
Context (inp : list ioev -> Z -> Z -> Z) (svc : Z -> Z -> arch -> arch) (p : pfx) (a : arch).
Ltac kd D := first
  [ discriminate D
  | solve [exfalso; unfold decode_muldiv in D; match type of D with context [parse_rm p a ?t] => destruct (parse_rm p a t) as [[[? ?] [|? ?]]|] end; try discriminate D; match type of D with context [4 <=? ?x] => destruct (4 <=? x); discriminate D end]
  | solve [exfalso; unfold decode_dbl in D; match type of D with context [parse_rm p a ?t] => destruct (parse_rm p a t) as [[[? ?] ?]|] end; discriminate D]
  | solve [exfalso; unfold decode_str67, decode_str in D; cbn [p_as] in D; destruct (p_as p); discriminate D]
  | solve [exfalso; unfold decode_stack in D; destruct (p_os p); discriminate D]
  | solve [exfalso; unfold step_jump in D; destruct (p_os p), (p_as p); discriminate D]
  | solve [exfalso; match type of D with context [_ :: ?t] => destruct t as [|? ?]; first [discriminate D | destruct (p_os p); discriminate D] end] ].
Ltac rule HI D := apply isa_step in HI; destruct HI as [? ? ? ? D ?|? D|? ? ? ? D ?|? ? ? ? ? D ?|? ? ? D ?|? ? ? D ? ? ?|? D|? D ? ?|? D|? D|? D|D|? D|? ? D|? ? D ? ?|? D|? D]; try (kd D).
Lemma parse_reg t rg r l j : parse_rm p a t = Some (rg, r, l) -> reg_field (t ++ j) = rg.
Proof.
  destruct t as [|b u]; [discriminate|]. cbn [parse_rm app reg_field]. cbv zeta. destruct (b / 64 =? 3); [intros [= <- _ _]; reflexivity|]. destruct (p_as p).
  - destruct (snd _) as [[z q]|]; [|discriminate]. destruct (low 32 z <? 65536); [|discriminate]. intros [= <- _ _]. reflexivity.
  - destruct (disp _ _ _) as [[d q]|]; [|discriminate]. intros [= <- _ _]. reflexivity.
Qed.
Lemma imm_same w l l0 j j0 v v0 : imm w l = Some v -> imm w l0 = Some v0 -> l ++ j = l0 ++ j0 -> v = v0.
Proof.
  intros H H0 E. assert (L : length l = length l0).
  { unfold imm in H, H0. destruct l as [|? [|? [|? [|? [|? ?]]]]]; try discriminate H; destruct l0 as [|? [|? [|? [|? [|? ?]]]]]; try discriminate H0; try reflexivity; exfalso;
    repeat match type of H with context [if ?c then _ else _] => destruct c eqn:? end; try discriminate H; repeat match type of H0 with context [if ?c then _ else _] => destruct c eqn:? end; try discriminate H0; lia. }
  apply app_inj_len in E; [|exact L]. destruct E as [-> _]. congruence.
Qed.

(** Two prefixes of the same code: the operands are the same. *)
Section Two.
Context (t t0 j j0 : list Z) (E : t ++ j = t0 ++ j0).
Lemma same_parse rg r l rg0 r0 l0 : parse_rm p a t = Some (rg, r, l) -> parse_rm p a t0 = Some (rg0, r0, l0) -> rg = rg0 /\ r = r0 /\ l ++ j = l0 ++ j0.
Proof. intros H H0. apply (parse_app _ _ _ _ _ _ j) in H. apply (parse_app _ _ _ _ _ _ j0) in H0. rewrite E in H. rewrite H in H0. injection H0 as -> -> ->. auto. Qed.
Ltac pr D P := match type of D with context [match parse_rm p a t with _ => _ end] => destruct (parse_rm p a t) as [[[? ?] ?]|] eqn:P; [|discriminate D] end.
Ltac pr0 D P := match type of D with context [match parse_rm p a t0 with _ => _ end] => destruct (parse_rm p a t0) as [[[? ?] ?]|] eqn:P; [|discriminate D] end.
Ltac both D D0 El := let P := fresh "P" in let P0 := fresh "P0" in pr D P; pr0 D0 P0; destruct (same_parse _ _ _ _ _ _ P P0) as (-> & -> & El).
Lemma same_alu op x x0 : In op [0x18; 0x19; 0x1A; 0x1B; 0x1C; 0x1D; 0x80; 0x81; 0x83] -> decode_alu p a (op :: t) = Some x -> decode_alu p a (op :: t0) = Some x0 -> x = x0.
Proof.
  intros Q D D0. cbn [In] in Q.
  assert (A : forall w k, match imm w t with Some i => Some (k, w, RReg AX, i) | None => None end = Some x -> match imm w t0 with Some i => Some (k, w, RReg AX, i) | None => None end = Some x0 -> x = x0).
  { intros w k H H0. destruct (imm w t) eqn:I1; [|discriminate H]. destruct (imm w t0) eqn:I2; [|discriminate H0]. rewrite (imm_same _ _ _ _ _ _ _ I1 I2 E) in H. congruence. }
  assert (B : forall w iw k, match parse_rm p a t with Some (rg, r, rest) => match Some rg, imm iw rest with Some k, Some i => Some (k, w, r, if iw =? w then i else low w (signed iw i)) | _, _ => None end | None => None end = Some x ->
     match parse_rm p a t0 with Some (rg, r, rest) => match Some rg, imm iw rest with Some k, Some i => Some (k, w, r, if iw =? w then i else low w (signed iw i)) | _, _ => None end | None => None end = Some x0 -> k = 0 -> x = x0).
  { intros w iw k H H0 _. both H H0 El. match type of H with context [imm iw ?l] => destruct (imm iw l) eqn:I1; [|discriminate H] end. match type of H0 with context [imm iw ?l] => destruct (imm iw l) eqn:I2; [|discriminate H0] end.
    rewrite (imm_same _ _ _ _ _ _ _ I1 I2 El) in H. congruence. }
  assert (C : forall f : Z -> rm -> Z * Z * rm * Z, match parse_rm p a t with Some (rg, r, rest) => ifrest rest (f rg r) | None => None end = Some x ->
     match parse_rm p a t0 with Some (rg, r, rest) => ifrest rest (f rg r) | None => None end = Some x0 -> x = x0).
  { intros f H H0. both H H0 El. unfold ifrest in H, H0. repeat match goal with l : list Z |- _ => match type of H with context [match l with _ => _ end] => destruct l; [|discriminate H] end end.
    repeat match goal with l : list Z |- _ => match type of H0 with context [match l with _ => _ end] => destruct l; [|discriminate H0] end end. congruence. }
  destruct Q as [<-|[<-|[<-|[<-|[<-|[<-|[<-|[<-|[<-|[]]]]]]]]]].
  - exact (C (fun rg r => (3, 8, r, reg 8 rg a)) D D0).
  - exact (C (fun rg r => (3, osz p, r, reg (osz p) rg a)) D D0).
  - exact (C (fun rg r => (3, 8, RReg rg, rd_rm 8 r a)) D D0).
  - exact (C (fun rg r => (3, osz p, RReg rg, rd_rm (osz p) r a)) D D0).
  - exact (A 8 3 D D0).
  - exact (A (osz p) 3 D D0).
  - exact (B 8 8 0 D D0 eq_refl).
  - exact (B (osz p) (osz p) 0 D D0 eq_refl).
  - exact (B (osz p) 8 0 D D0 eq_refl).
Qed.
Ltac ends D := repeat match type of D with context [match ?l with [] => _ | _ :: _ => _ end] => destruct l as [|? ?]; try discriminate D end.
Lemma same_shift op x x0 : In op [0xC0; 0xC1; 0xD0; 0xD1; 0xD2; 0xD3] -> decode_shift p a (op :: t) = Some x -> decode_shift p a (op :: t0) = Some x0 -> x = x0.
Proof.
  intros Q D D0. cbn [In] in Q. unfold decode_shift in D, D0.
  repeat (destruct Q as [<-|Q]; [solve [both D D0 El; ends D; ends D0; cbn [app] in El; congruence]|]). contradiction.
Qed.
Lemma same_dbl op x x0 : In op [0xA4; 0xA5; 0xAC; 0xAD] -> decode_dbl p a (0x0F :: op :: t) = Some x -> decode_dbl p a (0x0F :: op :: t0) = Some x0 -> x = x0.
Proof.
  intros Q D D0. cbn [In] in Q. unfold decode_dbl in D, D0.
  repeat (destruct Q as [<-|Q]; [solve [both D D0 El; cbn -[imm] in D, D0; first
    [ match type of D with context [imm 8 ?l] => destruct (imm 8 l) eqn:I1; [|discriminate D] end; match type of D0 with context [imm 8 ?l] => destruct (imm 8 l) eqn:I2; [|discriminate D0] end; rewrite (imm_same _ _ _ _ _ _ _ I1 I2 El) in D; cbn [after] in D, D0; congruence
    | unfold ifrest in D, D0; ends D; ends D0; congruence ]]|]). contradiction.
Qed.
Lemma same_imul2 op x x0 : In op [0x69; 0x6B] -> decode_imul2 p a (op :: t) = Some x -> decode_imul2 p a (op :: t0) = Some x0 -> x = x0.
Proof.
  intros Q D D0. cbn [In] in Q. unfold decode_imul2 in D, D0.
  repeat (destruct Q as [<-|Q]; [solve [both D D0 El; match type of D with context [imm ?w ?l] => destruct (imm w l) eqn:I1; [|discriminate D] end; match type of D0 with context [imm ?w ?l] => destruct (imm w l) eqn:I2; [|discriminate D0] end;
    rewrite (imm_same _ _ _ _ _ _ _ I1 I2 El) in D; cbn [after] in D, D0; congruence]|]). contradiction.
Qed.
Lemma same_imul2F x x0 : decode_imul2 p a (0x0F :: 0xAF :: t) = Some x -> decode_imul2 p a (0x0F :: 0xAF :: t0) = Some x0 -> x = x0.
Proof. intros D D0. unfold decode_imul2 in D, D0. both D D0 El. ends D. ends D0. congruence. Qed.
Lemma same_muldiv op x x0 : decode_muldiv p a (op :: t) = Some x -> decode_muldiv p a (op :: t0) = Some x0 -> x = x0.
Proof. intros D D0. unfold decode_muldiv in D, D0. both D D0 El. ends D. ends D0. congruence. Qed.
End Two.
End Tight.
