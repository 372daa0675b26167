(** No instruction on the list of exceptions (SpecOutside.v) is a step of the reference machine (SpecIsa.v) (C87): the remaining entries, and the list as a whole. *)
From Verif Require Import Base Cpu Alu Ops Machine Spec SpecOps SpecOps2 SpecSys SpecMul SpecBcd SpecDbl SpecStr SpecStr2 SpecRun SpecTop SpecStop SpecEa SpecUb SpecIsa SpecRefuse SpecOutside PTight PTight2 PTight3.
Local Open Scope Z_scope.

Section Tight.
Context (inp : list ioev -> Z -> Z -> Z) (svc : Z -> Z -> arch -> arch) (p : pfx) (a : arch).
Ltac kd D := first
  [ discriminate D
  | solve [exfalso; unfold decode_muldiv in D; match type of D with context [parse_rm p a ?t] => destruct (parse_rm p a t) as [[[? ?] [|? ?]]|] end; try discriminate D; match type of D with context [4 <=? ?x] => destruct (4 <=? x); discriminate D end]
  | solve [exfalso; unfold decode_dbl in D; match type of D with context [parse_rm p a ?t] => destruct (parse_rm p a t) as [[[? ?] ?]|] end; discriminate D]
  | solve [exfalso; unfold decode_str67, decode_str in D; cbn [p_as] in D; destruct (p_as p); discriminate D]
  | solve [exfalso; unfold decode_stack in D; destruct (p_os p); discriminate D]
  | solve [exfalso; unfold step_jump in D; destruct (p_os p), (p_as p); discriminate D]
  | solve [exfalso; match type of D with context [_ :: ?t] => destruct t as [|? ?]; first [discriminate D | destruct (p_os p); discriminate D] end] ].
Ltac rule HI D := apply isa_step in HI; destruct HI as [? ? ? ? D ?|? D|? ? ? ? D ?|? ? ? ? ? D ?|? ? ? D ?|? ? ? D ? ? ?|? D|? D ? ?|? D|? D|? D|D|? D|? ? D|? ? D ? ?|? D|? D]; try (kd D).
Ltac par D P := match type of D with context [match parse_rm p a ?t with _ => _ end] => destruct (parse_rm p a t) as [[[? ?] ?]|] eqn:P; [|discriminate D] end.
Section Code.
Context (len : Z) (t j : list Z) (R : arch -> Prop).
Lemma t_sreg op : In op [0x8C; 0x8E] -> 6 <= reg_field (t ++ j) \/ (op = 0x8E /\ reg_field (t ++ j) = 1) -> ~ isa inp svc p len a (op :: t) R.
Proof.
  intros Q F HI. cbn [In] in Q. destruct Q as [<-|[<-|[]]].
  - rule HI D. unfold step_mov in D. cbv zeta in D. change (142 =? _) with false in D. cbn -[Z.ltb] in D.
    par D P. pose proof (parse_reg p a _ _ _ _ j P) as G. destruct l; [|discriminate D].
    destruct F as [F|[F _]]; [|discriminate F]. replace (5 <? z) with true in D by lia. rewrite orb_true_r in D. discriminate D.
  - rule HI D. unfold step_mov in D. cbv zeta in D. cbn -[Z.ltb Z.eqb] in D. change (142 =? 142) with true in D. change (142 =? 140) with false in D.
    repeat match type of D with context [(142 =? ?x)] => let v := eval vm_compute in (142 =? x) in change (142 =? x) with v in D end. cbn [andb] in D.
    repeat match type of D with context [(?x <=? ?y)] => let v := eval vm_compute in (x <=? y) in first [constr_eq v true|constr_eq v false]; change (x <=? y) with v in D end. cbn [andb] in D.
    par D P. pose proof (parse_reg p a _ _ _ _ j P) as G. destruct l; [|discriminate D].
    destruct F as [F|[_ F]].
    + replace (5 <? z) with true in D by lia. rewrite orb_true_r in D. discriminate D.
    + replace (z =? 1) with true in D by lia. rewrite orb_true_r in D. discriminate D.
Qed.
Lemma t_group op : In op [0x8F; 0xC6; 0xC7] -> reg_field (t ++ j) <> 0 -> ~ isa inp svc p len a (op :: t) R.
Proof.
  intros Q F HI. cbn [In] in Q. destruct Q as [<-|[<-|[<-|[]]]].
  - rule HI D. unfold decode_stack in D. destruct (p_os p); [discriminate D|]. change (match parse_rm p a t with Some (rg, r, []) => if rg =? 0 then Some (K_PopRM r) else None | _ => None end = Some k) in D.
    par D P. pose proof (parse_reg p a _ _ _ _ j P) as G. destruct l; [|discriminate D]. replace (z =? 0) with false in D by lia. discriminate D.
  - rule HI D. change (match parse_rm p a t with Some (rg, r, t') => if rg =? 0 then after (imm 8 t') (fun i => Some (wr_rm 8 r i a)) else None | None => None end = Some x) in D.
    par D P. pose proof (parse_reg p a _ _ _ _ j P) as G. replace (z =? 0) with false in D by lia. discriminate D.
  - rule HI D. change (match parse_rm p a t with Some (rg, r, t') => if rg =? 0 then after (imm (osz p) t') (fun i => Some (wr_rm (osz p) r i a)) else None | None => None end = Some x) in D.
    par D P. pose proof (parse_reg p a _ _ _ _ j P) as G. replace (z =? 0) with false in D by lia. discriminate D.
Qed.
(** The group FF. *)
Lemma unary_FF x : decode_unary p a (0xFF :: t) = Some x -> reg_field (t ++ j) = 0 \/ reg_field (t ++ j) = 1.
Proof.
  intros D. unfold decode_unary in D. cbn -[Z.eqb] in D. par D P. rewrite (parse_reg p a _ _ _ _ j P). destruct l; [|discriminate D].
  destruct (z =? 0) eqn:?; [lia|]. destruct (z =? 1) eqn:?; [lia|]. discriminate D.
Qed.
Lemma t_push32 : p_os p = true -> reg_field (t ++ j) = 6 -> ~ isa inp svc p len a (0xFF :: t) R.
Proof.
  intros H F HI. rule HI D.
  - apply unary_FF in D. lia.
  - unfold decode_stack in D. rewrite H in D. discriminate D.
  - unfold step_jump in D. rewrite H in D. destruct (p_as p); discriminate D.
Qed.
Lemma t_call u v r k : t ++ j = u ++ v -> len = k + blen (0xFF :: t) -> parse_rm p a u = Some (2, r, []) -> rd_rm 16 r (push16 (low 16 (r_ip a + k + blen (0xFF :: u))) a) <> rd_rm 16 r a -> ~ isa inp svc p len a (0xFF :: t) R.
Proof.
  intros E L U N HI. pose proof (parse_reg p a _ _ _ _ v U) as GU. rewrite <- E in GU. rule HI D.
  - apply unary_FF in D. lia.
  - unfold decode_stack in D. destruct (p_os p); [discriminate D|]. change (match parse_rm p a t with Some (rg, r, []) => if rg =? 6 then Some (K_PushRM r) else None | _ => None end = Some k0) in D.
    par D P. pose proof (parse_reg p a _ _ _ _ j P) as G. destruct l; [|discriminate D]. replace (z =? 6) with false in D by lia. discriminate D.
  - unfold step_jump in D. destruct (p_os p); [destruct (p_as p); discriminate D|].
    assert (DD : exists q, parse_rm p a t = Some (2, q, []) /\ (rd_rm 16 q (push16 (fallthrough len a) a) =? rd_rm 16 q a) = true).
    { change (match parse_rm p a t with
      | Some (rg, r, []) =>
        if rg =? 2 then
          let a1 := push16 (fallthrough len a) a in
          if rd_rm 16 r a1 =? rd_rm 16 r a then Some (a_ip (rd_rm 16 r a) a1) else None
        else if rg =? 4 then Some (a_ip (rd_rm 16 r a) a)
        else match r with
             | RMem sg o =>
               let ip := mem 16 a (lin sg o) in let cs := mem 16 a (lin sg (low 16 (o + 2))) in
               if rg =? 3 then
                 Some (far cs ip (push16 (fallthrough len a) (push16 (r_cs a) a)))
               else if rg =? 5 then Some (far cs ip a)
               else None
             | RReg _ => None
             end
      | _ => None
      end = Some x) in D.
      par D P. pose proof (parse_reg p a _ _ _ _ j P) as G. destruct l; [|discriminate D]. assert (Hz : z = 2) by lia. rewrite Hz in D. change (2 =? 2) with true in D. cbv zeta iota in D.
      exists r0. split; [congruence|]. destruct (_ =? _); [reflexivity|discriminate D]. }
    destruct DD as (q & P & Q). destruct (same_parse p a t u j v E _ _ _ _ _ _ P U) as (_ & -> & El). cbn [app] in El. rewrite El in E. apply app_inv_tail in E. subst u.
    apply Z.eqb_eq in Q. apply N. rewrite <- Q. unfold fallthrough. rewrite L. do 3 f_equal. lia.
Qed.
End Code.

(** Entries given by a decoder. *)
Section Two.
Context (len : Z) (R : arch -> Prop) (t t0 j j0 : list Z) (E : t ++ j = t0 ++ j0).
Lemma alu_sbb op x : decode_alu p a (op :: t0) = Some (3, 32, x, 0xFFFFFFFF) -> In op [0x18; 0x19; 0x1A; 0x1B; 0x1C; 0x1D; 0x80; 0x81; 0x83].
Proof.
  unfold decode_alu. cbv zeta. cbn [In].
  assert (A : forall b, (if (0 <=? op) && (op <? 64) then match op mod 8 with
      | 0 => match parse_rm p a t0 with Some (rg, r, rest) => ifrest rest (op / 8, 8, r, reg 8 rg a) | None => None end
      | 1 => match parse_rm p a t0 with Some (rg, r, rest) => ifrest rest (op / 8, osz p, r, reg (osz p) rg a) | None => None end
      | 2 => match parse_rm p a t0 with Some (rg, r, rest) => ifrest rest (op / 8, 8, RReg rg, rd_rm 8 r a) | None => None end
      | 3 => match parse_rm p a t0 with Some (rg, r, rest) => ifrest rest (op / 8, osz p, RReg rg, rd_rm (osz p) r a) | None => None end
      | 4 => match imm 8 t0 with Some i => Some (op / 8, 8, RReg AX, i) | None => None end
      | 5 => match imm (osz p) t0 with Some i => Some (op / 8, osz p, RReg AX, i) | None => None end
      | _ => None end else b) = Some (3, 32, x, 0xFFFFFFFF) -> (b = Some (3, 32, x, 0xFFFFFFFF)) \/ (24 <= op <= 29)).
  { intros b. destruct ((0 <=? op) && (op <? 64)) eqn:B; [|auto]. intros H. right.
    assert (F : op / 8 = 3 /\ op mod 8 < 6).
    { assert (M : In (op mod 8) [0;1;2;3;4;5;6;7]) by (pose proof (Z.mod_pos_bound op 8 ltac:(lia)); cbn [In]; lia).
      unfold ifrest in H. cbn [In] in M. repeat (destruct M as [M|M]; [rewrite <- M in *; repeat match type of H with context [match ?d with _ => _ end] => destruct d end; try discriminate H; (split; [congruence|lia])|]). contradiction. }
    destruct F as [F1 F2]. pose proof (Z.div_mod op 8 ltac:(lia)). pose proof (Z.mod_pos_bound op 8 ltac:(lia)). lia. }
  intros H. apply A in H. destruct H as [H|H]; [|lia]. clear A.
  destruct (Z.eq_dec op 128); [lia|]. destruct (Z.eq_dec op 129); [lia|]. destruct (Z.eq_dec op 131); [lia|]. exfalso.
  assert (B : op = 132 \/ op = 133 \/ op = 168 \/ op = 169 \/ op = 246 \/ op = 247 \/ ~ In op [128;129;131;132;133;168;169;246;247]) by (cbn [In]; lia).
  unfold ifrest in H. repeat (destruct B as [->|B]; [cbn -[Z.eqb imm parse_rm reg rd_rm osz low signed] in H; try (destruct (parse_rm p a t0) as [[[? ?] ?]|]; [|discriminate H]); try (match type of H with context [if ?z =? 0 then _ else _] => destruct (z =? 0) end); repeat match type of H with context [match ?d with _ => _ end] => destruct d end; discriminate H|]).
  cbn [In] in B. clear -H B. destruct op as [|q|q]; try discriminate H. do 8 (try (destruct q as [q|q|]; try discriminate H)); apply B; tauto.
Qed.
Lemma t_sbb op x : decode_alu p a (op :: t0) = Some (3, 32, x, 0xFFFFFFFF) -> flag CF (r_flags a) = true -> ~ isa inp svc p len a (op :: t) R.
Proof.
  intros H Hf HI. pose proof (alu_sbb op x H) as Q.
  assert (K : forall k w d s, decode_alu p a (op :: t) = Some (k, w, d, s) -> (k = 3 -> sbb_cf_wrong w s (b2z (flag CF (r_flags a))) = false) -> False).
  { intros k w d s D N. pose proof (same_alu p a t t0 j j0 E op _ _ Q D H) as Z. injection Z as -> -> -> ->. specialize (N eq_refl). rewrite Hf in N. discriminate N. }
  clear H. cbn [In] in Q. repeat (destruct Q as [<-|Q]; [solve [rule HI D; eapply K; eassumption]|]). contradiction.
Qed.
Lemma t_shift op o w r c : decode_shift p a (op :: t0) = Some (o, w, r, c) -> ~ shift_count_ok o w c -> ~ isa inp svc p len a (op :: t) R.
Proof.
  intros H N HI. assert (Q : In op [0xC0; 0xC1; 0xD0; 0xD1; 0xD2; 0xD3]).
  { cbn [In]. clear -H. unfold decode_shift in H. destruct op as [|q|q]; try discriminate H. do 8 (try (destruct q as [q|q|]; try discriminate H)); tauto. }
  assert (K : forall o' w' r' c', decode_shift p a (op :: t) = Some (o', w', r', c') -> shift_count_ok o' w' c' -> False).
  { intros o' w' r' c' D S. pose proof (same_shift p a t t0 j j0 E op _ _ Q D H) as Z. injection Z as -> -> -> ->. auto. }
  clear H. cbn [In] in Q. repeat (destruct Q as [<-|Q]; [solve [rule HI D; eapply K; eassumption]|]). contradiction.
Qed.
Lemma t_double op l w r s n : decode_dbl p a (0x0F :: op :: t0) = Some (l, w, r, s, n) -> ~ dbl_supported w r s n -> ~ isa inp svc p len a (0x0F :: op :: t) R.
Proof.
  intros H N HI. assert (Q : In op [0xA4; 0xA5; 0xAC; 0xAD]).
  { cbn [In]. clear -H. unfold decode_dbl in H. destruct op as [|q|q]; try (destruct (parse_rm p a t0) as [[[? ?] ?]|]; discriminate H).
    do 8 (try (destruct q as [q|q|]; try (destruct (parse_rm p a t0) as [[[? ?] ?]|]; discriminate H))); tauto. }
  assert (K : forall l' w' r' s' n', decode_dbl p a (0x0F :: op :: t) = Some (l', w', r', s', n') -> dbl_supported w' r' s' n' -> False).
  { intros l' w' r' s' n' D S. pose proof (same_dbl p a t t0 j j0 E op _ _ Q D H) as Z. injection Z as -> -> -> -> ->. auto. }
  clear H. cbn [In] in Q. repeat (destruct Q as [<-|Q]; [solve [rule HI D; eapply K; eassumption]|]). contradiction.
Qed.
Lemma t_imul2 op d x y : decode_imul2 p a (op :: t0) = Some (d, x, y) -> op <> 15 -> 32768 <= x \/ 32768 <= y \/ 65536 <= x * y -> ~ isa inp svc p len a (op :: t) R.
Proof.
  intros H N0 N HI. assert (Q : In op [0x69; 0x6B]).
  { cbn [In]. clear -H N0. unfold decode_imul2 in H. destruct op as [|q|q]; try discriminate H. do 8 (try (destruct q as [q|q|]; try discriminate H)); try tauto; exfalso; apply N0; reflexivity. }
  assert (K : forall d' x' y', decode_imul2 p a (op :: t) = Some (d', x', y') -> x' < 32768 -> y' < 32768 -> x' * y' < 65536 -> False).
  { intros d' x' y' D S1 S2 S3. pose proof (same_imul2 p a t t0 j j0 E op _ _ Q D H) as Z. injection Z as -> -> ->. lia. }
  clear H N0. cbn [In] in Q. repeat (destruct Q as [<-|Q]; [solve [rule HI D; eapply K; eassumption]|]). contradiction.
Qed.
Lemma t_imul2F d x y : decode_imul2 p a (0x0F :: 0xAF :: t0) = Some (d, x, y) -> 32768 <= x \/ 32768 <= y \/ 65536 <= x * y -> ~ isa inp svc p len a (0x0F :: 0xAF :: t) R.
Proof.
  intros H N HI. rule HI D. pose proof (same_imul2F p a t t0 j j0 E _ _ D H) as Z. injection Z as -> -> ->. lia.
Qed.
Lemma t_idiv op w r : decode_muldiv p a (op :: t0) = Some (7, w, r) -> (w = 32 /\ idiv_effect w (rd_rm w r a) a <> None) \/ (w <> 8 /\ most_negative_by_minus_one w (rd_rm w r a) a) -> ~ isa inp svc p len a (op :: t) R.
Proof.
  intros H N HI. assert (Q : (op = 0xF6 \/ op = 0xF7) /\ reg_field (t ++ j) = 7).
  { pose proof H as H0. unfold decode_muldiv in H. destruct (parse_rm p a t0) as [[[rg q] [|? ?]]|] eqn:P; try discriminate H. rewrite E, (parse_reg p a _ _ _ _ j0 P). destruct (4 <=? rg); [|discriminate H].
    destruct (Z.eqb_spec op 0xF6); [split; [auto|congruence]|]. destruct (Z.eqb_spec op 0xF7); [split; [auto|congruence]|discriminate H]. }
  destruct Q as [Q G].
  assert (K : forall rg' w' r', decode_muldiv p a (op :: t) = Some (rg', w', r') -> ~ idiv_out a rg' w' r' -> False).
  { intros rg' w' r' D S. pose proof (same_muldiv p a t t0 j j0 E op _ _ D H) as Z. injection Z as -> -> ->. apply S. split; [reflexivity|exact N]. }
  clear H. destruct Q as [->| ->]; (rule HI D; [| |eapply K; eassumption]).
  1,3: exfalso; unfold decode_alu in D; cbv zeta in D; cbn -[Z.eqb imm] in D; par D P; rewrite (parse_reg p a _ _ _ _ j P) in G; replace (z =? 0) with false in D by lia; discriminate D.
  all: exfalso; unfold decode_unary in D; cbn -[Z.eqb] in D; par D P; rewrite (parse_reg p a _ _ _ _ j P) in G; destruct l; [|discriminate D]; replace (z =? 2) with false in D by lia; replace (z =? 3) with false in D by lia; discriminate D.
Qed.
End Two.
(** ** The list as a whole *)
Theorem outside_isa k len bs i j R : (forall b, In b bs -> 0 <= b < 256) -> bs = i ++ j -> len = k + blen i -> outside p k a bs -> isa inp svc p len a i R -> False.
Proof.
  intros Hb E L HO HI.
  assert (C1 : forall op t, bs = op :: t -> exists u, i = op :: u /\ t = u ++ j).
  { intros op t Q. destruct i as [|o u]; [exfalso; exact (none_nil _ _ _ _ _ _ HI)|]. rewrite Q in E. cbn [app] in E. injection E as <- E. eauto. }
  assert (C2 : forall op t, bs = 15 :: op :: t -> exists u, i = 15 :: op :: u /\ t = u ++ j).
  { intros op t Q. destruct (C1 _ _ Q) as (u & -> & Eu). destruct u as [|o u]; [exfalso; exact (none_0F _ _ _ _ _ _ HI)|]. cbn [app] in Eu. injection Eu as <- Eu. eauto. }
  assert (C3 : forall i0 j0, bs = i0 ++ j0 -> i0 <> [] -> exists op u t, i = op :: u /\ i0 = op :: t /\ u ++ j = t ++ j0).
  { intros i0 j0 Q Hn. destruct i0 as [|o t]; [contradiction|]. destruct (C1 o (t ++ j0) Q) as (u & Ei & Eu). exists o, u, t. auto. }
  destruct HO as [bs wide t M N S|t N|bs wide b u x r M N H1 H2 H3 H4|op t o r H1 H2 H3 H4|t N|t rg sg o rest H1 H2 H3|i0 j0 dst D F|i0 j0 op w r c D F|i0 j0 l w r s n D F|i0 j0 d x y D F|i0 j0 w r D F|t H1|t H1|op t H1 H2|op t H1 H2|t H1 H2|s0 s1 lv t H1|t H1|op t H1 H2|op t H1 H2|op t H1 H2|t H1|u v r U N|op t H1 H2|op t H1 H2|o w op t H1 H2].
  - eapply x_address; [exact Hb|exact E|exact HI|exact M|exact N|exact S].
  - eapply x_lea; [exact E|exact HI|reflexivity|exact N].
  - eapply x_beyond; [exact Hb|exact E|exact HI|exact M|exact N|exact H1|exact H2|exact H3|exact H4].
  - destruct (C1 _ _ eq_refl) as (u & -> & ->). refine (t_moffs _ _ _ _ _ _ _ _ _ _ j H1 _ H3 H4 HI). cbn [In]. lia.
  - destruct (C1 _ _ eq_refl) as (u & -> & ->). exact (t_xlat _ _ _ _ _ _ _ N HI).
  - eapply x_far; [exact Hb|exact E|exact HI|reflexivity|exact H2|exact H3].
  - destruct (C3 _ _ eq_refl ltac:(intros ->; discriminate D)) as (op & u & t & -> & -> & Eu). exact (t_sbb len R u t j j0 Eu op _ D F HI).
  - destruct (C3 _ _ eq_refl ltac:(intros ->; discriminate D)) as (o & u & t & -> & -> & Eu). exact (t_shift len R u t j j0 Eu o _ _ _ _ D F HI).
  - destruct i0 as [|o i0]; [discriminate D|]. destruct i0 as [|o2 t]; [exfalso; clear -D; destruct o as [|q|q]; try discriminate D; do 8 (try (destruct q as [q|q|]; try discriminate D))|].
    assert (o = 15) by (clear -D; destruct o as [|q|q]; try discriminate D; do 8 (try (destruct q as [q|q|]; try discriminate D)); reflexivity). subst o.
    destruct (C2 o2 (t ++ j0) eq_refl) as (u & -> & Eu). symmetry in Eu. exact (t_double len R u t j j0 Eu o2 _ _ _ _ _ D F HI).
  - destruct (C3 _ _ eq_refl ltac:(intros ->; discriminate D)) as (o & u & t & Ei & -> & Eu). destruct (Z.eq_dec o 15) as [->|Ho].
    + destruct t as [|o2 t]; [discriminate D|]. destruct (C2 o2 (t ++ j0) eq_refl) as (u2 & Ei2 & Eu2). symmetry in Eu2. rewrite Ei2 in HI.
      assert (o2 = 0xAF) by (clear -D; destruct o2 as [|q|q]; try discriminate D; do 8 (try (destruct q as [q|q|]; try discriminate D)); reflexivity). subst o2.
      exact (t_imul2F len R u2 t j j0 Eu2 _ _ _ D F HI).
    + rewrite Ei in HI. exact (t_imul2 len R u t j j0 Eu o _ _ _ D Ho F HI).
  - destruct (C3 _ _ eq_refl ltac:(intros ->; discriminate D)) as (o & u & t & -> & -> & Eu). exact (t_idiv len R u t j j0 Eu o _ _ D F HI).
  - destruct (C1 _ _ eq_refl) as (u & -> & ->). refine (t_os1 _ _ _ _ _ 0x98 u _ H1 _ HI). cbn [In]. tauto.
  - destruct (C2 _ _ eq_refl) as (u & -> & ->). refine (t_os2 _ _ _ _ _ 0xBC u _ H1 _ HI). cbn [In]. tauto.
  - destruct (C1 _ _ eq_refl) as (u & -> & ->). refine (t_os1 _ _ _ _ _ op u _ H1 _ HI). cbn [In] in *. tauto.
  - destruct (C2 _ _ eq_refl) as (u & -> & ->). refine (t_os2 _ _ _ _ _ op u _ H1 _ HI). cbn [In] in *. tauto.
  - destruct (C1 _ _ eq_refl) as (u & -> & ->). exact (t_push32 len u j R H1 H2 HI).
  - destruct (C1 _ _ eq_refl) as (u & -> & Eu). symmetry in Eu. exact (t_enter _ _ _ _ _ u j s0 s1 lv t R Eu H1 HI).
  - destruct (C1 _ _ eq_refl) as (u & -> & ->). exact (t_popf _ _ _ _ _ _ _ H1 HI).
  - destruct (C1 _ _ eq_refl) as (u & -> & ->). refine (t_os1 _ _ _ _ _ op u _ H1 _ HI). cbn [In] in *. tauto.
  - destruct (C2 _ _ eq_refl) as (u & -> & ->). refine (t_os2 _ _ _ _ _ op u _ H1 _ HI). cbn [In]. lia.
  - destruct (C1 _ _ eq_refl) as (u & -> & ->). refine (t_loop _ _ _ _ _ op u _ H1 _ HI). cbn [In]. lia.
  - destruct (C1 _ _ eq_refl) as (u & -> & ->). exact (t_jcxz _ _ _ _ _ _ _ H1 HI).
  - destruct (C1 _ _ eq_refl) as (u1 & -> & Eu). symmetry in Eu. exact (t_call len u1 j R u v r k Eu L U N HI).
  - destruct (C1 _ _ eq_refl) as (u & -> & ->). exact (t_sreg len u j R op H1 H2 HI).
  - destruct (C1 _ _ eq_refl) as (u & -> & ->). exact (t_group len u j R op H1 H2 HI).
  - destruct (C1 _ _ eq_refl) as (u & -> & ->). exact (t_str _ _ _ _ _ _ _ _ _ _ H1 H2 HI).
Qed.
End Tight.
