(** No instruction on the list of exceptions (SpecOutside.v) is a step of the reference machine (SpecIsa.v) (C87). *)
From Verif Require Import Base Cpu Alu Ops Machine Spec SpecOps SpecOps2 SpecSys SpecMul SpecBcd SpecDbl SpecStr SpecStr2 SpecRun SpecTop SpecStop SpecEa SpecUb SpecIsa SpecRefuse SpecOutside.
Local Open Scope Z_scope.

(** ** More bytes behind an operand *)
Lemma dword_app t z r x : dword t = Some (z, r) -> dword (t ++ x) = Some (z, r ++ x).
Proof. intros H. do 4 (destruct t as [|? t]; [discriminate|]). cbn [dword app] in *. injection H as <- <-. reflexivity. Qed.
Lemma disp_app md m t z r x : disp md m t = Some (z, r) -> disp md m (t ++ x) = Some (z, r ++ x).
Proof.
  unfold disp. destruct (md =? 1); [destruct t as [|? t]; [discriminate|]; intros [= <- <-]; reflexivity|]. destruct ((md =? 2) || (m =? 6)); [|intros [= <- <-]; reflexivity].
  destruct t as [|? [|? t]]; try discriminate. intros [= <- <-]. reflexivity.
Qed.
Lemma disp32_app md t z r x : disp32 md t = Some (z, r) -> disp32 md (t ++ x) = Some (z, r ++ x).
Proof.
  unfold disp32. destruct (md =? 1); [destruct t as [|? t]; [discriminate|]; intros [= <- <-]; reflexivity|]. destruct (md =? 2); [apply dword_app|intros [= <- <-]; reflexivity].
Qed.
Lemma add_disp_app z d y r : add_disp z d = Some (y, r) -> exists v, d = Some (v, r) /\ y = z + v.
Proof. destruct d as [[v q]|]; [|discriminate]. intros [= <- <-]. eauto. Qed.
Lemma ea32_app md m a t z r x : snd (ea32 md m a t) = Some (z, r) -> ea32 md m a (t ++ x) = (fst (ea32 md m a t), Some (z, r ++ x)).
Proof.
  unfold ea32. destruct (m =? 4).
  - destruct t as [|sib u]; [discriminate|]. cbn [app]. cbv zeta. destruct ((md =? 0) && (sib mod 8 =? 5)); cbn [fst snd]; intros H; apply add_disp_app in H; destruct H as (v & H & ->).
    + rewrite (dword_app _ _ _ _ H). reflexivity.
    + rewrite (disp32_app _ _ _ _ _ H). reflexivity.
  - destruct ((md =? 0) && (m =? 5)); cbn [fst snd]; intros H; [rewrite (dword_app _ _ _ _ H); reflexivity|].
    apply add_disp_app in H. destruct H as (v & H & ->). rewrite (disp32_app _ _ _ _ _ H). reflexivity.
Qed.
Lemma parse_app p a t rg r l x : parse_rm p a t = Some (rg, r, l) -> parse_rm p a (t ++ x) = Some (rg, r, l ++ x).
Proof.
  destruct t as [|b u]; [discriminate|]. cbn [parse_rm app]. cbv zeta. destruct (b / 64 =? 3); [intros [= <- <- <-]; reflexivity|]. destruct (p_as p).
  - destruct (snd (ea32 (b / 64) (b mod 8) a u)) as [[z q]|] eqn:H; [|discriminate]. rewrite (ea32_app _ _ _ _ _ _ x H). cbn [fst snd]. destruct (low 32 z <? 65536); [|discriminate]. intros [= <- <- <-]. reflexivity.
  - destruct (disp (b / 64) (b mod 8) u) as [[d q]|] eqn:H; [|discriminate]. rewrite (disp_app _ _ _ _ _ x H). intros [= <- <- <-]. reflexivity.
Qed.
Lemma sib_app md m a u z q x : snd (ea32 md m a u) = Some (z, q) -> sib_ok md m u -> sib_ok md m (u ++ x).
Proof.
  unfold sib_ok. intros Q H H4. destruct (H H4) as [H0 H5]. split; [exact H0|]. subst m. unfold ea32 in Q. change (4 =? 4) with true in Q. cbv iota in Q.
  destruct u as [|sib v]; [discriminate|]. cbn [app]. intros H6. destruct (H5 H6) as [w D]. apply (dword_app _ _ _ x) in D. eauto.
Qed.
Lemma d32_app md m a u z q x : snd (ea32 md m a u) = Some (z, q) -> disp32_ok md m u -> disp32_ok md m (u ++ x).
Proof.
  unfold disp32_ok. intros Q H H4. specialize (H H4). destruct (disp32 md u) as [[d w]|] eqn:D; [rewrite (disp32_app _ _ _ _ x D); exact H|].
  unfold ea32 in Q. replace (m =? 4) with false in Q by lia. destruct ((md =? 0) && (m =? 5)) eqn:M; [|cbn [snd] in Q; rewrite D in Q; discriminate].
  unfold disp32 in D. replace (md =? 1) with false in D by lia. replace (md =? 2) with false in D by lia. discriminate.
Qed.
Lemma ea_app p a t rg r l x : parse_rm p a t = Some (rg, r, l) -> ea_supported p a t -> ea_supported p a (t ++ x).
Proof.
  destruct t as [|b u]; [discriminate|]. cbn [parse_rm app ea_supported]. cbv zeta. intros Q H H3. specialize (H H3). replace (b / 64 =? 3) with false in Q by lia. destruct (p_as p).
  - destruct (snd (ea32 (b / 64) (b mod 8) a u)) as [[z q]|] eqn:D; [|discriminate]. destruct H as (A & B & C). split; [eapply sib_app; eauto|]. split; [eapply d32_app; eauto|].
    rewrite (ea32_app _ _ _ _ _ _ x D). exact C.
  - destruct (disp (b / 64) (b mod 8) u) as [[d q]|] eqn:D; [|discriminate]. rewrite (disp_app _ _ _ _ _ x D). exact H.
Qed.
Lemma lea_app p a t rg o x : lea_offset p a t = Some (rg, o) -> lea_supported p a t -> lea_supported p a (t ++ x).
Proof.
  destruct t as [|b u]; [discriminate|]. cbn [lea_offset app lea_supported]. cbv zeta. destruct (b / 64 =? 3); [discriminate|]. destruct (p_as p).
  - destruct (snd (ea32 (b / 64) (b mod 8) a u)) as [[z q]|] eqn:D; [|discriminate]. intros _ [A B]. split; [eapply sib_app; eauto|]. intros H. eapply d32_app; eauto.
  - destruct (disp (b / 64) (b mod 8) u) as [[d q]|] eqn:D; [|discriminate]. rewrite (disp_app _ _ _ _ _ x D). intros _ H. exact H.
Qed.
Lemma parse_lea p a t rg o x : parse_rm p a t = Some (rg, RMem o x, []) -> ea_supported p a t -> lea_supported p a t.
Proof.
  destruct t as [|b u]; [discriminate|]. cbn [parse_rm ea_supported lea_supported]. cbv zeta. destruct (Z.eqb_spec (b / 64) 3) as [H3|H3]; [discriminate|]. destruct (p_as p).
  - intros _ H. destruct (H H3) as (A & B & _). split; auto.
  - destruct (disp (b / 64) (b mod 8) u) as [[d q]|] eqn:D; [|auto]. intros _ H _. exact (proj1 (H H3)).
Qed.

(** ** Which decoders know an instruction *)
Section Tight.
Context (inp : list ioev -> Z -> Z -> Z) (svc : Z -> Z -> arch -> arch) (p : pfx) (a : arch).
Notation pd := (mkPfx (p_seg p) (p_os p) false (p_rep p)).
(** Decoders of rules that have an operand condition, and of rules that have none. *)
Definition with_operand (len : Z) (i : list Z) : Prop :=
  decode_alu p a i <> None \/ decode_unary p a i <> None \/ decode_shift p a i <> None \/ decode_dbl p a i <> None \/ decode_muldiv p a i <> None \/ decode_imul2 p a i <> None \/
  step_mov p a i <> None \/ decode_stack p a i <> None \/ step_misc p a i <> None \/ step_jump p len a i <> None.
Definition without_operand (i : list Z) : Prop :=
  step_bcd a i <> None \/ i = [0xD4; 0] \/ step_io inp p a i <> None \/ decode_str pd i <> None \/ int_number i <> None.
Definition a_lea (i : list Z) : Prop := exists t rg o, i = 0x8D :: t /\ lea_offset p a t = Some (rg, o) /\ lea_supported p a t.
Lemma str_pd i x : decode_str p i = Some x -> decode_str pd i <> None.
Proof. unfold decode_str. cbn [p_as p_os]. destruct (p_as p); [discriminate|]. unfold osz. cbn [p_os]. intros ->. discriminate. Qed.
Lemma str67_pd i x : decode_str67 p i = Some x -> decode_str pd i <> None.
Proof. unfold decode_str67. destruct (p_as p); [intros ->; discriminate|discriminate]. Qed.
Lemma isa_by len i R : isa inp svc p len a i R -> (with_operand len i /\ operand_ok p a i) \/ without_operand i \/ a_lea i.
Proof.
  unfold with_operand, without_operand, a_lea.
  intros H. destruct H; try (left; split; [|assumption]; intuition congruence).
  - right. left. left. congruence.
  - right. left. auto.
  - right. right. exists t, rg, o. auto.
  - right. left. right. right. left. congruence.
  - right. left. right. right. right. left. eapply str_pd; eauto.
  - right. left. right. right. right. left. eapply str_pd; eauto.
  - right. left. right. right. right. left. eapply str_pd; eauto.
  - right. left. right. right. right. left. eapply str67_pd; eauto.
  - right. left. right. right. right. left. eapply str67_pd; eauto.
  - right. left. right. right. right. left. eapply str67_pd; eauto.
  - right. left. right. right. right. right. congruence.
  - right. left. right. right. right. right. subst. discriminate.
  - right. left. right. right. right. right. congruence.
Qed.

(** ** Instructions with a ModR/M byte *)
Definition bytes : list Z := map Z.of_nat (seq 0 256).
Lemma in_bytes b : 0 <= b < 256 -> In b bytes.
Proof. intros H. unfold bytes. apply in_map_iff. exists (Z.to_nat b). split; [lia|]. apply in_seq. lia. Qed.
Definition L_mod : list Z := [0;1;2;3;8;9;10;11;16;17;18;19;24;25;26;27;32;33;34;35;40;41;42;43;48;49;50;51;56;57;58;59;105;107;128;129;130;131;132;133;134;135;136;137;138;139;140;141;142;143;
  192;193;196;197;198;199;208;209;210;211;246;247;254;255].
Definition L_mod2 : list Z := [182; 164; 165; 172; 173; 178; 180; 181; 175; 183; 186; 188].
Lemma modrm1 : Forall (fun op => op <> 15 -> forall t w t', has_modrm (op :: t) = Some (w, t') -> t' = t /\ has_modrm [op] = Some (w, []) /\ In op L_mod) bytes.
Proof.
  let l := eval vm_compute in bytes in change bytes with l.
  repeat (apply Forall_cons; [first [intros Hne; exfalso; apply Hne; reflexivity|intros _ t w t' H; destruct t; first [discriminate H|injection H as <- <-; split; [reflexivity|]; split; [reflexivity|cbn [L_mod In]; tauto]]]|]). apply Forall_nil.
Qed.
Lemma modrm1_ext op t w t' x : 0 <= op < 256 -> op <> 15 -> has_modrm (op :: t) = Some (w, t') -> has_modrm (op :: x) = Some (w, x) /\ In op L_mod /\ t' = t.
Proof.
  intros Hb Hn H. pose proof modrm1 as F. rewrite Forall_forall in F. destruct (F op (in_bytes op Hb) Hn t w t' H) as (E & H1 & HL). split; [|auto].
  clear -H1 HL Hn. cbn [L_mod In] in HL. repeat (destruct HL as [<-|HL]; [destruct x; vm_compute in H1; injection H1 as <-; reflexivity|]). contradiction.
Qed.
Lemma modrm2_ext op t w t' x : has_modrm (15 :: op :: t) = Some (w, t') -> has_modrm (15 :: op :: x) = Some (w, x) /\ In op L_mod2 /\ t' = t.
Proof.
  unfold has_modrm. destruct ((op =? 182) || (op =? 164) || (op =? 165) || (op =? 172) || (op =? 173) || (op =? 178) || (op =? 180) || (op =? 181)) eqn:H1.
  - intros [= <- <-]. split; [reflexivity|]. split; [cbn [L_mod2 In]; lia|reflexivity].
  - destruct ((op =? 175) || (op =? 183) || (op =? 186) || (op =? 188)) eqn:H2; [|discriminate]. intros [= <- <-]. split; [reflexivity|]. split; [cbn [L_mod2 In]; lia|reflexivity].
Qed.
Ltac dead W P := first
  [ solve [apply W; reflexivity]
  | solve [apply W; unfold decode_alu, decode_unary, decode_shift, decode_dbl, decode_muldiv, decode_imul2, step_mov; rewrite P; reflexivity]
  | solve [apply W; unfold step_jump; rewrite ?P; destruct (p_os p), (p_as p); reflexivity]
  | solve [apply W; unfold decode_stack; cbn [push_seg_op pop_seg_op]; rewrite ?P; destruct (p_os p); reflexivity]
  | solve [apply W; unfold step_misc; rewrite ?P; destruct (p_os p); reflexivity]
  | solve [apply W; unfold step_misc; match goal with |- match ?t with _ => _ end = _ => destruct t; reflexivity end]
  | solve [apply W; match type of W with context [_ :: ?t] => destruct t; reflexivity end]
  | solve [apply W; unfold decode_muldiv; match goal with |- context [parse_rm p a ?t] => destruct (parse_rm p a t) as [[[? ?] [|? ?]]|] end; try (match goal with |- context [4 <=? ?x] => destruct (4 <=? x) end); reflexivity]
  | discriminate W ].
Lemma mod_parse len op t : In op L_mod -> op <> 0x8D -> (with_operand len (op :: t) -> parse_rm p a t <> None) /\ ~ without_operand (op :: t) /\ ~ a_lea (op :: t).
Proof.
  intros H Hx. split; [|split; [|intros (t' & rg & o & [= A _] & _); contradiction]].
  - intros W P. unfold with_operand in W. cbn [L_mod In] in H.
    repeat (destruct H as [<-|H]; [first [exfalso; apply Hx; reflexivity|solve [repeat (destruct W as [W|W]); dead W P]]|]). contradiction.
  - intros W. unfold without_operand in W. cbn [L_mod In] in H.
    repeat (destruct H as [<-|H]; [first [exfalso; apply Hx; reflexivity|solve [repeat (destruct W as [W|W]); dead W I]]|]). contradiction.
Qed.
Lemma mod_parse2 len op t : In op L_mod2 -> (with_operand len (15 :: op :: t) -> parse_rm p a t <> None) /\ ~ without_operand (15 :: op :: t) /\ ~ a_lea (15 :: op :: t).
Proof.
  intros H. split; [|split; [|intros (t' & rg & o & [= A _] & _)]].
  - intros W P. unfold with_operand in W. cbn [L_mod2 In] in H.
    repeat (destruct H as [<-|H]; [solve [repeat (destruct W as [W|W]); dead W P]|]). contradiction.
  - intros W. unfold without_operand in W. cbn [L_mod2 In] in H.
    repeat (destruct H as [<-|H]; [solve [repeat (destruct W as [W|W]); dead W I]|]). contradiction.
Qed.
Lemma none_nil len R : ~ isa inp svc p len a [] R.
Proof.
  intros H. destruct (isa_by _ _ _ H) as [[W _]|[W|(t & rg & o & [=] & _)]].
  - unfold with_operand in W. repeat (destruct W as [W|W]); apply W; reflexivity.
  - unfold without_operand in W. repeat (destruct W as [W|W]); first [discriminate W|apply W; reflexivity].
Qed.
Lemma none_0F len R : ~ isa inp svc p len a [15] R.
Proof.
  intros H. destruct (isa_by _ _ _ H) as [[W _]|[W|(t & rg & o & [=] & _)]].
  - unfold with_operand in W. repeat (destruct W as [W|W]); dead W I.
  - unfold without_operand in W. repeat (destruct W as [W|W]); dead W I.
Qed.
(** A step of the machine on a prefix of an instruction with a ModR/M byte has parsed the operand. *)
Lemma modrm_isa len bs wide t i j R : (forall b, In b bs -> 0 <= b < 256) -> has_modrm bs = Some (wide, t) -> hd 0 bs <> 0x8D -> bs = i ++ j -> isa inp svc p len a i R ->
  exists ti rg r l, t = ti ++ j /\ has_modrm i = Some (wide, ti) /\ parse_rm p a ti = Some (rg, r, l) /\ ea_supported p a ti /\ (wide = true -> not_block_end 16 r).
Proof.
  intros Hb Hm Hx -> HI. destruct i as [|op i]; [exfalso; exact (none_nil _ _ HI)|]. cbn [app hd] in *.
  assert (K : forall ti, has_modrm (op :: i) = Some (wide, ti) -> t = ti ++ j -> (with_operand len (op :: i) -> parse_rm p a ti <> None) -> ~ without_operand (op :: i) -> ~ a_lea (op :: i) ->
    exists ti rg r l, t = ti ++ j /\ has_modrm (op :: i) = Some (wide, ti) /\ parse_rm p a ti = Some (rg, r, l) /\ ea_supported p a ti /\ (wide = true -> not_block_end 16 r)).
  { intros ti H1 H2 H3 H4 H5. destruct (isa_by _ _ _ HI) as [[W O]|[W|W]]; [|contradiction|contradiction]. specialize (H3 W). unfold operand_ok in O. rewrite H1 in O.
    destruct (parse_rm p a ti) as [[[rg r] l]|] eqn:P; [|congruence]. exists ti, rg, r, l. destruct O as [O1 O2]. auto. }
  destruct (Z.eq_dec op 15) as [->|H15].
  - destruct i as [|op2 i]; [exfalso; exact (none_0F _ _ HI)|]. cbn [app] in Hm. destruct (modrm2_ext op2 (i ++ j) wide t i Hm) as (M & HL & Et).
    destruct (mod_parse2 len op2 i HL) as (A & B & C). apply (K i); auto.
  - destruct (modrm1_ext op (i ++ j) wide t i (Hb op ltac:(left; reflexivity)) H15 Hm) as (M & HL & Et). destruct (mod_parse len op i HL Hx) as (A & B & C). apply (K i); auto.
Qed.
Section Exceptions.
Context (len : Z) (bs i j : list Z) (R : arch -> Prop) (Hb : forall b, In b bs -> 0 <= b < 256) (E : bs = i ++ j) (HI : isa inp svc p len a i R).
Lemma x_address wide t : has_modrm bs = Some (wide, t) -> hd 0 bs <> 0x8D -> ~ ea_supported p a t -> False.
Proof. intros H1 H2 H3. destruct (modrm_isa _ _ _ _ _ _ _ Hb H1 H2 E HI) as (ti & rg & r & l & -> & M & P & S & _). apply H3. eapply ea_app; eauto. Qed.
Lemma x_beyond wide b u x r : has_modrm bs = Some (wide, b :: u) -> hd 0 bs <> 0x8D -> p_as p = true -> b / 64 <> 3 -> snd (ea32 (b / 64) (b mod 8) a u) = Some (x, r) -> 65536 <= low 32 x -> False.
Proof.
  intros H1 H2 H3 H4 H5 H6. destruct (modrm_isa _ _ _ _ _ _ _ Hb H1 H2 E HI) as (ti & rg & q & l & Et & M & P & S & _). apply (parse_app _ _ _ _ _ _ j) in P. rewrite <- Et in P.
  cbn [parse_rm] in P. cbv zeta in P. replace (b / 64 =? 3) with false in P by lia. rewrite H3, H5 in P. replace (low 32 x <? 65536) with false in P by lia. discriminate.
Qed.
Lemma x_far t rg sg o rest : bs = 0xFF :: t -> parse_rm p a t = Some (rg, RMem sg o, rest) -> lin sg o mod 4096 = 4095 -> False.
Proof.
  intros H1 H2 H3. assert (Hm : has_modrm bs = Some (true, t)) by (rewrite H1; destruct t; reflexivity).
  destruct (modrm_isa _ _ _ _ _ _ _ Hb Hm ltac:(rewrite H1; discriminate) E HI) as (ti & rg' & q & l & Et & M & P & S & NB). apply (parse_app _ _ _ _ _ _ j) in P. rewrite <- Et, H2 in P.
  injection P as _ <- _. refine (NB eq_refl _ H3). discriminate.
Qed.
Lemma x_lea t : bs = 0x8D :: t -> ~ lea_supported p a t -> False.
Proof.
  intros H1 H2. rewrite E in H1. destruct i as [|op ti]; [exfalso; exact (none_nil _ _ HI)|]. cbn [app] in H1. injection H1 as -> <-.
  destruct (isa_by _ _ _ HI) as [[W O]|[W|(t' & rg & o & [= <-] & L1 & L2)]].
  - destruct (parse_rm p a ti) as [[[rg r] l]|] eqn:P.
    + destruct l as [|c l], r as [n|sg o]; unfold with_operand in W; repeat (destruct W as [W|W]); try (dead W P).
      apply H2. pose proof O as O1. unfold operand_ok in O1. change (has_modrm (0x8D :: ti)) with (has_modrm (141 :: ti)) in O1.
      assert (M : has_modrm (141 :: ti) = Some (false, ti)) by (destruct ti; reflexivity). rewrite M in O1. destruct O1 as [O1 _].
      assert (L1 : exists y, lea_offset p a ti = Some (rg, y)).
      { clear -P. destruct ti as [|b u]; [discriminate P|]. cbn [parse_rm lea_offset] in *. cbv zeta in *. destruct (b / 64 =? 3); [discriminate P|]. destruct (p_as p).
        - destruct (snd (ea32 (b / 64) (b mod 8) a u)) as [[z q]|]; [|discriminate P]. destruct (low 32 z <? 65536); [|discriminate P]. injection P as <- _ _ ->. eauto.
        - destruct (disp (b / 64) (b mod 8) u) as [[d q]|]; [|discriminate P]. injection P as <- _ _ ->. eauto. }
      destruct L1 as [y L1]. eapply lea_app; [exact L1|]. eapply parse_lea; eauto.
    + unfold with_operand in W. repeat (destruct W as [W|W]); dead W P.
  - unfold without_operand in W. repeat (destruct W as [W|W]); dead W I.
  - apply H2. eapply lea_app; eauto.
Qed.
End Exceptions.
End Tight.
