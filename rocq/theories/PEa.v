(** Proofs: the real operand address. *)
From Verif Require Import Base Cpu Alu Ops Machine Spec SpecOps SpecOps2 SpecEa PBase PMem PRun PFrame PAlu PExec PIAlu PIAlu2 PShift PStep PIMov.

Section WithEnv.
Context (E : env) (base : Z).

Lemma dofunc32_sibd a p off g n l sib u d : flat E base a -> wf_regs a -> pfx_ok p ->
  code_from a off (sib :: u) ->
  dofunc32 E 4 false d (mkSt a (dec_of p off) g n l) =
  Ok (sreg (ea_sreg_m p 1 4) a, low 32 (scaled sib a + reg 32 (sib mod 8) a + d)) (mkSt a (dec_of p (off + 1)) g n l).
Proof.
  intros F W Hp C. unfold dofunc32.
  erewrite bind_ok by (apply (ea_segment_ok _ _ _ _ _ _ _ _ 1); auto; lia).
  unfold fetch8. rewrite st_bind. erewrite bind_ok by (eapply fetch8_code; eauto).
  rewrite st_bind. erewrite bind_ok by (apply sib_index_ok; lia). cbv zeta.
  destruct (Z.eqb_spec (sib mod 8) 5) as [H5|H5].
  - rewrite H5, st_bind. erewrite bind_ok by (apply getDw_ok; unfold R_BP; lia). rewrite st_ret. unfold ret.
    cbn [d_ipoff dec_of]. change (dd_ipoff (off + 1) (dec_of p off)) with (dec_of p (off + 1)).
    do 2 f_equal. unfold wrap, low, scaled. change R_BP with 5. rewrite Z.add_mod_idemp_l by lia. rewrite <- !Z.add_assoc, Z.add_mod_idemp_l by lia.
    destruct (sib / 8 mod 8 =? 4); reflexivity.
  - rewrite st_bind. erewrite bind_ok by (apply getDw_ok; lia). rewrite st_ret. unfold ret.
    cbn [d_ipoff dec_of]. change (dd_ipoff (off + 1) (dec_of p off)) with (dec_of p (off + 1)).
    do 2 f_equal. unfold wrap, low, scaled. rewrite Z.add_mod_idemp_l by lia. rewrite <- !Z.add_assoc, Z.add_mod_idemp_l by lia.
    destruct (sib / 8 mod 8 =? 4); reflexivity.
Qed.

Lemma get_mmm_real a p off g n l b t o r : flat E base a -> wf_regs a -> pfx_ok p -> 0 <= b < 256 -> b / 64 <> 3 ->
  code_from a off t -> real_offset p (b / 64) (b mod 8) a t = Some (o, r) ->
  get_mmm E (modrm_of b) (mkSt a (dec_of p off) g n l) =
  Ok (sreg (real_sreg p (b / 64) (b mod 8)) a, o) (mkSt a (dec_of p (off + (blen t - blen r))) g n l).
Proof.
  intros F W Hp Hb H3 C Ho. unfold real_offset in Ho. destruct (p_as p) eqn:Ha.
  - unfold get_mmm. msteps. cbn [d_addr dec_of]. rewrite Ha. unfold modrm_of. cbn [m_mod m_mmm].
    assert (Hm : 0 <= b mod 8 < 8) by lia. revert Ho Hm. generalize (b mod 8). intros m Ho Hm.
    assert (b / 64 = 0 \/ b / 64 = 1 \/ b / 64 = 2) as Hc by lia.
    destruct Hc as [Hc|Hc]; [rewrite Hc in *; cbn [Z.eqb] in Ho|].
    + destruct (Z.eqb_spec m 4) as [H4|H4]; [subst m|].
      { destruct t as [|sib u]; [discriminate|]. destruct (Z.eqb_spec (sib mod 8) 5) as [H5|H5].
        - destruct (dword u) as [[dd r']|] eqn:Hdw; [|discriminate]. injection Ho as <- <-.
          unfold dword in Hdw. destruct u as [|b0 [|b1 [|b2 [|b3 u]]]]; try discriminate. injection Hdw as _ <-.
          erewrite dofunc32_sib5 by eauto. rewrite !blen_cons. unfold scaled. do 3 f_equal. lia.
        - injection Ho as <- <-. erewrite dofunc32_sib by eauto. rewrite !blen_cons. unfold scaled. do 3 f_equal. lia. }
      destruct (Z.eqb_spec m 5) as [H5|H5]; [subst m|].
      { unfold dword in Ho. destruct t as [|b0 [|b1 [|b2 [|b3 u]]]]; try discriminate. injection Ho as <- <-.
        erewrite dofunc32_disp by eauto. rewrite !blen_cons. do 3 f_equal. lia. }
      injection Ho as <- <-. pose proof (dofunc32_reg E a p off g n l m true 0 Hp Hm H4 (fun _ => H5)) as H. cbv iota in H. rewrite H. do 3 f_equal. lia.
    + assert (Hz : (b / 64 =? 0) = false) by lia. rewrite Hz in Ho. destruct (disp32 (b / 64) t) as [[d u]|] eqn:Hd; [|discriminate].
      assert (Hg : (match b / 64 with 0 => dofunc32 E m true 0 | 1 => o <- fetch8s E ;; dofunc32 E m false (wrap 16 o) | 2 => o <- fetch32 E ;; dofunc32 E m false (wrap 16 o) | _ => err E_BUG end) (mkSt a (dec_of p off) g n l) =
        dofunc32 E m false (low 16 d) (mkSt a (dec_of p (off + (blen t - blen u))) g n l) /\ code_from a (off + (blen t - blen u)) u).
      { unfold disp32 in Hd. destruct Hc as [Hc|Hc]; rewrite Hc in *; cbn [Z.eqb Pos.eqb] in Hd.
        - destruct t as [|d0 t']; [discriminate|]. injection Hd as <- <-. pose proof (code_byte_range E base a _ _ _ F W C) as Hdr.
          unfold fetch8s. rewrite st_bind. erewrite bind_ok by (eapply fetch8_code; eauto). msteps.
          cbn [d_ipoff dec_of]. change (dd_ipoff (off + 1) (dec_of p off)) with (dec_of p (off + 1)).
          rewrite <- signed_sgn by (unfold inrange; lia). rewrite blen_cons. replace (off + (1 + blen t' - blen t')) with (off + 1) by lia. split; [reflexivity|apply (code_from_cons _ _ _ _ C)].
        - unfold dword in Hd. destruct t as [|b0 [|b1 [|b2 [|b3 t']]]]; try discriminate. injection Hd as <- <-.
          unfold fetch32. erewrite bind_ok by (eapply fetch32_code; eauto). msteps.
          cbn [d_ipoff dec_of]. change (dd_ipoff (off + 4) (dec_of p off)) with (dec_of p (off + 4)).
          destruct (code_from_cons _ _ _ _ C) as [_ C1]. destruct (code_from_cons _ _ _ _ C1) as [_ C2]. destruct (code_from_cons _ _ _ _ C2) as [_ C3]. destruct (code_from_cons _ _ _ _ C3) as [_ C4].
          rewrite !blen_cons. split; [do 3 f_equal; lia|].
          match goal with |- code_from _ ?x _ => replace x with (off + 1 + 1 + 1 + 1) by lia end. exact C4. }
      destruct Hg as [Hg Cu]. rewrite Hg. clear Hg.
      assert (Hsr : real_sreg p (b / 64) m = ea_sreg_m p 1 m) by (unfold real_sreg, ea_sreg_m; rewrite Hz; reflexivity). rewrite Hsr.
      assert (Hbl : exists v, t = v ++ u) by (eapply disp32_blen; exact Hd).
      destruct (Z.eqb_spec m 4) as [H4|H4]; [subst m|].
      * destruct u as [|sib v]; [discriminate|]. injection Ho as <- <-. erewrite dofunc32_sibd by eauto. rewrite !blen_cons. do 3 f_equal. lia.
      * injection Ho as <- <-. pose proof (dofunc32_reg E a p (off + (blen t - blen u)) g n l m false (low 16 d) Hp Hm H4 ltac:(discriminate)) as H. cbv iota in H. rewrite H. reflexivity.
  - destruct (disp (b / 64) (b mod 8) t) as [[d r']|] eqn:Hd; [|discriminate]. injection Ho as <- <-.
    rewrite (get_mmm_ok E base a p off g n l b t d r' F W Hp Ha Hb H3 C Hd).
    replace (ea_raw (b / 64) (b mod 8) d a) with (low 32 ((if (b / 64 =? 0) && (b mod 8 =? 6) then 0 else ea_base (b mod 8) a) + d)); [reflexivity|].
    unfold ea_raw. change wrap with low. destruct (b / 64 =? 0) eqn:H0; cbn [andb]; [|reflexivity].
    destruct (b mod 8 =? 6) eqn:H6; [rewrite Z.add_0_l; reflexivity|].
    unfold disp in Hd. replace (b / 64 =? 1) with false in Hd by lia. replace ((b / 64 =? 2) || (b mod 8 =? 6)) with false in Hd by lia. injection Hd as <- _.
    pose proof (ea_base_range (b mod 8) a). unfold low. rewrite Z.add_0_r. apply Z.mod_small. change (2 ^ 32) with 4294967296. lia.
Qed.
End WithEnv.
