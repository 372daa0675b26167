(** End-to-end theorem for the two-operand ALU group. *)
From Verif Require Import Base Cpu Alu Ops Machine Spec PBase PMem PRun PFrame PAlu PExec PIAlu.

Lemma sweep n (P : Z -> Prop) : Forall (fun k => P (Z.of_nat k)) (seq 0 n) ->
  forall x, 0 <= x < Z.of_nat n -> P x.
Proof.
  intros H x Hx. rewrite Forall_forall in H. specialize (H (Z.to_nat x)).
  rewrite Z2Nat.id in H by lia. apply H, in_seq. lia.
Qed.
Definition form_of (j : Z) : form :=
  match j with 0 => F_MR | 1 => F_MRX | 2 => F_RM | 3 => F_RMX | 4 => F_AI | _ => F_AIX end.
Lemma ca_alu op : 0 <= op < 64 -> op mod 8 < 6 ->
  (op =? 241) = false /\ (op =? 15) = false /\
  ca_op op = Some (mkEntry (OAlu (op_of (op / 8)) (form_of (op mod 8))) 0 false).
Proof.
  revert op. apply (sweep 64 (fun op => op mod 8 < 6 -> (op =? 241) = false /\ (op =? 15) = false /\
  ca_op op = Some (mkEntry (OAlu (op_of (op / 8)) (form_of (op mod 8))) 0 false))).
  cbn [seq]. repeat (apply Forall_cons;
    [intros H; first [repeat split; reflexivity | vm_compute in H; discriminate H]|]).
  constructor.
Qed.

Section WithEnv.
Context (E : env) (base : Z).

Lemma alu_instr s pre p bs k w dst src :
  fetched E base s pre p bs ->
  decode_alu p (ar s) bs = Some (k, w, dst, src) ->
  operand_ok p (ar s) bs ->
  executes E s (pre ++ bs) (alu_effect k w dst src (ar s)).
Proof.
  intros Hf Hdec Hop. pose proof Hf as (R & Hp & C). pose proof (prefixes_ok _ _ Hp) as Hpk.
  destruct R as [F W PC Hc].
  destruct bs as [|op t]; [discriminate|].
  pose proof (code_from_0 _ _ C) as C0. apply code_from_app in C0. rewrite Z.add_0_l in C0.
  destruct (code_from_cons _ _ _ _ C0) as [_ Ct].
  assert (fin : forall o kk,
    dispatch (op :: t) = Some (o, kk, 1) -> width w -> rm_ok dst -> inrange w src ->
    (forall g n l, exec1 E o kk (mkSt (ar s) (dec_of p (blen pre + 1)) g n l) =
       Ok tt (mkSt (alu_m base k w dst src (ar s)) (dec_of p (blen pre + 1 + blen t)) g n l)) ->
    executes E s (pre ++ op :: t) (alu_effect k w dst src (ar s))).
  { intros o kk Hd Hw Hdst Hsrc Hx.
    eapply run_straight with (a' := alu_m base k w dst src (ar s)); [exact Hf|exact Hd| | | |].
    - rewrite Hx, blen_cons. rewrite <- Z.add_assoc. reflexivity.
    - apply alu_m_flat, F.
    - apply alu_m_ip.
    - apply alu_m_same with (E := E); auto. }
  cbn [decode_alu] in Hdec.
  destruct ((0 <=? op) && (op <? 64)) eqn:Hlt.
  - assert (Hj : op mod 8 < 6).
    { assert (op mod 8 = 6 \/ op mod 8 = 7 \/ op mod 8 < 6) as [H|[H|H]] by lia; [| |exact H];
      rewrite H in Hdec; discriminate. }
    assert (Hrange : 0 <= op < 64) by lia.
    destruct (ca_alu op Hrange Hj) as (N1 & N2 & Hca).
    assert (Hdisp : dispatch (op :: t) = Some (OAlu (op_of (op / 8)) (form_of (op mod 8)), 0, 1)).
    { unfold dispatch. rewrite N1, N2, Hca. reflexivity. }
    assert (Hmr : op mod 8 < 4 -> has_modrm (op :: t) = Some (Z.odd op, t)).
    { intros H4. unfold has_modrm. rewrite Hlt. replace (op mod 8 <? 4) with true by lia.
      destruct op as [|q|q]; try reflexivity.
      do 4 (destruct q as [q|q|]; try reflexivity); try (exfalso; cbn in H4; lia). }
    assert (Hk : 0 <= op / 8 <= 8) by lia.
    unfold operand_ok in Hop.
    assert (op mod 8 = 0 \/ op mod 8 = 1 \/ op mod 8 = 2 \/ op mod 8 = 3 \/ op mod 8 = 4 \/ op mod 8 = 5)
      as Hcase by lia.
    destruct Hcase as [Hm|[Hm|[Hm|[Hm|[Hm|Hm]]]]]; rewrite Hm in Hdec, Hdisp; cbn [form_of] in Hdisp;
    try (rewrite Hmr in Hop by lia);
    try (destruct (parse_rm p (ar s) t) as [[[rg r] rest]|] eqn:Hr; [|discriminate];
         destruct rest as [|? ?]; [|discriminate]; injection Hdec as <- <- <- <-;
         destruct Hop as [Hs Hn];
         destruct (parse_rm_ok p (ar s) t rg r [] W Hr) as [Hrok Hrg]);
    try (match type of Hdec with context [imm ?w t] => destruct (imm w t) as [i|] eqn:Hi end;
         [|discriminate]; injection Hdec as <- <- <- <-).
    + eapply fin; eauto with width.
      { apply reg_range; auto with width. }
      intros. apply (x_rm_reg E base (ar s) p (blen pre + 1) g n l t (op / 8) F W Hpk Ct Hk false rg r); auto.
      discriminate.
    + eapply fin; eauto with width.
      { apply reg_range; auto with width. }
      intros. apply (x_rm_reg E base (ar s) p (blen pre + 1) g n l t (op / 8) F W Hpk Ct Hk true rg r); auto.
      intros _. apply Hn. rewrite Zodd_mod. replace (op mod 2) with 1 by lia. reflexivity.
    + eapply fin; eauto with width.
      { eapply rd_rm_range; eauto with width. }
      intros. apply (x_reg_rm E base (ar s) p (blen pre + 1) g n l t (op / 8) F W Hpk Ct Hk false rg r); auto.
      discriminate.
    + eapply fin; eauto with width.
      { eapply rd_rm_range; eauto with width. }
      intros. apply (x_reg_rm E base (ar s) p (blen pre + 1) g n l t (op / 8) F W Hpk Ct Hk true rg r); auto.
      intros _. apply Hn. rewrite Zodd_mod. replace (op mod 2) with 1 by lia. reflexivity.
    + eapply fin; eauto with width; [cbn; lia|..].
      { eapply imm_range with (base := base); eauto with width. }
      intros. apply (x_acc_imm E base (ar s) p (blen pre + 1) g n l t (op / 8) F W Ct Hk false i); auto.
    + eapply fin; eauto with width; [cbn; lia|..].
      { eapply imm_range with (base := base); eauto with width. }
      intros. apply (x_acc_imm E base (ar s) p (blen pre + 1) g n l t (op / 8) F W Ct Hk true i); auto.
  - assert (op = 128 \/ op = 129 \/ op = 131 \/ op = 132 \/ op = 133 \/ op = 168 \/ op = 169 \/
            op = 246 \/ op = 247) as Hcase.
    { destruct op as [|q|q]; try discriminate.
      do 8 (destruct q as [q|q|]; try discriminate; auto 20). }
    clear Hlt.
    destruct Hcase as [->|[->|[->|[->|[->|[->|[->|[->| ->]]]]]]]]; cbn [operand_ok has_modrm] in Hop;
    try (destruct (parse_rm p (ar s) t) as [[[rg r] rest]|] eqn:Hr; [|discriminate];
         destruct (parse_rm_ok p (ar s) t rg r rest W Hr) as [Hrok Hrg]);
    cbn in Hop; try (destruct Hop as [Hs Hn]).
    all: try (destruct t as [|mb t']; [discriminate|]; pose proof (parse_rm_rg _ _ _ _ _ _ _ Hr) as Hrgv;
              pose proof (code_rest _ _ _ _ _ _ _ Hr Ct) as Cr;
              try rewrite Hr in Hn).
    + cbn in Hdec. destruct (imm 8 rest) as [i|] eqn:Hi; [|discriminate].
      injection Hdec as <- <- <- <-.
      eapply fin; eauto with width.
      { reflexivity. }
      { eapply imm_range with (base := base); eauto with width. }
      intros. cbn [exec1]. rewrite <- Hrgv. 
      apply (x_rm_imm8 E base (ar s) p (blen pre + 1) g n l _ rg F W Hpk Ct ltac:(lia) rg r rest i); auto; try lia; first [exact (Hn eq_refl)|discriminate|exact Hn].
    + rewrite Z.eqb_refl in Hdec. destruct (imm (osz p) rest) as [i|] eqn:Hi; [|discriminate].
      injection Hdec as <- <- <- <-.
      eapply fin; eauto with width.
      { reflexivity. }
      { eapply imm_range with (base := base); eauto with width. }
      intros. cbn [exec1]. rewrite <- Hrgv. 
      apply (x_rm_immx E base (ar s) p (blen pre + 1) g n l _ rg F W Hpk Ct ltac:(lia) rg r rest i); auto; try lia; first [exact (Hn eq_refl)|discriminate|exact Hn].
    + destruct (imm 8 rest) as [i|] eqn:Hi; [|discriminate].
      replace (8 =? osz p) with false in Hdec by (unfold osz; destruct (p_os p); reflexivity).
      injection Hdec as <- <- <- <-.
      eapply fin; eauto with width.
      { reflexivity. }
      { apply low_range; auto with width. }
      intros. cbn [exec1]. rewrite <- Hrgv. 
      apply (x_rm_immx8 E base (ar s) p (blen pre + 1) g n l _ rg F W Hpk Ct ltac:(lia) rg r rest i); auto; try lia; first [exact (Hn eq_refl)|discriminate|exact Hn].
    + destruct rest as [|? ?]; [|discriminate]. injection Hdec as <- <- <- <-.
      eapply fin; eauto with width.
      { reflexivity. }
      { apply reg_range; auto with width. }
      intros. apply (x_rm_reg E base (ar s) p (blen pre + 1) g n l _ 8 F W Hpk Ct ltac:(lia) false rg r); auto; discriminate.
    + destruct rest as [|? ?]; [|discriminate]. injection Hdec as <- <- <- <-.
      eapply fin; eauto with width.
      { reflexivity. }
      { apply reg_range; auto with width. }
      intros. apply (x_rm_reg E base (ar s) p (blen pre + 1) g n l _ 8 F W Hpk Ct ltac:(lia) true rg r); auto; try lia; first [exact (Hn eq_refl)|discriminate|exact Hn].
    + destruct (imm 8 t) as [i|] eqn:Hi; [|discriminate]. injection Hdec as <- <- <- <-.
      eapply fin; eauto with width; [reflexivity|cbn; lia|..].
      { eapply imm_range with (base := base); eauto with width. }
      intros. apply (x_acc_imm E base (ar s) p (blen pre + 1) g n l t 8 F W Ct ltac:(lia) false i); auto.
    + destruct (imm (osz p) t) as [i|] eqn:Hi; [|discriminate]. injection Hdec as <- <- <- <-.
      eapply fin; eauto with width; [reflexivity|cbn; lia|..].
      { eapply imm_range with (base := base); eauto with width. }
      intros. apply (x_acc_imm E base (ar s) p (blen pre + 1) g n l t 8 F W Ct ltac:(lia) true i); auto.
    + destruct (Z.eqb_spec rg 0) as [H0|H0]; [|discriminate]. rewrite H0 in Hrgv.
      destruct (imm 8 rest) as [i|] eqn:Hi; [|discriminate].
      injection Hdec as <- <- <- <-.
      eapply fin; eauto with width.
      { reflexivity. }
      { eapply imm_range with (base := base); eauto with width. }
      intros. cbn [exec1]. rewrite <- Hrgv. 
      apply (x_rm_test E base (ar s) p (blen pre + 1) g n l _ 8 F W Hpk Ct false rg r rest i); auto; discriminate.
    + rewrite Z.eqb_refl in Hdec. destruct (Z.eqb_spec rg 0) as [H0|H0]; [|discriminate]. rewrite H0 in Hrgv.
      destruct (imm (osz p) rest) as [i|] eqn:Hi; [|discriminate].
      injection Hdec as <- <- <- <-.
      eapply fin; eauto with width.
      { reflexivity. }
      { eapply imm_range with (base := base); eauto with width. }
      intros. cbn [exec1]. rewrite <- Hrgv. 
      apply (x_rm_test E base (ar s) p (blen pre + 1) g n l _ 8 F W Hpk Ct true rg r rest i); auto; try lia; first [exact (Hn eq_refl)|discriminate|exact Hn].
Qed.
End WithEnv.
