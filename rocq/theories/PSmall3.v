(** Ranges of decoded operands, and the arithmetic properties restated flag by flag. *)
From Verif Require Import Base Cpu Alu Ops Machine Spec SpecOps SpecOps2 SpecMul SpecTop PBase PMem PRun PFrame PAlu PExec PIAlu PIAlu2 PShift PStep PIUn PFlags.

Lemma width_pos w : width w -> 0 < w.
Proof. unfold width. lia. Qed.
Section WithEnv.
Context (E : env) (base : Z).
Lemma decode_alu_ok s pre p bs k w dst src : fetched E base s pre p bs ->
  decode_alu p (ar s) bs = Some (k, w, dst, src) -> width w /\ rm_ok dst /\ inrange w src /\ inrange w (rd_rm w dst (ar s)).
Proof.
  intros Hf Hdec. destruct bs as [|op t]; [discriminate|].
  destruct (instr_ctx _ _ _ _ _ _ _ Hf) as (F & W & Hp & C & Hb).
  assert (fin : forall (wide : bool) r, rm_ok r -> inrange (if wide then osz p else 8) (rd_rm (if wide then osz p else 8) r (ar s))).
  { intros wide r Hr. eapply rd_rm_range; eauto. destruct wide; auto with width. }
  assert (Q : width w /\ rm_ok dst /\ inrange w src).
  { cbn [decode_alu] in Hdec. destruct ((0 <=? op) && (op <? 64)) eqn:Hlt.
    - assert (op mod 8 = 0 \/ op mod 8 = 1 \/ op mod 8 = 2 \/ op mod 8 = 3 \/ op mod 8 = 4 \/ op mod 8 = 5 \/ op mod 8 = 6 \/ op mod 8 = 7) as Hc by lia.
      destruct Hc as [Hm|[Hm|[Hm|[Hm|[Hm|[Hm|[Hm|Hm]]]]]]]; rewrite Hm in Hdec; try discriminate;
      try (destruct (parse_rm p (ar s) t) as [[[rg r] rest]|] eqn:Hr; [|discriminate];
         destruct rest as [|? ?]; [|discriminate]; injection Hdec as <- <- <- <-;
         destruct (parse_rm_ok p (ar s) t rg r [] W Hr) as [Hrok Hrg]);
      try (match type of Hdec with context [imm ?w t] => destruct (imm w t) as [i|] eqn:Hi end;
         [|discriminate]; injection Hdec as <- <- <- <-).
      + split; [auto with width|split; [exact Hrok|apply reg_range; auto with width]].
      + split; [auto with width|split; [exact Hrok|apply reg_range; auto with width]].
      + split; [auto with width|split; [exact Hrg|apply (fin false); auto]].
      + split; [auto with width|split; [exact Hrg|apply (fin true); auto]].
      + split; [auto with width|split; [cbn; lia|eapply imm_range with (base := base); eauto with width]].
      + split; [auto with width|split; [cbn; lia|eapply imm_range with (base := base); eauto with width]].
    - assert (op = 128 \/ op = 129 \/ op = 131 \/ op = 132 \/ op = 133 \/ op = 168 \/ op = 169 \/
            op = 246 \/ op = 247) as Hcase.
      { destruct op as [|q|q]; try discriminate.
        do 8 (destruct q as [q|q|]; try discriminate; auto 20). }
      clear Hlt.
      assert (forall wd iw (f : Z -> option Z), width wd -> width iw -> match parse_rm p (ar s) t with
      | Some (rg, r, rest) =>
        match f rg, imm iw rest with
        | Some k, Some i => Some (k, wd, r, if iw =? wd then i else low wd (signed iw i))
        | _, _ => None
        end
      | None => None
      end = Some (k, w, dst, src) -> width w /\ rm_ok dst /\ inrange w src) as RI.
      { intros wd iw f H1 H2 HH. destruct (parse_rm p (ar s) t) as [[[rg r] rest]|] eqn:Hr; [|discriminate].
        destruct (parse_rm_ok p (ar s) t rg r rest W Hr) as [Hrok Hrg].
        destruct t as [|mb t']; [discriminate|]. pose proof (code_rest _ _ _ _ _ _ _ Hr C) as Cr.
        destruct (f rg) as [kk|]; [|discriminate]. destruct (imm iw rest) as [i|] eqn:Hi; [|discriminate].
        injection HH as <- <- <- <-. split; [exact H1|split; [exact Hrok|]].
        destruct (Z.eqb_spec iw wd) as [->|]; [eapply imm_range with (base := base); eauto|apply low_range; auto]. }
      assert (forall wd kk, width wd -> match parse_rm p (ar s) t with
      | Some (rg, r, rest) => ifrest rest (kk, wd, r, reg wd rg (ar s))
      | None => None
      end = Some (k, w, dst, src) -> width w /\ rm_ok dst /\ inrange w src) as RR.
      { intros wd kk H1 HH. destruct (parse_rm p (ar s) t) as [[[rg r] rest]|] eqn:Hr; [|discriminate].
        destruct (parse_rm_ok p (ar s) t rg r rest W Hr) as [Hrok Hrg].
        destruct rest; [|discriminate]. injection HH as <- <- <- <-. split; [exact H1|split; [exact Hrok|apply reg_range; auto]]. }
      destruct Hcase as [->|[->|[->|[->|[->|[->|[->|[->| ->]]]]]]]]; cbv beta iota zeta in Hdec.
      + apply (RI 8 8 Some); auto with width.
      + apply (RI (osz p) (osz p) Some); auto with width.
      + apply (RI (osz p) 8 Some); auto with width.
      + apply (RR 8 8); auto with width.
      + apply (RR (osz p) 8); auto with width.
      + destruct (imm 8 t) as [i|] eqn:Hi; [|discriminate]. injection Hdec as <- <- <- <-.
        split; [auto with width|split; [cbn; lia|eapply imm_range with (base := base); eauto with width]].
      + destruct (imm (osz p) t) as [i|] eqn:Hi; [|discriminate]. injection Hdec as <- <- <- <-.
        split; [auto with width|split; [cbn; lia|eapply imm_range with (base := base); eauto with width]].
      + apply (RI 8 8 (fun rg => if rg =? 0 then Some 8 else None)); auto with width.
      + apply (RI (osz p) (osz p) (fun rg => if rg =? 0 then Some 8 else None)); auto with width. }
  destruct Q as (Q1 & Q2 & Q3). split; [exact Q1|]. split; [exact Q2|]. split; [exact Q3|]. eapply rd_rm_range; eauto.
Qed.
End WithEnv.
Lemma decode_unary_ok E base s pre p bs o w r : fetched E base s pre p bs ->
  decode_unary p (ar s) bs = Some (o, w, r) -> width w /\ rm_ok r /\ inrange w (rd_rm w r (ar s)).
Proof.
  intros Hf Hdec. destruct bs as [|op t]; [discriminate|].
  destruct (instr_ctx _ _ _ _ _ _ _ Hf) as (F & W & Hp & C & Hb).
  assert (Q : width w /\ rm_ok r).
  { cbn [decode_unary] in Hdec.
    destruct ((64 <=? op) && (op <=? 71)) eqn:H1; [|destruct ((72 <=? op) && (op <=? 79)) eqn:H2].
    - destruct t; [|discriminate]. injection Hdec as <- <- <-. split; [auto with width|cbn; lia].
    - destruct t; [|discriminate]. injection Hdec as <- <- <-. split; [auto with width|cbn; lia].
    - assert (G : forall ww (sel : Z -> option uop), width ww -> match parse_rm p (ar s) t with
        | Some (rg, r, []) => match sel rg with Some o => Some (o, ww, r) | None => None end
        | _ => None end = Some (o, w, r) -> width w /\ rm_ok r).
      { intros ww sel Hw HH. destruct (parse_rm p (ar s) t) as [[[rg r'] rest]|] eqn:Hr; [|discriminate].
        destruct (parse_rm_ok p (ar s) t rg r' rest W Hr) as [Hrok _]. destruct rest; [|discriminate].
        destruct (sel rg); [|discriminate]. injection HH as <- <- <-. auto. }
      assert (H : op = 246 \/ op = 247 \/ op = 254 \/ op = 255).
      { destruct op as [|q|q]; try discriminate.
        do 8 (destruct q as [q|q|]; try discriminate; auto). }
      clear H1 H2. destruct H as [->|[->|[->| ->]]]; cbv beta iota zeta in Hdec; eapply G; try exact Hdec; auto with width. }
  destruct Q as [Q1 Q2]. split; [exact Q1|]. split; [exact Q2|]. eapply rd_rm_range; eauto.
Qed.
Lemma inc_of w d : width w -> inrange w d -> (d =? 2 ^ (w - 1) - 1) = signed_overflow w (signed w d + 1).
Proof. intros [->|[->| ->]] [H1 H2]; unfold signed_overflow, signed; cbn in *; match goal with |- context [if ?c then _ else _] => destruct c eqn:? end; lia. Qed.
Lemma dec_of_ w d : width w -> inrange w d -> (d =? 2 ^ (w - 1)) = signed_overflow w (signed w d - 1).
Proof. intros [->|[->| ->]] [H1 H2]; unfold signed_overflow, signed; cbn in *; match goal with |- context [if ?c then _ else _] => destruct c eqn:? end; lia. Qed.
Lemma neg_of w d : width w -> inrange w d -> (d =? 2 ^ (w - 1)) = (signed w d =? - 2 ^ (w - 1)).
Proof. intros [->|[->| ->]] [H1 H2]; unfold signed; cbn in *; match goal with |- context [if ?c then _ else _] => destruct c eqn:? end; lia. Qed.
Lemma not_bits w d i : width w -> inrange w d -> 0 <= i < w -> Z.testbit (2 ^ w - 1 - d) i = negb (Z.testbit d i).
Proof.
  intros Hw Hd Hi. rewrite <- (lnot_ok w d Hw Hd). unfold wrap.
  first [rewrite Z.mod_pow2_bits_low by lia | rewrite Z.land_spec, Z.ones_spec_low, andb_true_r by lia]. apply Z.lnot_spec. lia.
Qed.
