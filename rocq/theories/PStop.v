(** Instructions that stop the emulator: undefined opcodes, repeated prefixes, HLT, F1, 00 00 twice. *)
From Verif Require Import Base Cpu Alu Ops Machine Spec SpecOps SpecOps2 SpecSys SpecRun PBase PMem PRun PFrame PAlu PExec PIAlu PIAlu2 PKeep PKeep2 PKeep3 PTop PTop2 PTop3.

Section Stop.
Context (E : env) (base : Z).

Lemma code_bytes s bs pre p : fetched E base s pre p bs -> forall b, In b bs -> 0 <= b < 256.
Proof.
  intros (R & Hp & C) b Hb. destruct R as [F W PC Hc]. apply code_from_0 in C. apply code_from_app in C.
  apply In_nth_error in Hb. destruct Hb as [i Hi]. 
  revert C Hi. generalize (0 + blen pre) as off. revert i. induction bs as [|c t IH]; intros i off C Hi; [destruct i; discriminate|].
  destruct i as [|i].
  - cbn in Hi. injection Hi as ->. eapply code_byte_range; eauto.
  - apply code_from_cons in C. eapply IH; [apply C|exact Hi].
Qed.
(** The pass after the prefixes fails with code c without touching the architectural state. *)
Lemma stop_once s pre p bs c d' : fetched E base s pre p bs ->
  op_once E (mkSt (ar s) (dec_of p (blen pre)) (dbg s) (icount s + 1) (lastnull s)) =
    Err c (mkSt (ar s) d' (dbg s) (icount s + 1) (lastnull s)) ->
  c <> E_CONTINUE -> c <> E_DIVERR -> stops E s c.
Proof.
  intros (R & Hp & C) Hx Hc1 Hc2. destruct R as [F W PC Hc]. destruct s as [a d g n l]. cbn [ar dc dbg icount lastnull] in *.
  unfold stops. rewrite run_one_normal by exact PC. rewrite do_opcode_eq by exact Hc. unfold bind at 1.
  pose proof (prefixes_length _ _ Hp) as Hl. replace 6%nat with (length pre + S (5 - length pre))%nat by lia.
  pose proof (code_from_0 _ _ C) as C0.
  rewrite (op_loop_prefixes E base a pre _ p 0 g (n + 1) l bs _ F W C0 Hp).
  cbn [op_loop]. rewrite Z.add_0_l, Hx. replace (c =? E_CONTINUE) with false by lia. replace (c =? E_DIVERR) with false by lia.
  eexists. split; [reflexivity|]. cbn. split; [apply same_refl|auto].
Qed.
Lemma once_fetch s pre p b t : fetched E base s pre p (b :: t) ->
  op_once E (mkSt (ar s) (dec_of p (blen pre)) (dbg s) (icount s + 1) (lastnull s)) =
  (if b =? 241 then err E_BREAK else
  match ca_op b with
  | None => err E_UNDEF
  | Some e => bind (op_param E e) (fun p => exec E (e_op e) p)
  end) (mkSt (ar s) (dec_of p (blen pre + 1)) (dbg s) (icount s + 1) (lastnull s)).
Proof.
  intros (R & Hp & C). destruct R as [F W PC Hc]. apply code_from_0 in C. apply code_from_app in C. rewrite Z.add_0_l in C.
  unfold op_once. erewrite bind_ok by (eapply fetch8_code; eauto). reflexivity.
Qed.

(** C05: an unimplemented opcode. *)
Theorem undefined_stops s pre p bs : fetched E base s pre p bs -> opcode_read bs -> undefined_opcode bs -> stops E s E_UNDEF.
Proof.
  intros Hf Hr Hu. pose proof (code_bytes _ _ _ _ Hf) as Hb. apply dispatch_none in Hu; auto.
  destruct bs as [|b t]; [contradiction|]. destruct Hr as (Hpre & H241 & Hlast).
  unfold dispatch in Hu. replace (b =? 241) with false in Hu by lia.
  destruct (Z.eqb_spec b 15) as [->|H15].
  - destruct t as [|b2 t]; [destruct (Hlast eq_refl); congruence|]. destruct (ca_op0F b2) as [e|] eqn:He; [discriminate|].
    eapply (stop_once s pre p _ E_UNDEF (dec_of p (blen pre + 1 + 1))); eauto; try discriminate.
    rewrite (once_fetch s pre p 15 (b2 :: t) Hf). change (15 =? 241) with false. change (ca_op 15) with (DEF OExt0F). unfold DEF. cbv iota.
    unfold op_param. cbn [e_names e_arg e_op]. rewrite st_ret. cbn [exec].
    destruct Hf as (R & _ & C). destruct R as [F W _ _]. apply code_from_0 in C. apply code_from_app in C. apply code_from_cons in C. destruct C as [_ C].
    rewrite Z.add_0_l in C. erewrite bind_ok by (eapply fetch8_code; [eauto|eauto|exact C]). rewrite He. reflexivity.
  - destruct (ca_op b) as [e|] eqn:He.
    + exfalso. pose proof (proj1 (dispatch_none (b :: t) (conj Hpre (conj H241 Hlast)) Hb)) as H.
      unfold dispatch in H. replace (b =? 241) with false in H by lia. replace (b =? 15) with false in H by lia. rewrite He in H. specialize (H Hu).
      destruct H as [H|[H _]]; [|congruence].
      pose proof (idx_ok _ row1_ok b (Hb b (or_introl eq_refl))) as Hrow. unfold row1 in Hrow. rewrite He in Hrow. apply mem_In in H. rewrite H in Hrow. discriminate.
    + eapply (stop_once s pre p _ E_UNDEF (dec_of p (blen pre + 1))); eauto; try discriminate.
      rewrite (once_fetch s pre p b t Hf). replace (b =? 241) with false by lia. rewrite He. reflexivity.
Qed.
(** C06: HLT and the padding byte F1. *)
Theorem hlt_stops s pre p t : fetched E base s pre p (244 :: t) -> stops E s E_HALT.
Proof.
  intros Hf. eapply (stop_once s pre p _ E_HALT (dec_of p (blen pre + 1))); eauto; try discriminate.
  rewrite (once_fetch s pre p 244 t Hf). reflexivity.
Qed.
Theorem f1_stops s pre p t : fetched E base s pre p (241 :: t) -> stops E s E_BREAK.
Proof.
  intros Hf. eapply (stop_once s pre p _ E_BREAK (dec_of p (blen pre + 1))); eauto; try discriminate.
  rewrite (once_fetch s pre p 241 t Hf). reflexivity.
Qed.
(** C04: a prefix of a kind already seen. *)
Lemma prefix_entry b : prefix_byte b -> exists e, ca_op b = Some e /\ e_names e = false /\ b <> 241 /\
  ((e_op e = OOvrSeg /\ seg_prefix b <> None) \/
   (seg_prefix b = None /\ (b = 102 /\ e_op e = OOvrOpSize \/ b = 103 /\ e_op e = OOvrAddrSize \/
      (b = 242 \/ b = 243) /\ (e_op e = ORep \/ e_op e = ORepnz)))).
Proof.
  unfold prefix_byte. cbn [In]. intros H.
  repeat (destruct H as [<-|H]; [eexists; split; [vm_compute; reflexivity|]; cbn; split; [reflexivity|]; split; [lia|]; first [left; split; [reflexivity|discriminate]|right; split; [reflexivity|]; tauto]|]).
  contradiction.
Qed.
Theorem repeated_prefix_stops s pre p b t : fetched E base s pre p (b :: t) -> prefix_byte b -> add_prefix p b = None -> stops E s E_UNDEF.
Proof.
  intros Hf Hb Hn. eapply (stop_once s pre p _ E_UNDEF (dec_of p (blen pre + 1))); eauto; try discriminate.
  rewrite (once_fetch s pre p b t Hf). unfold add_prefix in Hn.
  destruct Hf as (_ & Hp & _). apply prefixes_ok in Hp. unfold pfx_ok in Hp.
  destruct (prefix_entry b Hb) as (e & He & Hna & H241 & Hcase). replace (b =? 241) with false by lia. rewrite He.
  unfold op_param. rewrite Hna, st_ret. destruct Hcase as [[Ho Hs]|[Hs Hcase]].
  - rewrite Ho. cbn [exec exec1]. unfold x_ovr_seg. msteps. cbn [dec_of d_seg].
    destruct (seg_prefix b) as [k|]; [|congruence]. destruct (p_seg p) as [j|]; [|discriminate].
    destruct (Z.eqb_spec j (-1)); [lia|]. reflexivity.
  - rewrite Hs in Hn. destruct Hcase as [[-> Ho]|[[-> Ho]|[Hb' Ho]]].
    + cbn [Z.eqb Pos.eqb] in Hn. rewrite Ho. cbn [exec exec1]. unfold x_ovr_op. msteps. cbn [dec_of d_op].
      destruct (p_os p); [reflexivity|discriminate].
    + cbn [Z.eqb Pos.eqb] in Hn. rewrite Ho. cbn [exec exec1]. unfold x_ovr_addr. msteps. cbn [dec_of d_addr].
      destruct (p_as p); [reflexivity|discriminate].
    + replace (b =? 102) with false in Hn by lia. replace (b =? 103) with false in Hn by lia.
      replace ((b =? 242) || (b =? 243)) with true in Hn by lia.
      destruct (p_rep p =? 0) eqn:Hr; [discriminate|].
      destruct Ho as [Ho|Ho]; rewrite Ho; cbn [exec exec1]; unfold x_rep; msteps; cbn [dec_of d_rep]; rewrite Hr; reflexivity.
Qed.
End Stop.
