(** Proofs about the messages of failing instructions (C85): the whole of RME_RunOne. *)
From Coq Require Import String Ascii.
From Verif Require Import Base Cpu Alu Ops Machine Spec SpecOps SpecOps2 SpecSys SpecRun SpecTop SpecStop SpecEa SpecUb SpecCodes PBase PMem PRun PFrame PAlu PExec PIAlu PIAlu2 PIStack PStep PIInt PKeep PKeep2 PKeep3 PTop PTop2 PTop3 PStop PStop2 PEa PEa2 PEa3 PUb4 PLen PLen2 PCodes Dump SpecDump PDump TraceText SpecTrace PTrace PTrace2 SpecMsgs PMsgs PMsgs2 PMsgs3 PMsgs4 PMsgs5.
Local Open Scope string_scope.
Local Open Scope Z_scope.

Section Msgs6.
Context (E : env) (base : Z) (Pol : polite E) (Q : quiet_host E).

Lemma loop_once s pre p bs : fetched E base s pre p bs ->
  op_loop E 6 (reset s) = match op_once E (hst s p (blen pre)) with
    | Ok u s' => Ok u s' | Err c s' => if c =? E_CONTINUE then op_loop E (5 - List.length pre) s' else Err c s' | UB r => UB r | Fuel => Fuel end.
Proof.
  intros (R & Hp & C). destruct R as [F W PC Hc]. destruct s as [a d g n l]. cbn [ar dc dbg icount lastnull] in *.
  pose proof (prefixes_length _ _ Hp) as Hl. replace 6%nat with (List.length pre + S (5 - List.length pre))%nat by lia.
  pose proof (code_from_0 _ _ C) as C0. change (reset (mkSt a d g n l)) with (mkSt a (dec_of (mkPfx None false false 0) 0) g (n + 1) l).
  rewrite (op_loop_prefixes E base a pre _ p 0 g (n + 1) l bs _ F W C0 Hp). rewrite Z.add_0_l. cbn [op_loop]. unfold hst. cbn [ar dbg icount lastnull].
  destruct (op_once E _) as [u s'|c s'|r|]; try reflexivity.
Qed.
(** A failing loop: what RME_RunOne answers and prints. *)
Lemma loop_fails s c s1 : normal_pc (ar s) -> icount s <> 2147483647 -> op_loop E 6 (reset s) = Err c s1 -> c <> E_DIVERR ->
  run_one E s = Err c s1 /\ run_prints E s = level2 s ++ start s ++ loop_complaint E 6 (reset s).
Proof.
  intros PC Hc El Hd. unfold run_one, run_prints, error_text. cbv zeta.
  assert (Hm : (r_ip (ar s) =? 65535) && (r_cs (ar s) =? 65535) = false) by (unfold normal_pc in PC; lia).
  assert (Hh : (r_cs (ar s) =? 47104) && (r_ip (ar s) <? 256) = false) by (unfold normal_pc in PC; lia).
  rewrite Hm, Hh. change (if 2 <=? dbg s then dump_regs (ar s) else "") with (level2 s). change (if dbg s <? 1 then "" else header s) with (start s). rewrite El.
  assert (D : do_opcode E s = Err c s1) by (rewrite (do_opcode_reset E s Hc); unfold bind; rewrite El; reflexivity). rewrite D.
  replace (c =? E_DIVERR) with false by lia. rewrite app_empty. split; reflexivity.
Qed.
Lemma handler_says s pre p bs o k m c s' : fetched E base s pre p bs -> dispatch bs = Some (o, k, m) -> exec1 E o k (hst s p (blen pre + m)) = Err c s' ->
  c <> E_CONTINUE -> c <> E_DIVERR ->
  run_one E s = Err c s' /\ run_prints E s = level2 s ++ start s ++ complaint1 E o k c (hst s p (blen pre + m)).
Proof.
  intros Hf Hd Hx H1 H2. pose proof Hf as (Rd & Hp & C). destruct Rd as [F W PC Hc].
  assert (El : op_loop E 6 (reset s) = Err c s').
  { destruct s as [a d g n l]. cbn [ar dc dbg icount lastnull] in *. change (reset (mkSt a d g n l)) with (mkSt a (dec_of (mkPfx None false false 0) 0) g (n + 1) l).
    rewrite (op_loop_exec E base a pre p g (n + 1) l bs o k m F W C Hp Hd). unfold hst in Hx. cbn [ar dbg icount lastnull] in Hx. rewrite Hx. replace (c =? E_CONTINUE) with false by lia. reflexivity. }
  destruct (loop_fails s c s' PC Hc El H2) as [K1 K2]. split; [exact K1|]. rewrite K2. rewrite (lc_said E base s pre p bs o k m c s' Hf Hd Hx H1). reflexivity.
Qed.
(** ** Unset memory, unknown opcodes *)
Definition f1_text (a : arch) : string := joined [" Executing unset memory (opcode 0xF1) "; fmt_x 4 (r_cs a); ":"; fmt_x 4 (r_ip a)].
Lemma in_code s pre p bs : fetched E base s pre p bs -> code_from (ar s) (blen pre) bs.
Proof. intros (_ & _ & C). apply code_from_0 in C. apply code_from_app in C. rewrite Z.add_0_l in C. exact C. Qed.
Lemma f1_says s pre p t : fetched E base s pre p (241 :: t) -> op_loop E 6 (reset s) = Err E_BREAK (hst s p (blen pre + 1)) /\ loop_complaint E 6 (reset s) = f1_text (ar s).
Proof.
  intros Hf. split.
  - rewrite (loop_once s pre p _ Hf). unfold hst at 1. rewrite (once_fetch E base s pre p 241 t Hf). reflexivity.
  - rewrite (lc_whole E base s pre p _ Hf). pose proof Hf as (Rd & _ & _). destruct Rd as [F W _ _].
    rewrite (lc_pass E base _ 241 t (ar s) p (blen pre) _ _ _ F W (in_code _ _ _ _ Hf)). unfold pass. change (241 =? 241) with true. cbv iota.
    unfold f1_text, place_t. cbn [joined ar]. rewrite app_empty. reflexivity.
Qed.
Definition op_text (b : Z) : string := joined [" Unkown Opcode 0x"; fmt_x 2 b].
Lemma op_says s pre p b t : fetched E base s pre p (b :: t) -> b <> 241 -> ca_op b = None -> op_loop E 6 (reset s) = Err E_UNDEF (hst s p (blen pre + 1)) /\ loop_complaint E 6 (reset s) = op_text b.
Proof.
  intros Hf Hb Hn. split.
  - rewrite (loop_once s pre p _ Hf). unfold hst at 1. rewrite (once_fetch E base s pre p b t Hf). replace (b =? 241) with false by lia. rewrite Hn. reflexivity.
  - rewrite (lc_whole E base s pre p _ Hf). pose proof Hf as (Rd & _ & _). destruct Rd as [F W _ _].
    rewrite (lc_pass E base _ b t (ar s) p (blen pre) _ _ _ F W (in_code _ _ _ _ Hf)). unfold pass. replace (b =? 241) with false by lia. rewrite Hn.
    unfold op_text. cbn [joined]. rewrite app_empty. reflexivity.
Qed.
Definition op_text2 (b : Z) : string := joined [" Unkown Opcode 0x0F 0x"; fmt_x 2 b].
Lemma op2_says s pre p b t : fetched E base s pre p (15 :: b :: t) -> ca_op0F b = None -> op_loop E 6 (reset s) = Err E_UNDEF (hst s p (blen pre + 1 + 1)) /\ loop_complaint E 6 (reset s) = op_text2 b.
Proof.
  intros Hf Hn. pose proof Hf as (Rd & _ & _). destruct Rd as [F W _ _]. pose proof (in_code _ _ _ _ Hf) as C. pose proof (proj2 (code_from_cons _ _ _ _ C)) as C2.
  assert (Ef : forall g n l, fetch8 E (mkSt (ar s) (dec_of p (blen pre + 1)) g n l) = Ok b (mkSt (ar s) (dec_of p (blen pre + 1 + 1)) g n l)).
  { intros. rewrite (fetch8_code E base (ar s) (dec_of p (blen pre + 1)) _ _ _ b t F W C2). reflexivity. }
  assert (Ex : forall k g n l, exec E OExt0F k (mkSt (ar s) (dec_of p (blen pre + 1)) g n l) = Err E_UNDEF (mkSt (ar s) (dec_of p (blen pre + 1 + 1)) g n l)).
  { intros. unfold exec. unfold bind. rewrite Ef, Hn. reflexivity. }
  split.
  - rewrite (loop_once s pre p _ Hf). unfold hst at 1. rewrite (once_fetch E base s pre p 15 (b :: t) Hf). change (15 =? 241) with false. change (ca_op 15) with (DEF OExt0F). unfold DEF. cbv iota.
    unfold op_param. cbn [e_names e_arg e_op]. rewrite st_ret. rewrite Ex. reflexivity.
  - rewrite (lc_whole E base s pre p _ Hf). rewrite (lc_pass E base _ 15 (b :: t) (ar s) p (blen pre) _ _ _ F W C). unfold pass. change (15 =? 241) with false. change (ca_op 15) with (DEF OExt0F). unfold DEF. cbv iota.
    unfold op_param. cbn [e_names e_arg e_op]. unfold ret at 1. rewrite Ex. change (E_UNDEF =? E_CONTINUE) with false. cbv iota. unfold complaint. rewrite Ef, Hn.
    unfold op_text2. cbn [joined]. rewrite app_empty. reflexivity.
Qed.
(** ** A repeated prefix is refused silently *)
Lemma again_says s pre p b t : fetched E base s pre p (b :: t) -> prefix_byte b -> add_prefix p b = None -> loop_complaint E 6 (reset s) = "".
Proof.
  intros Hf Hb Hn. rewrite (lc_whole E base s pre p _ Hf). pose proof Hf as (Rd & Hp & _). destruct Rd as [F W _ _]. apply prefixes_ok in Hp. unfold pfx_ok in Hp.
  rewrite (lc_pass E base _ b t (ar s) p (blen pre) _ _ _ F W (in_code _ _ _ _ Hf)). unfold pass. unfold add_prefix in Hn.
  destruct (prefix_entry b Hb) as (e & He & Hna & H241 & Hcase). replace (b =? 241) with false by lia. rewrite He.
  unfold op_param. rewrite Hna. unfold ret at 1. destruct Hcase as [[Ho Hs]|[Hs Hcase]].
  - rewrite Ho. cbn [exec exec1]. unfold x_ovr_seg. msteps. cbn [dec_of d_seg].
    destruct (seg_prefix b) as [k|]; [|congruence]. destruct (p_seg p) as [j|]; [|discriminate].
    destruct (Z.eqb_spec j (-1)); [lia|]. reflexivity.
  - rewrite Hs in Hn. destruct Hcase as [[-> Ho]|[[-> Ho]|[Hb' Ho]]].
    + cbn [Z.eqb Pos.eqb] in Hn. rewrite Ho. cbn [exec exec1]. unfold x_ovr_op. msteps. cbn [dec_of d_op].
      destruct (p_os p); [reflexivity|discriminate].
    + cbn [Z.eqb Pos.eqb] in Hn. rewrite Ho. cbn [exec exec1]. unfold x_ovr_addr. msteps. cbn [dec_of d_addr].
      destruct (p_as p); [reflexivity|discriminate].
    + replace (b =? 102) with false in Hn by lia. replace (b =? 103) with false in Hn by lia.
      replace ((b =? 242) || (b =? 243)) with true in Hn by lia.
      destruct (p_rep p =? 0) eqn:Hr; [discriminate|].
      destruct Ho as [Ho|Ho]; rewrite Ho; cbn [exec exec1]; unfold Ops.x_rep; msteps; cbn [dec_of d_rep]; rewrite Hr; reflexivity.
Qed.
(** ** Nothing else *)
Lemma all_explained s pre p bs c s1 : fetched E base s pre p bs -> wf_state s -> whole p (ar s) bs -> op_loop E 6 (reset s) = Err c s1 -> run_one E s = Err c s1 ->
  loop_complaint E 6 (reset s) = "" \/ message p (ar s) bs c (loop_complaint E 6 (reset s)).
Proof.
  intros Hf W Hw El Hr. pose proof Hf as (Rd & Hp & C). destruct Rd as [F Wr PC Hc]. pose proof (code_bytes E base _ _ _ _ Hf) as Hb.
  destruct bs as [|b t]; [destruct Hw|]. pose proof Hw as Hw0. destruct Hw as [->|[[Hpf Ha]|(Hor & Hrest)]].
  - destruct (f1_says s pre p t Hf) as [H1 H2]. rewrite H1 in El. injection El as <- <-. rewrite H2. right. destruct Wr. unfold inrange in *. change (2 ^ 16) with 65536 in *.
    apply msg_unset; apply fmt_x_ok; try lia; change (16 ^ Z.of_nat 4) with 65536; lia.
  - left. eapply again_says; eauto.
  - assert (Hx2 : forall v, 0 <= v < 256 -> hex_text 2 v (fmt_x 2 v)) by (intros; apply fmt_x_ok; [lia|]; change (16 ^ Z.of_nat 2) with 256; lia).
    destruct (dispatch (b :: t)) as [[[o k] m]|] eqn:Hd.
    + assert (Hl : op_loop E 6 (reset s) = match exec1 E o k (hst s p (blen pre + m)) with Err c s' => if c =? E_CONTINUE then op_loop E (5 - List.length pre) s' else Err c s' | x => x end).
      { destruct s as [a d g n l]. cbn [ar dc dbg icount lastnull] in *. change (reset (mkSt a d g n l)) with (mkSt a (dec_of (mkPfx None false false 0) 0) g (n + 1) l).
        rewrite (op_loop_exec E base a pre p g (n + 1) l (b :: t) o k m F Wr C Hp Hd). reflexivity. }
      rewrite Hl in El. assert (Hby : byte_memory (hst s p (blen pre + m))) by exact (ws_bytes _ W).
      destruct (dispatch_class (b :: t) o k m Hor Hb Hd) as (Hcl & _).
      destruct (exec1 E o k (hst s p (blen pre + m))) as [u s2|c2 s2|r|] eqn:Hx; try discriminate El.
      destruct (Z.eqb_spec c2 E_CONTINUE) as [->|N].
      * exfalso. assert (K : says (fun c => c <> E_CONTINUE) (exec1 E o k)) by (apply says_exec1; try exact Q; try discriminate; rewrite (cl_pre _ _ Hcl); discriminate).
        exact (says_not _ _ _ _ K Hby Hx).
      * injection El as -> ->. rewrite (lc_said E base s pre p (b :: t) o k m c s1 Hf Hd Hx N). eapply explained; eauto.
    + apply dispatch_none in Hd; [|exact Hor|exact Hb]. destruct Hor as (Hnp & Hn1 & _).
      assert (Cases : ca_op b = None \/ (b = 15 /\ exists b2 t2, t = b2 :: t2 /\ ca_op0F b2 = None)).
      { destruct (Z.eq_dec b 15) as [->|H15].
        - right. split; [reflexivity|]. destruct t as [|b2 t2]; [destruct Hd as [Hd|[_ []]]; exfalso; cbn in Hd; intuition congruence|]. exists b2, t2. split; [reflexivity|].
          assert (Hd0 : dispatch (15 :: b2 :: t2) = None) by (apply dispatch_none; [split; [exact Hnp|split; [exact Hn1|discriminate]]|exact Hb|exact Hd]).
          cbn [dispatch] in Hd0. change (15 =? 241) with false in Hd0. cbv iota in Hd0. change (15 =? 15) with true in Hd0. cbv iota in Hd0. destruct (ca_op0F b2); [discriminate|reflexivity].
        - left. destruct Hd as [Hd|[Hd _]]; [|contradiction]. pose proof (idx_ok _ PTop3.row1_ok b (Hb b (or_introl eq_refl))) as Hrow. unfold PTop3.row1 in Hrow.
          apply mem_In in Hd. destruct (ca_op b); [rewrite Hd in Hrow; discriminate Hrow|reflexivity]. }
      destruct Cases as [Hn|(-> & b2 & t2 & -> & Hn)].
      * destruct (op_says s pre p b t Hf Hn1 Hn) as [H1 H2]. rewrite H1 in El. injection El as <- <-. rewrite H2. right. apply msg_opcode; [|apply Hx2, Hb; left; reflexivity].
        destruct Hd as [Hd|[-> _]]; [exact Hd|discriminate Hn].
      * destruct (op2_says s pre p b2 t2 Hf Hn) as [H1 H2]. rewrite H1 in El. injection El as <- <-. rewrite H2. right. apply msg_opcode2; [|apply Hx2, Hb; right; left; reflexivity].
        destruct Hd as [Hd|[_ Hd]]; [exfalso; cbn in Hd; intuition congruence|exact Hd].
Qed.
End Msgs6.
