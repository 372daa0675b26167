(** Which instructions are refused (C86): every refusal is one of the specification. *)
From Coq Require Import String Ascii.
From Verif Require Import Base Cpu Alu Ops Machine Spec SpecOps SpecOps2 SpecSys SpecRun SpecTop SpecStop SpecEa SpecUb SpecCodes PBase PMem PRun PFrame PAlu PExec PIAlu PIAlu2 PIStack PStep PIInt PKeep PKeep2 PKeep3 PTop PTop2 PTop3 PStop PStop2 PEa PEa2 PEa3 PUb4 PLen PLen2 PCodes Dump SpecDump PDump TraceText SpecTrace PTrace PTrace2 SpecMsgs PMsgs PMsgs2 PMsgs3 PMsgs4 PMsgs5 PMsgs6 PMsgs7 PRefuse SpecRefuse.
Local Open Scope string_scope.
Local Open Scope Z_scope.

(** ** The opcodes of the handlers that refuse silently *)
Definition silent1 (b : Z) (e : entry) : bool :=
  match e_op e with
  | OHlt => b =? 0xF4
  | OMiscMI => (b =? 0xF6) && e_names e | OMiscMIX => (b =? 0xF7) && e_names e
  | OLxs _ => (b =? 0xC4) || (b =? 0xC5) | OLea => b =? 0x8D
  | OMovRS => b =? 0x8C | OMovSR => b =? 0x8E | OPopMX => b =? 0x8F
  | OPushA => b =? 0x60 | OPopA => b =? 0x61 | OPushF => b =? 0x9C | OPopF => b =? 0x9D
  | OBtx => false
  | _ => true
  end.
Definition silent2 (b : Z) (e : entry) : bool :=
  match e_op e with
  | OHlt | OMiscMI | OMiscMIX | OLea | OMovRS | OMovSR | OPopMX | OPushA | OPopA | OPushF | OPopF => false
  | OLxs _ => (b =? 178) || (b =? 180) || (b =? 181)
  | OBtx => b =? 186
  | _ => true
  end.
Lemma silents1 b e : 0 <= b < 256 -> b <> 15 -> ca_op b = Some e -> silent1 b e = true.
Proof.
  intros Hb H15 He. assert (K : forallb (fun b => match ca_op b with Some e => (b =? 15) || silent1 b e | None => true end) (map Z.of_nat (seq 0 256)) = true) by (vm_compute; reflexivity).
  rewrite forallb_forall in K. specialize (K b). assert (Hin : In b (map Z.of_nat (seq 0 256))) by (apply in_map_iff; exists (Z.to_nat b); split; [lia|apply in_seq; lia]).
  specialize (K Hin). rewrite He in K. replace (b =? 15) with false in K by lia. exact K.
Qed.
Lemma silents2 b e : 0 <= b < 256 -> ca_op0F b = Some e -> silent2 b e = true.
Proof.
  intros Hb He. assert (K : forallb (fun b => match ca_op0F b with Some e => silent2 b e | None => true end) (map Z.of_nat (seq 0 256)) = true) by (vm_compute; reflexivity).
  rewrite forallb_forall in K. specialize (K b). assert (Hin : In b (map Z.of_nat (seq 0 256))) by (apply in_map_iff; exists (Z.to_nat b); split; [lia|apply in_seq; lia]).
  specialize (K Hin). rewrite He in K. exact K.
Qed.
(** ** Messages and refusals *)
Lemma number_int a bs n : int_number a bs n -> software_int a bs n.
Proof. intros []; constructor; assumption. Qed.
Lemma message_refused p a bs c m : opcode_read bs -> message p a bs c m -> refused p a bs c.
Proof.
  intros Ho Hm. revert Ho. destruct Hm; intros Ho; try (now constructor).
  - apply rf_opcode; [exact Ho|]. left. assumption.
  - apply rf_opcode; [exact Ho|]. right. split; [reflexivity|assumption].
  - apply rf_invalid. cbn [invalid_form]. replace (2 <=? reg_field t) with true by lia. reflexivity.
  - apply rf_invalid. cbn [invalid_form]. replace (reg_field t =? 7) with true by lia. reflexivity.
  - destruct (Z.eq_dec (reg_field t) 7) as [H7|H7]; [apply rf_invalid; cbn [invalid_form]; rewrite H7; reflexivity|].
    apply rf_unsupported. cbn [unsupported_form]. rewrite H. cbn [In] in H0. cbn [mem_z existsb Z.eqb Pos.eqb andb orb]. lia.
  - apply rf_invalid. cbn [invalid_form]. cbn [In] in H0. cbn [mem_z existsb Z.eqb Pos.eqb andb orb]. lia.
  - apply rf_vector with (n := n); try assumption. apply number_int. assumption.
  - eapply rf_boundary; eassumption.
Qed.

Section Refuse2.
Context (E : env) (base : Z) (Pol : polite E) (Q : quiet_host E).

Lemma not_says {X} L (m : M X) c s s' : PRefuse.says E L m -> J E s -> m s = Err c s' -> L c.
Proof. intros H Hj Hx. specialize (H s Hj). rewrite Hx in H. apply H. Qed.
(** Without a crossing, the operand of a word instruction is no reason to refuse. *)
Lemma parse_code a p off g n l t : flat E base a -> wf_regs a -> pfx_ok p -> code_from a off t -> real_rm p a t <> None ->
  match parse_modrmx E (mkSt a (dec_of p off) g n l) with
  | Err c _ => c = E_BADMEM /\ exists x, straddle_t E (mkSt a (dec_of p off) g n l) = crossing a x
  | _ => True
  end.
Proof.
  intros F W Hp C Hr. rewrite (straddle_at E base a p off g n l t F W Hp C Hr). destruct t as [|b u]; [contradiction Hr; reflexivity|].
  destruct (real_address p a (b :: u)) as [[[rg x] r]|] eqn:Ha.
  - destruct (parsex_all E base a p off g n l (b :: u) rg x r F W Hp C Ha) as (b' & G1 & Hb & _ & G2). cbv zeta in G2.
    unfold parse_modrmx. unfold bind at 1. rewrite G1. unfold bind. rewrite G2. destruct (Z.eqb_spec (x mod 4096) 4095); [split; [reflexivity|exists x; reflexivity]|].
    destruct (x <? map_size); exact I.
  - cbn [real_rm] in Hr. rewrite Ha in Hr. destruct (Z.eqb_spec (b / 64) 3) as [H3|]; [|congruence].
    unfold parse_modrmx, bind. rewrite (get_modrm_code E base a p off g n l b u F W C). unfold decode_modmx. replace (m_mod (modrm_of b)) with (b / 64) by reflexivity. rewrite H3. exact I.
Qed.
Lemma crossing_text_not_empty a x : crossing a x <> "".
Proof. unfold crossing. destruct (fmt_x 0 (r_cs a)); discriminate. Qed.
(** F6, F7: the operand could be read. *)
Lemma misc_read8 a p off g n l t s' : flat E base a -> wf_regs a -> pfx_ok p -> code_from a off t -> real_rm p a t <> None ->
  x_misc_mi E 1 (mkSt a (dec_of p off) g n l) = Err E_UNDEF s' -> operand_read p a false t.
Proof.
  intros F W Hp C Hr Hx. destruct t as [|b u]; [contradiction Hr; reflexivity|]. unfold operand_read. cbn [mod_field]. cbn [real_rm] in Hr. destruct (Z.eqb_spec (b / 64) 3) as [H3|]; [left; exact H3|right].
  destruct (real_address p a (b :: u)) as [[[rg x] r]|] eqn:Ha; [|congruence]. exists rg, x, r. split; [reflexivity|]. split; [|discriminate].
  destruct (Z.ltb_spec x map_size) as [|Hl]; [assumption|exfalso]. unfold x_misc_mi, bind in Hx. rewrite (parse8_far E base a p off g n l (b :: u) rg x r F W Hp C Ha Hl) in Hx. discriminate Hx.
Qed.
Lemma misc_readx a p off g n l t s' : flat E base a -> wf_regs a -> pfx_ok p -> code_from a off t -> real_rm p a t <> None ->
  x_misc_mix E 1 (mkSt a (dec_of p off) g n l) = Err E_UNDEF s' -> operand_read p a true t.
Proof.
  intros F W Hp C Hr Hx. destruct t as [|b u]; [contradiction Hr; reflexivity|]. unfold operand_read. cbn [mod_field]. cbn [real_rm] in Hr. destruct (Z.eqb_spec (b / 64) 3) as [H3|]; [left; exact H3|right].
  destruct (real_address p a (b :: u)) as [[[rg x] r]|] eqn:Ha; [|congruence]. exists rg, x, r. split; [reflexivity|].
  destruct (parsex_all E base a p off g n l (b :: u) rg x r F W Hp C Ha) as (b' & G1 & Hb & _ & G2). cbv zeta in G2.
  unfold x_misc_mix, parse_modrmx in Hx. unfold bind at 1 in Hx. unfold bind at 1 in Hx. rewrite G1 in Hx. unfold bind at 1 in Hx. rewrite G2 in Hx.
  destruct (Z.eqb_spec (x mod 4096) 4095) as [|Hn]; [discriminate Hx|]. destruct (Z.ltb_spec x map_size) as [Hl|Hl]; [auto|discriminate Hx].
Qed.

Lemma invalid_lxs b t : b = 196 \/ b = 197 \/ b = 141 -> mod_field t = 3 -> invalid_form (b :: t) = true.
Proof. intros [->|[->| ->]] H; cbn [invalid_form]; rewrite H; reflexivity. Qed.
Lemma invalid_lxs2 b t : b = 178 \/ b = 180 \/ b = 181 -> mod_field t = 3 -> invalid_form (15 :: b :: t) = true.
Proof. intros [->|[->| ->]] H; cbn [invalid_form]; rewrite H; reflexivity. Qed.
Lemma modrm_code_field a p off g n l t : flat E base a -> wf_regs a -> code_from a off t -> real_rm p a t <> None ->
  exists m s1, get_modrm E (mkSt a (dec_of p off) g n l) = Ok m s1 /\ m_mod m = mod_field t.
Proof.
  intros F W C Hr. destruct t as [|b u]; [contradiction Hr; reflexivity|]. rewrite (get_modrm_code E base a p off g n l b u F W C). eexists _, _. split; [reflexivity|]. reflexivity.
Qed.
Lemma handler_refused s pre p bs o k m c s' : fetched E base s pre p bs -> wf_state s -> whole p (ar s) bs -> opcode_read bs -> dispatch bs = Some (o, k, m) ->
  exec1 E o k (hst s p (blen pre + m)) = Err c s' -> run_one E s = Err c s' -> c <> E_CONTINUE -> c <> E_DIVERR -> refused p (ar s) bs c.
Proof.
  intros Hf W Hw Hor Hd Hx Hrun N1 N5. destruct (explained E base Q s pre p bs o k m c s' Hf W Hw Hor Hd Hx Hrun) as [Hm|Hm]; [|exact (message_refused p (ar s) bs c _ Hor Hm)].
  pose proof Hf as (Rd & Hp & C). destruct Rd as [F Wr PC Hc]. pose proof (prefixes_ok _ _ Hp) as Hpo. pose proof (code_bytes E base _ _ _ _ Hf) as Hb.
  assert (Hj : J E (hst s p (blen pre + m))) by (split; [exact (ws_bytes _ W)|exact (flat_open E base _ F)]).
  pose proof (in_code E base _ _ _ _ Hf) as C0.
  assert (Hdig : forall q, 0 <= reg_field q < 8) by (intros [|q0 q]; cbn [reg_field]; lia).
  assert (Hrm : match has_modrm bs with Some (_, t') => real_rm p (ar s) t' <> None | None => True end).
  { destruct bs as [|b t]; [destruct Hor|]. destruct Hor as (Hnp & Hn1 & _). destruct Hw as [->|[[Hpf _]|(_ & H1 & _)]]; [congruence|contradiction|exact H1]. }
  destruct (dispatch_class bs o k m Hor Hb Hd) as (Hcl & _). pose proof (cl_pre _ _ Hcl) as Hnpre.
  destruct (plain o) eqn:Hpl.
  - (* no word operand *)
    assert (Hc3 : c = E_HALT /\ is_hlt o = true \/ c = E_UNDEF /\ may_undef o = true).
    { assert (Hsp : PRefuse.says E (fun c => c = E_HALT /\ is_hlt o = true \/ c = E_UNDEF /\ may_undef o = true \/ c = E_DIVERR) (exec1 E o k)).
      { apply PRefuse.says_plain; auto. intros X. rewrite X in Hnpre. discriminate. }
      pose proof (not_says _ _ c _ s' Hsp Hj Hx) as K. cbv beta in K. tauto. }
    destruct (shape bs o k m Hb Hd) as [(b & t & e & -> & -> & H15 & He & Hoo & Hr & Hk)|(b & t & e & -> & -> & He & Hoo & Hr)].
    + pose proof (silents1 b e (Hb b (or_introl eq_refl)) H15 He) as Hs. unfold silent1 in Hs. rewrite Hoo in Hs. pose proof (proj2 (code_from_cons _ _ _ _ C0)) as Ct.
      destruct Hc3 as [[-> Hh]|[-> Hu]].
      * destruct o; try discriminate Hh. cbn in Hs. assert (b = 0xF4) as -> by lia. apply rf_halt.
      * destruct o; try discriminate Hpl; try discriminate Hu; try (rewrite Hnpre in Hu; discriminate Hu); cbn [complaint1 Z.eqb Pos.eqb] in Hm; cbn in Hs; try discriminate Hnpre.
        -- (* F6 *) apply andb_true_iff in Hs. destruct Hs as [Hs Hn]. destruct (Hk Hn) as [_ ->]. assert (b = 246) as -> by lia. cbn [exec1] in Hx.
           assert (H1 : reg_field t = 1).
           { destruct (Z.eq_dec (reg_field t) 1) as [|H1]; [assumption|exfalso]. pose proof (PRefuse.misc_known E (fun c => c <> E_UNDEF) (reg_field t) _ (Hdig t) H1 ltac:(discriminate) Hj) as K. rewrite Hx in K. apply K. reflexivity. }
           apply rf_group3; [left; reflexivity|exact H1|]. rewrite H1 in Hx. exact (misc_read8 _ p _ _ _ _ t s' F Wr Hpo Ct Hrm Hx).
        -- (* FE *) discriminate Hm.
        -- (* ENTER *) discriminate Hm.
        -- (* LDS, LES *) assert (Hb2 : b = 196 \/ b = 197) by lia. assert (Hrm' : real_rm p (ar s) t <> None) by (destruct Hb2 as [->| ->]; exact Hrm).
           destruct (modrm_code_field (ar s) p _ (dbg s) (icount s + 1) (lastnull s) t F Wr Ct Hrm') as (mr & s1 & Hg & Hmf). apply rf_invalid, invalid_lxs; [tauto|].
           destruct (Z.eq_dec (mod_field t) 3) as [|H3]; [assumption|exfalso]. cbn [exec1] in Hx.
           pose proof (PRefuse.lxs_memory E (fun c => c <> E_UNDEF) sreg _ mr s1 Hj Hg ltac:(congruence)) as K. rewrite Hx in K. apply K. reflexivity.
        -- (* LEA *) assert (b = 141) as -> by lia.
           destruct (modrm_code_field (ar s) p _ (dbg s) (icount s + 1) (lastnull s) t F Wr Ct Hrm) as (mr & s1 & Hg & Hmf). apply rf_invalid, invalid_lxs; [tauto|].
           destruct (Z.eq_dec (mod_field t) 3) as [|H3]; [assumption|exfalso]. cbn [exec1] in Hx.
           pose proof (PRefuse.lea_memory E (fun c => c <> E_UNDEF) _ mr s1 Hj Hg ltac:(congruence)) as K. rewrite Hx in K. apply K. reflexivity.
        -- apply rf_stack; [|cbn [In]; lia]. destruct (p_os p) eqn:Hos; [reflexivity|exfalso]. pose proof (PRefuse.stack_narrow E (fun c => c <> E_UNDEF) OPushA k _ ltac:(cbn [In]; tauto) Hj Hos) as K. rewrite Hx in K. apply K. reflexivity.
        -- apply rf_stack; [|cbn [In]; lia]. destruct (p_os p) eqn:Hos; [reflexivity|exfalso]. pose proof (PRefuse.stack_narrow E (fun c => c <> E_UNDEF) OPopA k _ ltac:(cbn [In]; tauto) Hj Hos) as K. rewrite Hx in K. apply K. reflexivity.
        -- apply rf_stack; [|cbn [In]; lia]. destruct (p_os p) eqn:Hos; [reflexivity|exfalso]. pose proof (PRefuse.stack_narrow E (fun c => c <> E_UNDEF) OPushF k _ ltac:(cbn [In]; tauto) Hj Hos) as K. rewrite Hx in K. apply K. reflexivity.
        -- apply rf_stack; [|cbn [In]; lia]. destruct (p_os p) eqn:Hos; [reflexivity|exfalso]. pose proof (PRefuse.stack_narrow E (fun c => c <> E_UNDEF) OPopF k _ ltac:(cbn [In]; tauto) Hj Hos) as K. rewrite Hx in K. apply K. reflexivity.
    + pose proof (silents2 b e (Hb b ltac:(right; left; reflexivity)) He) as Hs. unfold silent2 in Hs. rewrite Hoo in Hs.
      unfold PMsgs3.row2 in Hr. rewrite Hoo in Hr. pose proof (proj2 (code_from_cons _ _ _ _ (proj2 (code_from_cons _ _ _ _ C0)))) as Ct.
      destruct Hc3 as [[-> Hh]|[-> Hu]]; [destruct o; try discriminate Hh; discriminate Hs|].
      destruct o; try discriminate Hpl; try discriminate Hu; try (rewrite Hnpre in Hu; discriminate Hu); cbn in Hs, Hr; try discriminate Hnpre; try discriminate Hs; try discriminate Hr.
      assert (Hb2 : b = 178 \/ b = 180 \/ b = 181) by lia. assert (Hrm' : real_rm p (ar s) t <> None) by (destruct Hb2 as [->|[->| ->]]; exact Hrm).
      replace (blen pre + 1 + 1) with (blen pre + 2) in Ct by lia.
      destruct (modrm_code_field (ar s) p _ (dbg s) (icount s + 1) (lastnull s) t F Wr Ct Hrm') as (mr & s1 & Hg & Hmf). apply rf_invalid, invalid_lxs2; [assumption|].
      destruct (Z.eq_dec (mod_field t) 3) as [|H3]; [assumption|exfalso]. cbn [exec1] in Hx.
      pose proof (PRefuse.lxs_memory E (fun c => c <> E_UNDEF) sreg _ mr s1 Hj Hg ltac:(congruence)) as K. rewrite Hx in K. apply K. reflexivity.
  - destruct (word_op o || imul_op o) eqn:Hwi.
    + (* a word operand *)
      destruct (word_shape bs o k m Hb Hd Hwi) as (t & Hmr & Hfar & Hpos). rewrite Hmr in Hrm.
      assert (C2 : code_from (ar s) (blen pre + m) t).
      { destruct Hpos as [[-> (b & ->)]|[-> (b & ->)]].
        - apply code_from_cons in C0. apply C0.
        - apply code_from_cons in C0. destruct C0 as [_ C1]. apply code_from_cons in C1. destruct C1 as [_ C1]. replace (blen pre + 2) with (blen pre + 1 + 1) by lia. exact C1. }
      pose proof (parse_code (ar s) p (blen pre + m) (dbg s) (icount s + 1) (lastnull s) t F Wr Hpo C2 Hrm) as Hpc. fold (hst s p (blen pre + m)) in Hpc.
      assert (Hcx : parse_modrmx E (hst s p (blen pre + m)) = Err c s' -> False).
      { intros X. rewrite X in Hpc. destruct Hpc as (-> & x & Hst). destruct (word_op o) eqn:Wo.
        - rewrite complaint_word in Hm by exact Wo. change (E_BADMEM =? E_BADMEM) with true in Hm. cbv iota in Hm. rewrite Hst in Hm. exact (crossing_text_not_empty _ _ Hm).
        - cbn [orb] in Hwi. rewrite complaint_imul in Hm by exact Hwi. change (E_BADMEM =? E_BUG) with false in Hm. change (E_BADMEM =? E_BADMEM) with true in Hm. cbv iota in Hm. rewrite Hst in Hm. exact (crossing_text_not_empty _ _ Hm). }
      assert (Hc3 : c = E_UNDEF /\ may_undef o = true \/ c = E_BUG /\ may_bug o = true \/ c = E_BADMEM).
      { assert (Hwk : PRefuse.wk E (fun c => c = E_UNDEF /\ may_undef o = true \/ c = E_BUG /\ may_bug o = true \/ c = E_BADMEM \/ c = E_DIVERR) (exec1 E o k)) by (apply PRefuse.wk_word; auto).
        pose proof (Hwk _ Hj) as K.
        rewrite Hx in K. unfold parsed in K. destruct (parse_modrmx E (hst s p (blen pre + m))) as [? ?|c2 ?| |]; [specialize (K I); tauto| |specialize (K I); tauto|specialize (K I); tauto]. destruct Hpc as [-> _]. specialize (K ltac:(tauto)). tauto. }
      destruct Hc3 as [[-> Hu]|[[-> Hbug]| ->]].
      2:{ exfalso. destruct o; try discriminate Hbug; try discriminate Hwi; discriminate Hm. }
      2:{ exfalso. (* a refused operand is reported *)
          assert (Hst : straddle_t E (hst s p (blen pre + m)) = "").
          { destruct (word_op o) eqn:Wo; [rewrite complaint_word in Hm by exact Wo; exact Hm|]. cbn [orb] in Hwi. rewrite complaint_imul in Hm by exact Hwi. exact Hm. }
          assert (Hpp : parsed E (fun c => c <> E_BADMEM) (hst s p (blen pre + m))).
          { unfold parsed. destruct (parse_modrmx E (hst s p (blen pre + m))) as [? ?|c2 ?| |]; auto. destruct Hpc as (_ & x & Hx2). rewrite Hx2 in Hst. exfalso. exact (crossing_text_not_empty _ _ Hst). }
          assert (Hwk : PRefuse.wk E (fun c => c <> E_BADMEM) (exec1 E o k)) by (apply PRefuse.wk_word; auto; discriminate). pose proof (Hwk _ Hj Hpp) as K. rewrite Hx in K. apply K. reflexivity. }
      assert (Hpp : parsed E (fun c => c <> E_UNDEF) (hst s p (blen pre + m))).
      { unfold parsed. destruct (parse_modrmx E (hst s p (blen pre + m))) as [? ?|c2 ?| |]; auto. destruct Hpc as (-> & _). discriminate. }
      destruct (shape bs o k m Hb Hd) as [(b & q & e & -> & -> & H15 & He & Hoo & Hr & Hk)|(b & q & e & -> & -> & He & Hoo & Hr)].
      * assert (q = t) as -> by (destruct Hpos as [[_ (b' & Hq)]|[X _]]; [congruence|discriminate X]).
        pose proof (silents1 b e (Hb b (or_introl eq_refl)) H15 He) as Hs. unfold silent1 in Hs. rewrite Hoo in Hs.
        destruct o; try discriminate Hwi; try discriminate Hu; cbn in Hs; try discriminate Hs.
        -- (* F7 *) apply andb_true_iff in Hs. destruct Hs as [Hs Hn]. destruct (Hk Hn) as [_ ->]. assert (b = 247) as -> by lia. cbn [exec1] in Hx.
           assert (H1 : reg_field t = 1).
           { destruct (Z.eq_dec (reg_field t) 1) as [|H1]; [assumption|exfalso]. pose proof (PRefuse.misc_knownx E (fun c => c <> E_UNDEF) (reg_field t) _ (Hdig t) H1 ltac:(discriminate) Hj Hpp) as K. rewrite Hx in K. apply K. reflexivity. }
           apply rf_group3; [right; reflexivity|exact H1|]. rewrite H1 in Hx. exact (misc_readx _ p _ _ _ _ t s' F Wr Hpo C2 Hrm Hx).
        -- assert (b = 140) as -> by lia. apply rf_unsupported. cbn [unsupported_form]. destruct (p_os p) eqn:Hos; [reflexivity|exfalso].
           pose proof (PRefuse.word_narrow E (fun c => c <> E_UNDEF) OMovRS k _ ltac:(cbn [In]; tauto) Hj Hpp Hos) as K. rewrite Hx in K. apply K. reflexivity.
        -- assert (b = 142) as -> by lia. apply rf_unsupported. cbn [unsupported_form]. destruct (p_os p) eqn:Hos; [reflexivity|exfalso].
           pose proof (PRefuse.word_narrow E (fun c => c <> E_UNDEF) OMovSR k _ ltac:(cbn [In]; tauto) Hj Hpp Hos) as K. rewrite Hx in K. apply K. reflexivity.
        -- assert (b = 143) as -> by lia. apply rf_unsupported. cbn [unsupported_form]. destruct (p_os p) eqn:Hos; [reflexivity|exfalso].
           pose proof (PRefuse.word_narrow E (fun c => c <> E_UNDEF) OPopMX k _ ltac:(cbn [In]; tauto) Hj Hpp Hos) as K. rewrite Hx in K. apply K. reflexivity.
      * pose proof (silents2 b e (Hb b ltac:(right; left; reflexivity)) He) as Hs. unfold silent2 in Hs. rewrite Hoo in Hs.
        destruct o; try discriminate Hwi; try discriminate Hu; cbn in Hs; try discriminate Hs.
        assert (b = 186) as -> by lia. apply rf_unsupported. reflexivity.
    + (* FF and interrupts *)
      destruct (shape bs o k m Hb Hd) as [(b & t & e & -> & -> & H15 & He & Hoo & Hr & Hk)|(b & t & e & -> & -> & He & Hoo & Hr)].
      2:{ unfold PMsgs3.row2 in Hr. rewrite Hoo in Hr. destruct o; try discriminate Hpl; try discriminate Hwi; cbn in Hr; try discriminate Hr; cbn [exec1] in Hx; try (destruct f; discriminate).
          exfalso. unfold ca_op0F in He. pose proof (PTop.ca_table (fun e => negb (is_0F (e_op e))) caOperations0F _ e ltac:(vm_compute; reflexivity) He) as T. cbn beta in T. rewrite Hoo in T. discriminate. }
      unfold PMsgs3.row1 in Hr. rewrite Hoo in Hr. pose proof (proj2 (code_from_cons _ _ _ _ C0)) as Ct.
      destruct o; cbn [plain] in Hpl; try discriminate Hpl; try discriminate Hwi; try (destruct f; discriminate); cbn in Hr.
      * (* FF *) apply andb_true_iff in Hr. destruct Hr as [Hr Hn]. assert (b = 255) as -> by lia. destruct (Hk Hn) as [Ht ->]. cbn [complaint1 exec1] in *. exfalso.
        assert (Hrm' : real_rm p (ar s) t <> None) by exact Hrm.
        pose proof (parse_code (ar s) p (blen pre + 1) (dbg s) (icount s + 1) (lastnull s) t F Wr Hpo Ct Hrm') as Hpc. fold (hst s p (blen pre + 1)) in Hpc.
        assert (Hbad : parsed E (fun c => c = E_UNDEF \/ c = E_BADMEM) (hst s p (blen pre + 1))).
        { unfold parsed. destruct (parse_modrmx E (hst s p (blen pre + 1))); auto. right. apply Hpc. }
        assert (Hst : straddle_t E (hst s p (blen pre + 1)) = "" -> parsed E (fun c => c = E_UNDEF) (hst s p (blen pre + 1))).
        { intros Hst. unfold parsed. destruct (parse_modrmx E (hst s p (blen pre + 1))); auto. destruct Hpc as (_ & x & Hx2). rewrite Hx2 in Hst. exfalso. exact (crossing_text_not_empty _ _ Hst). }
        change (d_op (dc (hst s p (blen pre + 1)))) with (p_os p) in Hm. destruct (p_os p) eqn:Hos.
        -- pose proof (PRefuse.wk_unary_mx32 E (fun c => c = E_UNDEF \/ c = E_BADMEM) (reg_field t) _ Hj Hbad Hos ltac:(cbv beta; auto)) as K. rewrite Hx in K. destruct K as [->| ->]; [discriminate Hm|].
           pose proof (PRefuse.wk_unary_mx32 E (fun c => c = E_UNDEF) (reg_field t) _ Hj (Hst Hm) Hos ltac:(cbv beta; auto)) as K. rewrite Hx in K. discriminate K.
        -- destruct ((reg_field t =? 3) || (reg_field t =? 5)) eqn:K35.
           ++ pose proof (PRefuse.says_unary_far E (fun c => c = E_UNDEF) (reg_field t) _ ltac:(lia) eq_refl Hj) as K. rewrite Hx in K. subst c. discriminate Hm.
           ++ pose proof (PRefuse.wk_unary_mx16 E (fun c => c = E_UNDEF \/ c = E_BADMEM) (reg_field t) _ ltac:(lia) Hj Hbad Hos ltac:(cbv beta; auto)) as K. rewrite Hx in K. destruct K as [->| ->]; [discriminate Hm|].
              pose proof (PRefuse.wk_unary_mx16 E (fun c => c = E_UNDEF) (reg_field t) _ ltac:(lia) Hj (Hst Hm) Hos ltac:(cbv beta; auto)) as K. rewrite Hx in K. discriminate K.
      * (* 0F *) exfalso. pose proof (PTop.ca_table (fun e => negb (is_0F (e_op e)) || (negb (e_names e))) caOperations _ e ltac:(vm_compute; reflexivity) He) as _.
        pose proof (op_table b (Hb b (or_introl eq_refl))) as T. rewrite He in T. unfold op_code_ok in T. rewrite Hoo in T. cbn in T. rewrite !andb_true_iff in T. lia.
      * assert (b = 204) as -> by lia. cbn [exec1 complaint1] in *. exfalso. pose proof (PRefuse.interrupt_open E (fun _ => False) 3 _ Q Hj) as K. rewrite Hx in K. destruct K as [[]|(-> & v1 & v2 & s1 & K1 & K2 & -> & ->)].
        change (E_BADMEM =? E_BADMEM) with true in Hm. cbv iota in Hm. unfold ivt_t in Hm. rewrite K1, K2 in Hm. discriminate Hm.
      * assert (b = 205) as -> by lia. cbn [exec1 complaint1] in *. exfalso. unfold x_int_i in Hx. unfold bind at 1 in Hx.
        destruct (fetch8 E (hst s p (blen pre + 1))) as [n s2|c2 s2| |] eqn:Hf8; try discriminate Hx.
        -- assert (J2 : J E s2). { pose proof (PRefuse.says_fetch E (fun _ => True) 8 _ Hj) as K. unfold fetch8 in Hf8. rewrite Hf8 in K. apply K. }
           pose proof (PRefuse.interrupt_open E (fun _ => False) n _ Q J2) as K. rewrite Hx in K. destruct K as [[]|(-> & v1 & v2 & s1 & K1 & K2 & -> & ->)].
           change (E_BADMEM =? E_BADMEM) with true in Hm. cbv iota in Hm. unfold ivt_t in Hm. rewrite K1, K2 in Hm. discriminate Hm.
        -- pose proof (PRefuse.says_fetch E (fun _ => False) 8 _ Hj) as K. unfold fetch8 in Hf8. rewrite Hf8 in K. apply K.
      * assert (b = 206) as -> by lia. cbn [exec1 complaint1] in *. exfalso. unfold x_into in Hx. unfold bind at 1 in Hx. unfold getflags, getA, gets in Hx.
        destruct (ftest M_OF _); [|discriminate Hx]. pose proof (PRefuse.interrupt_open E (fun _ => False) 4 _ Q Hj) as K. rewrite Hx in K. destruct K as [[]|(-> & v1 & v2 & s1 & K1 & K2 & -> & ->)].
        change (E_BADMEM =? E_BADMEM) with true in Hm. cbv iota in Hm. unfold ivt_t in Hm. rewrite K1, K2 in Hm. discriminate Hm.
Qed.

(** ** Only these are refused *)
Lemma all_refused s pre p bs c s1 : fetched E base s pre p bs -> wf_state s -> whole p (ar s) bs -> run_one E s = Err c s1 ->
  refused p (ar s) bs c \/ (c = E_BREAK /\ lastnull s = true /\ zeros s s1).
Proof.
  intros Hf W Hw Hr. destruct (run_fails E base Pol Q s pre p bs c s1 Hf W Hr) as [(El & Hd & _)|(Hc & Hl & Hz & _)]; [left|right; auto].
  pose proof Hf as (Rd & Hp & C). destruct Rd as [F Wr PC Hc]. pose proof (code_bytes E base _ _ _ _ Hf) as Hb.
  destruct bs as [|b t]; [destruct Hw|]. pose proof Hw as Hw0. destruct Hw as [->|[[Hpf Ha]|(Hor & Hrest)]].
  - destruct (f1_says E base s pre p t Hf) as [H1 _]. rewrite H1 in El. injection El as <- <-. apply rf_unset.
  - destruct (repeated_prefix_stops E base s pre p b t Hf Hpf Ha) as (s2 & X & _). rewrite X in Hr. injection Hr as <- _. apply rf_again; assumption.
  - destruct (dispatch (b :: t)) as [[[o k] m]|] eqn:Hdi.
    + assert (Hl : op_loop E 6 (reset s) = match exec1 E o k (hst s p (blen pre + m)) with Err c s' => if c =? E_CONTINUE then op_loop E (5 - List.length pre) s' else Err c s' | x => x end).
      { destruct s as [a d g n l]. cbn [ar dc dbg icount lastnull] in *. change (reset (mkSt a d g n l)) with (mkSt a (dec_of (mkPfx None false false 0) 0) g (n + 1) l).
        rewrite (op_loop_exec E base a pre p g (n + 1) l (b :: t) o k m F Wr C Hp Hdi). reflexivity. }
      rewrite Hl in El. assert (Hby : byte_memory (hst s p (blen pre + m))) by exact (ws_bytes _ W).
      destruct (dispatch_class (b :: t) o k m Hor Hb Hdi) as (Hcl & _).
      destruct (exec1 E o k (hst s p (blen pre + m))) as [u s2|c2 s2|r|] eqn:Hx; try discriminate El.
      destruct (Z.eqb_spec c2 E_CONTINUE) as [->|N].
      * exfalso. assert (K : PCodes.says (fun c => c <> E_CONTINUE) (exec1 E o k)) by (apply PCodes.says_exec1; try exact Q; try discriminate; rewrite (cl_pre _ _ Hcl); discriminate).
        exact (PMsgs4.says_not _ _ _ _ K Hby Hx).
      * injection El as -> ->. eapply handler_refused; eauto.
    + apply dispatch_none in Hdi; [|exact Hor|exact Hb]. destruct (undefined_stops E base s pre p (b :: t) Hf Hor Hdi) as (s2 & X & _). rewrite X in Hr. injection Hr as <- _. apply rf_opcode; assumption.
Qed.
(** ** All these are refused *)
Lemma whole_modrm p a bs : whole p a bs -> forall w t, has_modrm bs = Some (w, t) -> real_rm p a t <> None.
Proof.
  intros Hw w t Hm. destruct bs as [|b q]; [destruct Hw|]. destruct Hw as [->|[[Hpf _]|(_ & H1 & _)]].
  - discriminate Hm.
  - exfalso. unfold prefix_byte in Hpf. cbn [In] in Hpf. repeat (destruct Hpf as [<-|Hpf]; [discriminate Hm|]). exact Hpf.
  - rewrite Hm in H1. exact H1.
Qed.
Lemma whole_read p a bs : whole p a bs -> modrm_read bs.
Proof.
  intros Hw. unfold modrm_read. destruct (has_modrm bs) as [[w t]|] eqn:Hm; [|exact I]. pose proof (whole_modrm p a bs Hw w t Hm) as K. destruct t; [apply K; reflexivity|exact I].
Qed.
Lemma misc8_refused a p off g n l t : flat E base a -> wf_regs a -> pfx_ok p -> code_from a off t -> t <> nil -> operand_read p a false t ->
  exists d, x_misc_mi E 1 (mkSt a (dec_of p off) g n l) = Err E_UNDEF (mkSt a d g n l).
Proof.
  intros F W Hp C Ht [H3|(rg & x & r & Ha & Hl & _)].
  - destruct t as [|b u]; [congruence|]. cbn [mod_field] in H3. unfold x_misc_mi, parse_modrm, bind. rewrite (get_modrm_code E base a p off g n l b u F W C).
    unfold decode_modm. replace (m_mod (modrm_of b)) with (b / 64) by reflexivity. rewrite H3. eexists. reflexivity.
  - unfold x_misc_mi, bind. rewrite (parse8_real E base a p off g n l t rg x r F W Hp C Ha Hl). eexists. reflexivity.
Qed.
Lemma miscx_refused a p off g n l t : flat E base a -> wf_regs a -> pfx_ok p -> code_from a off t -> t <> nil -> operand_read p a true t ->
  exists d, x_misc_mix E 1 (mkSt a (dec_of p off) g n l) = Err E_UNDEF (mkSt a d g n l).
Proof.
  intros F W Hp C Ht [H3|(rg & x & r & Ha & Hl & Hn)].
  - destruct t as [|b u]; [congruence|]. cbn [mod_field] in H3. unfold x_misc_mix, parse_modrmx, bind. rewrite (get_modrm_code E base a p off g n l b u F W C).
    unfold decode_modmx. replace (m_mod (modrm_of b)) with (b / 64) by reflexivity. rewrite H3. eexists. reflexivity.
  - unfold x_misc_mix, bind. rewrite (parsex_real E base a p off g n l t rg x r F W Hp C Ha (Hn eq_refl) Hl). eexists. reflexivity.
Qed.
Lemma refused_all s pre p bs c : fetched E base s pre p bs -> wf_state s -> whole p (ar s) bs -> refused p (ar s) bs c -> exists s1, run_one E s = Err c s1.
Proof.
  intros Hf W Hw Hr. pose proof Hf as (Rd & Hp & C). destruct Rd as [F Wr PC Hc]. pose proof (prefixes_ok _ _ Hp) as Hpo. pose proof (code_bytes E base _ _ _ _ Hf) as Hb.
  pose proof (in_code E base _ _ _ _ Hf) as C0. pose proof (whole_modrm _ _ _ Hw) as Hrm. pose proof (whole_read _ _ _ Hw) as Hmr.
  assert (St : forall c, stops E s c -> exists s1, run_one E s = Err c s1) by (intros c0 (s1 & H & _); eauto).
  assert (Pr : forall m, message p (ar s) bs c m -> exists s1, run_one E s = Err c s1).
  { intros m Hm. destruct (all_printed E base Pol Q s pre p bs c m Hf W Hw Hm) as (s1 & m' & H & _). eauto. }
  assert (Hfx : forall v, 0 <= v < 65536 -> hex_value v (fmt_x 0 v)) by (intros v Hv; apply fmt_x0; change (16 ^ 16) with 18446744073709551616; lia).
  destruct Hr as [t|t|b t K1 K2|bs K1 K2|bs K|bs K|op t Ho K1 K2|op t K1 K2|s0 s1 level t K1 K2|bs K|bs n K V1 V2|bs t rg x rest Hm Ha He H1 H2 H3 H4 H5].
  - apply St. eapply err_stops; [exact Hf|reflexivity|reflexivity|discriminate|discriminate].
  - apply St. eapply f1_stops. exact Hf.
  - apply St. eapply repeated_prefix_stops; eassumption.
  - apply St. eapply undefined_stops; eassumption.
  - apply St. eapply invalid_stops; eassumption.
  - apply St. eapply unsupported_stops; eassumption.
  - apply St. pose proof (proj2 (code_from_cons _ _ _ _ C0)) as Ct. assert (Ht : t <> nil) by (intros ->; discriminate K1). destruct t as [|mb u]; [congruence|]. cbn [reg_field] in K1.
    destruct Ho as [->| ->].
    + destruct (misc8_refused (ar s) p (blen pre + 1) (dbg s) (icount s + 1) (lastnull s) _ F Wr Hpo Ct Ht K2) as (d & Hx).
      eapply err_stops; [exact Hf|reflexivity| |discriminate|discriminate]. cbn [e_op e_arg exec1]. rewrite K1. exact Hx.
    + destruct (miscx_refused (ar s) p (blen pre + 1) (dbg s) (icount s + 1) (lastnull s) _ F Wr Hpo Ct Ht K2) as (d & Hx).
      eapply err_stops; [exact Hf|reflexivity| |discriminate|discriminate]. cbn [e_op e_arg exec1]. rewrite K1. exact Hx.
  - apply St. cbn [In] in K2. destruct K2 as [<-|[<-|[<-|[<-|[]]]]]; (eapply err_stops; [exact Hf|reflexivity| |discriminate|discriminate]; cbn [e_op e_arg exec1]; unfold x_pusha, x_popa, x_pushf, x_popf; rewrite st_getD; cbn [dec_of d_op]; rewrite K1; reflexivity).
  - eapply Pr. apply msg_enter; assumption.
  - eapply Pr. apply msg_imul. exact K.
  - eapply Pr. apply (msg_vector p (ar s) bs n); try assumption. destruct K; constructor; assumption.
  - pose proof Wr as Wr0. destruct Wr. unfold inrange in *. change (2 ^ 16) with 65536 in *. eapply Pr. eapply msg_boundary; try eassumption; try (apply Hfx; assumption).
    apply fmt_x0. change (16 ^ 16) with 18446744073709551616. pose proof (real_linear E base p (ar s) t rg x rest) as L.
    assert (Hpos : exists off, code_from (ar s) off t).
    { destruct bs as [|b q]; [discriminate Hm|]. destruct (Z.eq_dec b 15) as [->|H15].
      - destruct q as [|b2 q]; [discriminate Hm|]. rewrite modrm_more2 in Hm. destruct (has_modrm [15; b2]) as [[? ?]|]; [|discriminate Hm]. injection Hm as _ <-. eexists. apply (code_from_cons _ _ _ _ (proj2 (code_from_cons _ _ _ _ C0))).
      - rewrite (modrm_more b q H15) in Hm. destruct (has_modrm [b]) as [[? ?]|]; [|discriminate Hm]. injection Hm as _ <-. eexists. apply (code_from_cons _ _ _ _ C0). }
    destruct Hpos as [off Ct]. specialize (L off F Wr0 Hpo Ct Ha). lia.
Qed.
End Refuse2.
