(** Proofs about the messages of failing instructions (C85): every message is one of the specification. *)
From Coq Require Import String Ascii.
From Verif Require Import Base Cpu Alu Ops Machine Spec SpecOps SpecOps2 SpecSys SpecRun SpecTop SpecStop SpecEa SpecUb SpecCodes PBase PMem PRun PFrame PAlu PExec PIAlu PIAlu2 PIStack PStep PIInt PKeep PKeep2 PKeep3 PTop PTop2 PTop3 PStop PStop2 PEa PEa2 PEa3 PUb4 PLen PLen2 PCodes Dump SpecDump PDump TraceText SpecTrace PTrace PTrace2 SpecMsgs PMsgs PMsgs2.
Local Open Scope string_scope.
Local Open Scope Z_scope.

Definition word_op (o : opid) : bool :=
  match o with
  | OAlu _ F_MRX | OAlu _ F_RMX | OArithMIX | OArithMI8X | OMiscMIX | OShiftMI8X | OShiftM1X | OShiftMClX
  | OBtx | OMovMRX | OMovRMX | OMovMIX | OMovRS | OMovSR | OMovZX | OXchgRMX | OPopMX | OBsf => true
  | _ => false
  end.
Definition imul_op (o : opid) : bool := match o with OImulMI8X | OImulMIX | OImulRMX => true | _ => false end.
Definition wide_modrm (bs : list Z) : bool := match has_modrm bs with Some (true, _) => true | _ => false end.
Definition row1 (b : Z) (e : entry) : bool :=
  match e_op e with
  | OUnaryM => (b =? 254) && e_names e
  | OUnaryMX => (b =? 255) && e_names e
  | OEnter => b =? 200 | OInt3 => b =? 204 | OIntI => b =? 205 | OInto => b =? 206
  | OImulMI8X | OImulMIX => (b =? 105) || (b =? 107)
  | OImulRMX => false
  | o => negb (word_op o) || wide_modrm [b]
  end.
Definition row2 (b : Z) (e : entry) : bool :=
  match e_op e with
  | OUnaryM | OUnaryMX | OEnter | OInt3 | OIntI | OInto | OImulMI8X | OImulMIX => false
  | OImulRMX => b =? 175
  | o => negb (word_op o) || wide_modrm [15; b]
  end.
Lemma rows1 b e : 0 <= b < 256 -> b <> 15 -> ca_op b = Some e -> row1 b e = true.
Proof.
  intros Hb H15 He. assert (K : forallb (fun b => match ca_op b with Some e => (b =? 15) || row1 b e | None => true end) (map Z.of_nat (seq 0 256)) = true) by (vm_compute; reflexivity).
  rewrite forallb_forall in K. specialize (K b). assert (Hin : In b (map Z.of_nat (seq 0 256))) by (apply in_map_iff; exists (Z.to_nat b); split; [lia|apply in_seq; lia]).
  specialize (K Hin). rewrite He in K. replace (b =? 15) with false in K by lia. exact K.
Qed.
Lemma rows2 b e : 0 <= b < 256 -> ca_op0F b = Some e -> row2 b e = true.
Proof.
  intros Hb He. assert (K : forallb (fun b => match ca_op0F b with Some e => row2 b e | None => true end) (map Z.of_nat (seq 0 256)) = true) by (vm_compute; reflexivity).
  rewrite forallb_forall in K. specialize (K b). assert (Hin : In b (map Z.of_nat (seq 0 256))) by (apply in_map_iff; exists (Z.to_nat b); split; [lia|apply in_seq; lia]).
  specialize (K Hin). rewrite He in K. exact K.
Qed.
Lemma modrm_more op t : op <> 15 -> has_modrm (op :: t) = match has_modrm [op] with Some (w, _) => Some (w, t) | None => None end.
Proof.
  intros H15. unfold has_modrm. destruct op as [|q|q]; [reflexivity| |reflexivity].
  repeat (destruct q as [q|q|]; try reflexivity; try (exfalso; apply H15; reflexivity)).
Qed.
Lemma modrm_more2 op t : has_modrm (15 :: op :: t) = match has_modrm [15; op] with Some (w, _) => Some (w, t) | None => None end.
Proof. cbn [has_modrm]. destruct (_ || _); [reflexivity|]. destruct (_ || _); reflexivity. Qed.

Section Msgs3.
Context (E : env) (base : Z) (Pol : polite E) (Q : quiet_host E).

Lemma complaint_word o k c s : word_op o = true -> complaint1 E o k c s = if c =? E_BADMEM then straddle_t E s else "".
Proof. destruct o; try discriminate; try (intros _; reflexivity). destruct f; try discriminate; intros _; reflexivity. Qed.
Lemma complaint_imul o k c s : imul_op o = true -> complaint1 E o k c s = if c =? E_BUG then "IMUL (MIX) OvrSize Unimpl" else if c =? E_BADMEM then straddle_t E s else "".
Proof. destruct o; try discriminate; intros _; reflexivity. Qed.

(** ** The word that crosses a block boundary *)
Definition crossing (a : arch) (x : Z) : string := fmt_x 0 (r_cs a) ++ ":" ++ fmt_x 0 (r_ip a) ++ " Word read across boundary (0x" ++ fmt_x 0 x ++ ")".
Lemma straddle_at a p off g n l t : flat E base a -> wf_regs a -> pfx_ok p -> code_from a off t -> real_rm p a t <> None ->
  straddle_t E (mkSt a (dec_of p off) g n l) = match real_address p a t with Some (_, x, _) => if x mod 4096 =? 4095 then crossing a x else "" | None => "" end.
Proof.
  intros F W Hp C Hr. destruct t as [|b u]; [contradiction Hr; reflexivity|]. unfold straddle_t. cbn [ar].
  destruct (real_address p a (b :: u)) as [[[rg x] r]|] eqn:Ha.
  - destruct (real_parts E base a p off g n l (b :: u) rg x r F W Hp C Ha) as (b' & u' & sg & o & Hb & Hr' & H3 & _ & Hx & G1 & G2). injection Hb as <- <-.
    rewrite G1. replace (m_mod (modrm_of b)) with (b / 64) by reflexivity. replace (b / 64 =? 3) with false by lia. rewrite G2. cbn [fst snd].
    replace (wrap 32 (sg * 16 + o)) with x by (rewrite Hx; unfold wrap, low; f_equal; lia). reflexivity.
  - cbn [real_rm] in Hr. rewrite Ha in Hr. destruct (Z.eqb_spec (b / 64) 3) as [H3|]; [|congruence].
    rewrite (get_modrm_code E base a p off g n l b u F W C). replace (m_mod (modrm_of b)) with (b / 64) by reflexivity. rewrite H3. reflexivity.
Qed.
Lemma real_linear p a t rg x r off : flat E base a -> wf_regs a -> pfx_ok p -> code_from a off t -> real_address p a t = Some (rg, x, r) -> 0 <= x < 4294967296.
Proof. intros F W Hp C Ha. apply (real_pos E base a p off 0 0 false t rg x r F W Hp C Ha). Qed.
Lemma crossing_text p a bs t rg x rest : wf_regs a -> 0 <= x < 4294967296 -> has_modrm bs = Some (true, t) -> real_address p a t = Some (rg, x, rest) -> x mod 4096 = 4095 ->
  invalid_form bs = false -> unsupported_form p bs = false -> imul_wide p bs = false -> far_indirect bs = false -> sreg_exists bs -> message p a bs E_BADMEM (crossing a x).
Proof.
  intros W Hx Hm Hr He H1 H2 H3 H4 H5. assert (X : crossing a x = joined [fmt_x 0 (r_cs a); ":"; fmt_x 0 (r_ip a); " Word read across boundary (0x"; fmt_x 0 x; ")"]).
  { unfold crossing. cbn [joined]. rewrite app_empty. reflexivity. }
  rewrite X. destruct W. unfold inrange in *. change (2 ^ 16) with 65536 in *. eapply msg_boundary; eauto; apply fmt_x0; change (16 ^ 16) with 18446744073709551616; lia.
Qed.
(** An instruction with a word operand that was refused with "bad memory" outside the exceptions. *)
Lemma word_case s pre p bs t m s1 : fetched E base s pre p bs -> has_modrm bs = Some (true, t) -> real_rm p (ar s) t <> None -> code_from (ar s) (blen pre + m) t ->
  far_indirect bs = false -> run_one E s = Err E_BADMEM s1 ->
  straddle_t E (hst s p (blen pre + m)) = "" \/ message p (ar s) bs E_BADMEM (straddle_t E (hst s p (blen pre + m))).
Proof.
  intros Hf Hm Hr C2 Hfar R. pose proof Hf as (Rd & Hp & C). destruct Rd as [F W PC Hc]. pose proof (prefixes_ok _ _ Hp) as Hpo.
  unfold hst. rewrite (straddle_at (ar s) p _ _ _ _ t F W Hpo C2 Hr). destruct (real_address p (ar s) t) as [[[rg x] r]|] eqn:Ha; [|left; reflexivity].
  destruct (Z.eqb_spec (x mod 4096) 4095) as [He|]; [|left; reflexivity]. right.
  assert (Hmr : modrm_read bs) by (unfold modrm_read; rewrite Hm; destruct t; [discriminate Ha|exact I]).
  assert (Hi : invalid_form bs = false) by (destruct (invalid_form bs) eqn:Hi; [destruct (invalid_stops E base s pre p bs Hf Hmr Hi) as (x1 & X & _); rewrite R in X; discriminate X|reflexivity]).
  assert (Hu : unsupported_form p bs = false) by (destruct (unsupported_form p bs) eqn:Hu; [destruct (unsupported_stops E base s pre p bs Hf Hmr Hu) as (x1 & X & _); rewrite R in X; discriminate X|reflexivity]).
  assert (Hw : imul_wide p bs = false) by (destruct (imul_wide p bs) eqn:Hw; [destruct (imul_wide_stops E base s pre p bs Hf Hw) as (x1 & X & _); rewrite R in X; discriminate X|reflexivity]).
  eapply crossing_text; eauto.
  - eapply real_linear; eauto.
  - unfold sreg_exists. destruct bs as [|op q]; [exact I|]. intros ->. destruct (Z.ltb_spec (reg_field q) 6) as [|Hge]; [assumption|exfalso].
    assert (Hos : p_os p = false) by (cbn [unsupported_form mem_z existsb Z.eqb Pos.eqb orb] in Hu; destruct (p_os p); [discriminate Hu|reflexivity]).
    assert (Ht : q <> []) by (intros ->; rewrite (modrm_more 142) in Hm by discriminate; cbn in Hm; injection Hm as <-; discriminate Ha).
    rewrite (sreg_ub E base s pre p q Hf Hos Ht Hge) in R. discriminate.
Qed.
End Msgs3.
