(** Proofs about the messages of failing instructions (C85): nothing else is said. *)
From Coq Require Import String Ascii.
From Verif Require Import Base Cpu Alu Ops Machine Spec SpecOps SpecOps2 SpecSys SpecRun SpecTop SpecStop SpecEa SpecUb SpecCodes PBase PMem PRun PFrame PAlu PExec PIAlu PIAlu2 PIStack PStep PIInt PKeep PKeep2 PKeep3 PTop PTop2 PTop3 PStop PStop2 PEa PEa2 PEa3 PUb4 PLen PLen2 PCodes Dump SpecDump PDump TraceText SpecTrace PTrace PTrace2 SpecMsgs PMsgs PMsgs2 PMsgs3 PMsgs4.
Local Open Scope string_scope.
Local Open Scope Z_scope.

Section Msgs5.
Context (E : env) (base : Z) (Pol : polite E) (Q : quiet_host E).

(** ** Interrupts *)
Definition zero_text : string := " Caught attempt to execute IVT pointing to 0000:0000".
Lemma ivt_text n a d g c l : 0 <= n < 256 -> flat E base a ->
  ivt_t E n (mkSt a d g c l) = if (mem 16 a (4 * n) =? 0) && (mem 16 a (4 * n + 2) =? 0) then zero_text else "".
Proof.
  intros Hn F. unfold ivt_t.
  pose proof (st_vec E base (fun v => ret v) a d g c l n Hn F) as V1. pose proof (st_vec2 E base (fun v => ret v) a d g c l n Hn F) as V2. unfold bind, ret in V1, V2.
  destruct (rd E 16 0 (n * 4) (mkSt a d g c l)) as [v1 x1| | |]; try discriminate V1. destruct (rd E 16 0 (n * 4 + 2) (mkSt a d g c l)) as [v2 x2| | |]; try discriminate V2.
  injection V1 as -> _. injection V2 as -> _. destruct (mem 16 a (4 * n)); try reflexivity. destruct (mem 16 a (4 * n + 2)); reflexivity.
Qed.
Lemma vector_said p a bs n d g c l : 0 <= n < 256 -> flat E base a -> int_number a bs n ->
  ivt_t E n (mkSt a d g c l) = "" \/ message p a bs E_BADMEM (ivt_t E n (mkSt a d g c l)).
Proof.
  intros Hn F Hi. rewrite ivt_text by assumption. destruct (Z.eqb_spec (mem 16 a (4 * n)) 0) as [H1|]; [|left; reflexivity].
  destruct (Z.eqb_spec (mem 16 a (4 * n + 2)) 0) as [H2|]; [|left; reflexivity]. right. apply (msg_vector p a bs n Hi H1 H2).
Qed.
Lemma into_err a d g n l c s' : x_into E (mkSt a d g n l) = Err c s' -> Z.testbit (r_flags a) 11 = true.
Proof.
  unfold x_into. rewrite st_getflags, ftest_OF. unfold flag. destruct (Z.testbit (r_flags a) 11); [reflexivity|discriminate].
Qed.
(** ** Handlers *)
Lemma explained s pre p bs o k m c s' : fetched E base s pre p bs -> wf_state s -> whole p (ar s) bs -> opcode_read bs -> dispatch bs = Some (o, k, m) ->
  exec1 E o k (hst s p (blen pre + m)) = Err c s' -> run_one E s = Err c s' ->
  complaint1 E o k c (hst s p (blen pre + m)) = "" \/ message p (ar s) bs c (complaint1 E o k c (hst s p (blen pre + m))).
Proof.
  intros Hf W Hw Hor Hd Hx Hrun. pose proof Hf as (Rd & Hp & C). destruct Rd as [F Wr PC Hc].
  pose proof (code_bytes E base _ _ _ _ Hf) as Hb.
  assert (Hby : byte_memory (hst s p (blen pre + m))) by exact (ws_bytes _ W).
  pose proof C as C0. apply code_from_0 in C0. apply code_from_app in C0. rewrite Z.add_0_l in C0.
  assert (Hrest : match has_modrm bs with Some (_, t') => real_rm p (ar s) t' <> None | None => True end /\
    (forall t, bs = 0xC8 :: t -> (3 <= List.length t)%nat) /\ (forall t, bs = 0xCD :: t -> t <> nil)).
  { destruct bs as [|b t]; [destruct Hor|]. destruct Hor as (Hnp & Hn1 & _). destruct Hw as [->|[[Hpf _]|(_ & H1 & H2 & H3)]]; [congruence|contradiction|].
    split; [exact H1|]. split; intros u Hu; injection Hu as -> ->; auto. }
  clear Hw. destruct Hrest as (Hrm & Hen & Hin).
  destruct (word_op o || imul_op o) eqn:Hwi.
  { destruct (word_shape bs o k m Hb Hd Hwi) as (t & Hm & Hfar & Hpos). rewrite Hm in Hrm.
    assert (C2 : code_from (ar s) (blen pre + m) t).
    { destruct Hpos as [[-> (b & ->)]|[-> (b & ->)]].
      - apply code_from_cons in C0. apply C0.
      - apply code_from_cons in C0. destruct C0 as [_ C0]. apply code_from_cons in C0. destruct C0 as [_ C0]. replace (blen pre + 2) with (blen pre + 1 + 1) by lia. exact C0. }
    assert (Word : c = E_BADMEM -> straddle_t E (hst s p (blen pre + m)) = "" \/ message p (ar s) bs c (straddle_t E (hst s p (blen pre + m)))).
    { intros ->. apply (word_case E base s pre p bs t m s'); assumption. }
    destruct (word_op o) eqn:Wo.
    - rewrite complaint_word by exact Wo. destruct (Z.eqb_spec c E_BADMEM) as [Hcb|]; [apply Word, Hcb|left; reflexivity].
    - cbn [orb] in Hwi. rewrite complaint_imul by exact Hwi. destruct (Z.eqb_spec c E_BUG) as [->|].
      + right. apply msg_imul. assert (Ho : o <> OExt0F) by (intros ->; discriminate).
        destruct (exec1_bug E Q o k _ _ Hby Ho Hx) as [_ Hop]. cbn [hst dc dec_of d_op] in Hop.
        destruct (shape bs o k m Hb Hd) as [(b & q & e & -> & -> & H15 & He & Hoo & Hr & _)|(b & q & e & -> & -> & He & Hoo & Hr)].
        * assert (Hb2 : b = 105 \/ b = 107) by (unfold PMsgs3.row1 in Hr; rewrite Hoo in Hr; destruct o; try discriminate Hwi; cbn in Hr; try discriminate Hr; lia).
          destruct Hb2 as [->| ->]; cbn [imul_wide]; rewrite Hop; reflexivity.
        * assert (Hb2 : b = 175) by (unfold PMsgs3.row2 in Hr; rewrite Hoo in Hr; destruct o; try discriminate Hwi; cbn in Hr; try discriminate Hr; lia).
          subst b. cbn [imul_wide]. rewrite Hop. reflexivity.
      + destruct (Z.eqb_spec c E_BADMEM) as [Hcb|]; [apply Word, Hcb|left; reflexivity]. }
  destruct (shape bs o k m Hb Hd) as [(b & t & e & -> & -> & H15 & He & Hoo & Hr & Hk)|(b & t & e & -> & -> & He & Hoo & Hr)].
  2:{ unfold PMsgs3.row2 in Hr. rewrite Hoo in Hr. destruct o; try discriminate Hwi; cbn in Hr; try discriminate Hr; try (left; reflexivity). destruct f; try discriminate Hwi; left; reflexivity. }
  unfold PMsgs3.row1 in Hr. rewrite Hoo in Hr. pose proof (proj2 (code_from_cons _ _ _ _ C0)) as Ct.
  assert (Hdig : forall q, 0 <= reg_field q < 8) by (intros [|q0 q]; cbn [reg_field]; lia).
  destruct o; try discriminate Hwi; try (left; reflexivity); try (destruct f; try discriminate Hwi; left; reflexivity); cbn in Hr.
  - (* Unary_M *)
    apply andb_true_iff in Hr. destruct Hr as [Hr Hn]. assert (b = 254) as -> by lia. destruct (Hk Hn) as [_ ->]. cbn [complaint1].
    destruct (Z.eqb_spec c E_UNDEF) as [->|]; [|left; reflexivity]. right. cbn [exec1] in Hx. destruct (unary_m_undef E _ _ _ Hby Hx) as [K0 K1].
    pose proof (Hdig t). apply (msg_group4 p (ar s) t (fmt_i (reg_field t))); [lia|apply one_digit; lia].
  - (* Unary_MX *)
    apply andb_true_iff in Hr. destruct Hr as [Hr Hn]. assert (b = 255) as -> by lia. destruct (Hk Hn) as [Ht ->]. cbn [complaint1 exec1] in *.
    pose proof (Hdig t) as Hdt. assert (Hm : has_modrm (255 :: t) = Some (true, t)) by reflexivity. rewrite Hm in Hrm.
    assert (Word : c = E_BADMEM -> far_indirect (255 :: t) = false -> straddle_t E (hst s p (blen pre + 1)) = "" \/ message p (ar s) (255 :: t) c (straddle_t E (hst s p (blen pre + 1)))).
    { intros -> Hfar. apply (word_case E base s pre p (255 :: t) t 1 s'); assumption. }
    change (d_op (dc (hst s p (blen pre + 1)))) with (p_os p). destruct (p_os p) eqn:Hos.
    + destruct (Z.eqb_spec c E_UNDEF) as [->|].
      * pose proof (unary_mx_undef32 E _ _ _ Hby Hos Hx) as K. right. apply msg_group5_wide; [exact Hos| |apply one_digit; lia]. cbn [In] in *. lia.
      * destruct (Z.eqb_spec c E_BADMEM) as [Hcb|]; [|left; reflexivity]. destruct (far_indirect (255 :: t)) eqn:Hfar; [|apply Word; assumption].
        exfalso. cbn [far_indirect mem_z existsb Z.eqb Pos.eqb andb orb] in Hfar. assert (reg_field t = 3 \/ reg_field t = 5) as K by lia.
        unfold x_unary_mx in Hx. unfold bind at 1, getD, gets in Hx. change (d_op (dc (hst s p (blen pre + 1)))) with (p_os p) in Hx. rewrite Hos in Hx.
        destruct K as [K|K]; rewrite K in Hx; injection Hx as Hx _; subst c; discriminate Hcb.
    + destruct ((reg_field t =? 3) || (reg_field t =? 5)) eqn:K35.
      * destruct (Z.eqb_spec c E_UNDEF) as [->|]; [|left; reflexivity]. right. apply msg_far; [exact Hos|cbn [In]; lia|].
        assert (K : reg_field t = 3 \/ reg_field t = 5) by lia. destruct t as [|mb t]; [congruence|]. exact (far_undef E _ _ _ _ _ Hby Hos K (fetch_modrm E base s pre p 255 mb t Hf) Hx).
      * destruct (Z.eqb_spec c E_UNDEF) as [->|].
        -- pose proof (unary_mx_undef16 E _ _ _ Hby Hos Hx) as K. right. apply msg_group5; [exact Hos| |apply one_digit; lia]. cbn [In] in *. lia.
        -- destruct (Z.eqb_spec c E_BADMEM) as [Hcb|]; [|left; reflexivity]. apply Word; [exact Hcb|]. cbn [far_indirect mem_z existsb Z.eqb Pos.eqb andb orb]. lia.
  - (* ENTER *)
    assert (b = 200) as -> by lia. cbn [complaint1 exec1] in *. destruct (Z.eqb_spec c E_UNDEF) as [->|]; [|left; reflexivity]. right.
    pose proof (Hen t eq_refl) as Hl. destruct t as [|s0 [|s1 [|level t]]]; cbn [List.length] in Hl; try lia.
    destruct (enter_undef E base _ _ _ _ _ _ s0 s1 level t _ _ F Wr Hby Ct Hx eq_refl) as [K1 K2]. apply msg_enter; assumption.
  - (* INT 3 *)
    assert (b = 204) as -> by lia. cbn [complaint1]. destruct (Z.eqb_spec c E_BADMEM) as [->|]; [|left; reflexivity]. apply vector_said; [lia|exact F|constructor].
  - (* INT *)
    assert (b = 205) as -> by lia. cbn [complaint1]. destruct (Z.eqb_spec c E_BADMEM) as [->|]; [|left; reflexivity].
    pose proof (Hin t eq_refl) as Ht. destruct t as [|n t]; [congruence|].
    unfold hst. rewrite (fetch8_code E base (ar s) (dec_of p (blen pre + 1)) _ _ _ n t F Wr Ct).
    apply vector_said; [|exact F|constructor]. apply Hb. right. left. reflexivity.
  - (* INTO *)
    assert (b = 206) as -> by lia. cbn [complaint1 exec1] in *. destruct (Z.eqb_spec c E_BADMEM) as [->|]; [|left; reflexivity].
    apply vector_said; [lia|exact F|constructor]. eapply into_err. exact Hx.
Qed.
End Msgs5.
