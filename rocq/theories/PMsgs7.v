(** Proofs about the messages of failing instructions (C85): every message of the specification is printed. *)
From Coq Require Import String Ascii.
From Verif Require Import Base Cpu Alu Ops Machine Spec SpecOps SpecOps2 SpecSys SpecRun SpecTop SpecStop SpecEa SpecUb SpecCodes PBase PMem PRun PFrame PAlu PExec PIAlu PIAlu2 PIStack PStep PIInt PKeep PKeep2 PKeep3 PTop PTop2 PTop3 PStop PStop2 PEa PEa2 PEa3 PUb4 PLen PLen2 PCodes Dump SpecDump PDump TraceText SpecTrace PTrace PTrace2 SpecMsgs PMsgs PMsgs2 PMsgs3 PMsgs4 PMsgs5 PMsgs6.
Local Open Scope string_scope.
Local Open Scope Z_scope.

Definition wide_op (o : opid) : bool := word_op o || imul_op o || match o with OUnaryMX => true | _ => false end.
Lemma wide_row1 b : 0 <= b < 256 -> b <> 15 -> wide_modrm [b] = true -> exists e, ca_op b = Some e /\ wide_op (e_op e) = true /\ (e_op e = OUnaryMX -> b = 255 /\ e_names e = true) /\ b <> 241.
Proof.
  intros Hb H15 Hw.
  assert (K : forallb (fun b => (b =? 15) || negb (wide_modrm [b]) || (negb (b =? 241) && match ca_op b with Some e => wide_op (e_op e) && (match e_op e with OUnaryMX => (b =? 255) && e_names e | _ => true end) | None => false end)) (map Z.of_nat (seq 0 256)) = true) by (vm_compute; reflexivity).
  rewrite forallb_forall in K. specialize (K b). assert (Hin : In b (map Z.of_nat (seq 0 256))) by (apply in_map_iff; exists (Z.to_nat b); split; [lia|apply in_seq; lia]).
  specialize (K Hin). rewrite Hw in K. replace (b =? 15) with false in K by lia. cbn [orb negb] in K. destruct (ca_op b) as [e|]; [|rewrite andb_false_r in K; discriminate K].
  apply andb_true_iff in K. destruct K as [K0 K]. apply andb_true_iff in K. destruct K as [K1 K2]. exists e. split; [reflexivity|]. split; [exact K1|]. split; [|lia].
  intros Ho. rewrite Ho in K2. apply andb_true_iff in K2. destruct K2. split; [lia|assumption].
Qed.
Lemma wide_row2 b : 0 <= b < 256 -> wide_modrm [15; b] = true -> exists e, ca_op0F b = Some e /\ word_op (e_op e) || imul_op (e_op e) = true.
Proof.
  intros Hb Hw.
  assert (K : forallb (fun b => negb (wide_modrm [15; b]) || match ca_op0F b with Some e => word_op (e_op e) || imul_op (e_op e) | None => false end) (map Z.of_nat (seq 0 256)) = true) by (vm_compute; reflexivity).
  rewrite forallb_forall in K. specialize (K b). assert (Hin : In b (map Z.of_nat (seq 0 256))) by (apply in_map_iff; exists (Z.to_nat b); split; [lia|apply in_seq; lia]).
  specialize (K Hin). rewrite Hw in K. cbn [orb negb] in K. destruct (ca_op0F b) as [e|]; [|discriminate K]. eauto.
Qed.
Lemma wide_dispatch bs t : (forall b, In b bs -> 0 <= b < 256) -> has_modrm bs = Some (true, t) -> t <> nil ->
  exists o k m, dispatch bs = Some (o, k, m) /\ wide_op o = true /\ (o = OUnaryMX -> bs = 255 :: t /\ k = reg_field t) /\ ((m = 1 /\ exists b, bs = b :: t) \/ (m = 2 /\ exists b, bs = 15 :: b :: t)).
Proof.
  intros Hb Hm Ht. destruct bs as [|b q]; [discriminate|]. destruct (Z.eq_dec b 15) as [->|H15].
  - destruct q as [|b2 q]; [discriminate|]. rewrite (modrm_more2 b2 q) in Hm. assert (Hw : wide_modrm [15; b2] = true) by (unfold wide_modrm; destruct (has_modrm [15; b2]) as [[w x]|]; [injection Hm as -> _; reflexivity|discriminate]).
    assert (q = t) as -> by (destruct (has_modrm [15; b2]) as [[w x]|]; [injection Hm as _ ->; reflexivity|discriminate]).
    destruct (wide_row2 b2 (Hb b2 (or_intror (or_introl eq_refl))) Hw) as (e & He & Hwo). exists (e_op e), (e_arg e), 2. unfold dispatch. change (15 =? 241) with false. change (15 =? 15) with true. cbv iota. rewrite He.
    split; [reflexivity|]. split; [unfold wide_op; rewrite Hwo; reflexivity|]. split; [|right; eauto]. intros Ho. rewrite Ho in Hwo. discriminate Hwo.
  - rewrite (modrm_more b q H15) in Hm. assert (Hw : wide_modrm [b] = true) by (unfold wide_modrm; destruct (has_modrm [b]) as [[w x]|]; [injection Hm as -> _; reflexivity|discriminate]).
    assert (q = t) as -> by (destruct (has_modrm [b]) as [[w x]|]; [injection Hm as _ ->; reflexivity|discriminate]).
    destruct (wide_row1 b (Hb b (or_introl eq_refl)) H15 Hw) as (e & He & Hwo & Hmx & H241). unfold dispatch. replace (b =? 241) with false by lia. replace (b =? 15) with false by lia. rewrite He.
    destruct t as [|mb t]; [congruence|]. destruct (e_names e) eqn:En; (do 3 eexists; split; [reflexivity|]; split; [exact Hwo|]; split; [|left; eauto]); intros Ho; destruct (Hmx Ho) as [-> Hn]; [split; reflexivity|congruence].
Qed.

Section Msgs7.
Context (E : env) (base : Z) (Pol : polite E) (Q : quiet_host E).

Definition printed (s : st) (p : pfx) (bs : list Z) (c : Z) : Prop :=
  exists s1 m, run_one E s = Err c s1 /\ message p (ar s) bs c m /\ run_prints E s = level2 s ++ start s ++ m.

Lemma by_loop s c s1 p bs m : normal_pc (ar s) -> icount s <> 2147483647 -> op_loop E 6 (reset s) = Err c s1 /\ loop_complaint E 6 (reset s) = m -> c <> E_DIVERR -> message p (ar s) bs c m -> printed s p bs c.
Proof. intros PC Hc [El <-] Hd Hm. destruct (loop_fails E s c s1 PC Hc El Hd) as [K1 K2]. exists s1. eexists. eauto. Qed.
Lemma by_handler s pre p bs o k m c s' t : fetched E base s pre p bs -> dispatch bs = Some (o, k, m) -> exec1 E o k (hst s p (blen pre + m)) = Err c s' -> c <> E_CONTINUE -> c <> E_DIVERR ->
  complaint1 E o k c (hst s p (blen pre + m)) = t -> message p (ar s) bs c t -> printed s p bs c.
Proof.
  intros Hf Hd Hx H1 H2 Ht Hm. destruct (handler_says E base s pre p bs o k m c s' Hf Hd Hx H1 H2) as [K1 K2]. rewrite Ht in K2. exists s', t. auto.
Qed.
Lemma boundary_printed s pre p bs t rg x rest : fetched E base s pre p bs -> wf_state s -> has_modrm bs = Some (true, t) -> real_address p (ar s) t = Some (rg, x, rest) -> x mod 4096 = 4095 ->
  invalid_form bs = false -> unsupported_form p bs = false -> imul_wide p bs = false -> far_indirect bs = false -> sreg_exists bs -> printed s p bs E_BADMEM.
Proof.
  intros Hf W Hm Ha He H1 H2 H3 H4 H5. pose proof Hf as (Rd & Hp & C). destruct Rd as [F Wr PC Hc]. pose proof (code_bytes E base _ _ _ _ Hf) as Hb. pose proof (prefixes_ok _ _ Hp) as Hpo.
  assert (St : stops E s E_BADMEM).
  { pose proof (wide_far E base s pre p bs t rg x rest Hf Hm Ha (or_introl He) H1 H2 H3 H4 H5) as K. rewrite He in K. exact K. }
  destruct St as (s1 & Hr & _).
  destruct (run_fails E base Pol Q s pre p bs _ _ Hf W Hr) as [(El & _ & Hpr)|(X & _)]; [|discriminate X].
  assert (Ht : t <> nil) by (intros ->; discriminate Ha).
  destruct (wide_dispatch bs t Hb Hm Ht) as (o & k & m & Hd & Hwo & Hmx & Hpos).
  assert (C2 : code_from (ar s) (blen pre + m) t).
  { pose proof (in_code E base _ _ _ _ Hf) as C0. destruct Hpos as [[-> (b & ->)]|[-> (b & ->)]].
    - apply code_from_cons in C0. apply C0.
    - apply code_from_cons in C0. destruct C0 as [_ C0]. apply code_from_cons in C0. destruct C0 as [_ C0]. replace (blen pre + 2) with (blen pre + 1 + 1) by lia. exact C0. }
  assert (Hl : op_loop E 6 (reset s) = match exec1 E o k (hst s p (blen pre + m)) with Err c s' => if c =? E_CONTINUE then op_loop E (5 - List.length pre) s' else Err c s' | x => x end).
  { destruct s as [a d g n l]. cbn [ar dc dbg icount lastnull] in *. change (reset (mkSt a d g n l)) with (mkSt a (dec_of (mkPfx None false false 0) 0) g (n + 1) l).
    rewrite (op_loop_exec E base a pre p g (n + 1) l bs o k m F Wr C Hp Hd). reflexivity. }
  rewrite Hl in El. assert (Hby : byte_memory (hst s p (blen pre + m))) by exact (ws_bytes _ W).
  destruct (exec1 E o k (hst s p (blen pre + m))) as [u s2|c2 s2|r|] eqn:Hx; try discriminate El.
  assert (Hpx : is_prefix o = false) by (destruct o; try discriminate Hwo; reflexivity).
  destruct (Z.eqb_spec c2 E_CONTINUE) as [->|N].
  { exfalso. assert (K : says (fun c => c <> E_CONTINUE) (exec1 E o k)) by (apply says_exec1; try exact Q; try discriminate; rewrite Hpx; discriminate). exact (says_not _ _ _ _ K Hby Hx). }
  injection El as -> ->. rewrite (lc_said E base s pre p bs o k m _ s1 Hf Hd Hx N) in Hpr.
  assert (Hs : straddle_t E (hst s p (blen pre + m)) = crossing (ar s) x).
  { unfold hst. rewrite (straddle_at E base (ar s) p _ _ _ _ t F Wr Hpo C2).
    - rewrite Ha. replace (x mod 4096 =? 4095) with true by lia. reflexivity.
    - destruct t as [|mb t]; [congruence|]. cbn [real_rm]. rewrite Ha. destruct (mb / 64 =? 3); discriminate. }
  assert (Hcm : complaint1 E o k E_BADMEM (hst s p (blen pre + m)) = crossing (ar s) x).
  { rewrite <- Hs. unfold wide_op in Hwo. destruct (word_op o) eqn:Wo; [rewrite complaint_word by exact Wo; reflexivity|]. destruct (imul_op o) eqn:Io; [rewrite complaint_imul by exact Io; reflexivity|].
    destruct o; try discriminate Hwo. destruct (Hmx eq_refl) as [-> ->]. cbn [complaint1]. change (d_op (dc (hst s p (blen pre + m)))) with (p_os p). destruct (p_os p); [reflexivity|].
    cbn [far_indirect mem_z existsb Z.eqb Pos.eqb andb orb] in H4. replace ((reg_field t =? 3) || (reg_field t =? 5)) with false by lia. reflexivity. }
  rewrite Hcm in Hpr. exists s1, (crossing (ar s) x). split; [exact Hr|]. split; [|exact Hpr].
  eapply (crossing_text p (ar s) bs t rg x rest); eauto. eapply (real_linear E base); eauto.
Qed.
Lemma wide_enter s pre p s0 s1 level t : fetched E base s pre p (0xC8 :: s0 :: s1 :: level :: t) -> p_os p = true -> 2 <= level mod 32 ->
  exists s', exec1 E OEnter 0 (hst s p (blen pre + 1)) = Err E_UNDEF s'.
Proof.
  intros Hf Hos Hl. pose proof Hf as (Rd & Hp & _). destruct Rd as [F W PC Hc]. pose proof (in_code E base _ _ _ _ Hf) as C. apply code_from_cons in C. destruct C as [_ C].
  cbn [exec1]. unfold hst. unfold x_enter. assert (W16 : width 16) by auto with width. change (fetch16 E) with (fetch E 16).
  rewrite (st_fetch E base 16 _ (ar s) p (blen pre + 1) _ _ _ [s0; s1] (s0 + 256 * s1) F W W16 (code_from_take _ _ [s0; s1] (level :: t) C) eq_refl).
  pose proof (code_from_app (ar s) _ [s0; s1] (level :: t) C) as C2.
  rewrite (st_fetch8 E base _ (ar s) p _ _ _ _ level t F W C2). cbv zeta.
  rewrite (st_pushW E base) by (auto; unfold R_BP; lia). replace (1 <? level mod 32) with true by lia.
  replace (Z.to_nat (level mod 32 - 1)) with (S (Z.to_nat (level mod 32 - 2))) by lia. cbn [enter_loop].
  set (st1 := mkSt _ _ _ _ _). assert (Hd1 : d_op (dc st1) = true) by exact Hos. generalize dependent st1. intros st1 Hd1.
  unfold bind, getD, getW, get_gpr, getA, gets. cbv beta iota. rewrite Hd1. unfold err. cbv beta iota. eexists. reflexivity.
Qed.
Lemma all_printed s pre p bs c m : fetched E base s pre p bs -> wf_state s -> whole p (ar s) bs -> message p (ar s) bs c m -> printed s p bs c.
Proof.
  intros Hf W Hw Hm. pose proof Hf as (Rd & Hp & C). destruct Rd as [F Wr PC Hc]. pose proof (code_bytes E base _ _ _ _ Hf) as Hb.
  assert (Hx2 : forall v, 0 <= v < 256 -> hex_text 2 v (fmt_x 2 v)) by (intros; apply fmt_x_ok; [lia|]; change (16 ^ Z.of_nat 2) with 256; lia).
  assert (Hdig : forall q, 0 <= reg_field q < 8) by (intros [|q0 q]; cbn [reg_field]; lia).
  destruct Hm as [t cs ip K1 K2|op t h K1 K2|op t h K1 K2|t n K1 K2|t n Ko K1 K2|t n Ko K1 K2|t Ko K1 K2|bs K|s0 s1 level t Ko K|bs n Hn V1 V2|bs t rg x rest cs ip h Hm Ha He H1 H2 H3 H4 H5 _ _ _].
  - apply (by_loop s _ _ p _ _ PC Hc (f1_says E base s pre p t Hf)); [discriminate|]. destruct Wr. unfold inrange in *. change (2 ^ 16) with 65536 in *.
    apply msg_unset; apply fmt_x_ok; try lia; change (16 ^ Z.of_nat 4) with 65536; lia.
  - assert (Hop : ca_op op = None /\ op <> 241).
    { assert (K : forallb (fun b => match ca_op b with None => negb (b =? 241) | _ => false end) undefined1 = true) by (vm_compute; reflexivity).
      rewrite forallb_forall in K. specialize (K op K1). destruct (ca_op op); [discriminate K|]. split; [reflexivity|lia]. }
    apply (by_loop s _ _ p _ _ PC Hc (op_says E base s pre p op t Hf (proj2 Hop) (proj1 Hop))); [discriminate|]. apply msg_opcode; [exact K1|]. apply Hx2, Hb. left. reflexivity.
  - assert (Hr : 0 <= op < 256) by (apply Hb; right; left; reflexivity).
    assert (Hop : ca_op0F op = None).
    { pose proof (idx_ok _ row0F_ok op Hr) as K. unfold row0F in K. destruct (ca_op0F op) as [e|]; [|reflexivity]. apply andb_true_iff in K. exfalso. apply K1, mem_In, K. }
    apply (by_loop s _ _ p _ _ PC Hc (op2_says E base s pre p op t Hf Hop)); [discriminate|]. apply msg_opcode2; [exact K1|]. apply Hx2, Hr.
  - destruct t as [|mb t]; [cbn in K1; lia|]. pose proof (Hdig (mb :: t)) as Hd. set (k := reg_field (mb :: t)) in *.
    apply (by_handler s pre p (254 :: mb :: t) OUnaryM k 1 E_UNDEF (hst s p (blen pre + 1)) (joined [" - Unary M /"; fmt_i k; " unimplemented"; end_of_line]) Hf eq_refl); [|discriminate|discriminate|reflexivity|].
    + cbn [exec1]. unfold x_unary_m. assert (k = 2 \/ k = 3 \/ k = 4 \/ k = 5 \/ k = 6 \/ k = 7) as Hz by lia. repeat destruct Hz as [->|Hz]; try rewrite Hz; reflexivity.
    + apply (msg_group4 p (ar s) (mb :: t) (fmt_i k)); [exact K1|apply one_digit; lia].
  - destruct t as [|mb t]; [cbn in K1; lia|]. pose proof (Hdig (mb :: t)) as Hd. set (k := reg_field (mb :: t)) in *.
    apply (by_handler s pre p (255 :: mb :: t) OUnaryMX k 1 E_UNDEF (hst s p (blen pre + 1)) (joined [" - Unary MX (16) /"; fmt_i k; " unimplemented"; end_of_line]) Hf eq_refl); [|discriminate|discriminate| |].
    + cbn [exec1]. unfold x_unary_mx. unfold bind at 1, getD, gets. change (d_op (dc (hst s p (blen pre + 1)))) with (p_os p). rewrite Ko, K1. reflexivity.
    + cbn [complaint1]. change (d_op (dc (hst s p (blen pre + 1)))) with (p_os p). rewrite Ko, K1. reflexivity.
    + apply (msg_group5 p (ar s) (mb :: t) (fmt_i k)); [exact Ko|exact K1|apply one_digit; lia].
  - destruct t as [|mb t]; [cbn in K1; lia|]. pose proof (Hdig (mb :: t)) as Hd. set (k := reg_field (mb :: t)) in *.
    apply (by_handler s pre p (255 :: mb :: t) OUnaryMX k 1 E_UNDEF (hst s p (blen pre + 1)) (joined [" - Unary MX (32) /"; fmt_i k; " unimplemented"; end_of_line]) Hf eq_refl); [|discriminate|discriminate| |].
    + cbn [exec1]. unfold x_unary_mx. unfold bind at 1, getD, gets. change (d_op (dc (hst s p (blen pre + 1)))) with (p_os p). rewrite Ko. clearbody k. cbn [In] in K1.
      repeat (destruct K1 as [<-|K1]; [reflexivity|]). contradiction.
    + cbn [complaint1]. change (d_op (dc (hst s p (blen pre + 1)))) with (p_os p). rewrite Ko. change (E_UNDEF =? E_UNDEF) with true. cbv iota. cbn [joined]. reflexivity.
    + apply (msg_group5_wide p (ar s) (mb :: t) (fmt_i k)); [exact Ko|exact K1|apply one_digit; lia].
  - destruct t as [|mb t]; [cbn in K1; lia|]. pose proof (Hdig (mb :: t)) as Hd. pose proof (fetch_modrm E base s pre p 255 mb t Hf) as G. cbn [mod_field] in K2.
    assert (Hk : reg_field (mb :: t) = 3 \/ reg_field (mb :: t) = 5) by (cbn [In] in K1; lia). set (k := reg_field (mb :: t)) in *.
    assert (Hx : exec1 E OUnaryMX k (hst s p (blen pre + 1)) = Err E_UNDEF (hst s p (blen pre + 1 + 1))).
    { cbn [exec1]. unfold x_unary_mx. unfold bind at 1, getD, gets. change (d_op (dc (hst s p (blen pre + 1)))) with (p_os p). rewrite Ko.
      destruct Hk as [-> | ->]; unfold parse_farptr; unfold bind at 1; unfold bind at 1; unfold hst at 1; rewrite G; replace (m_mod (modrm_of mb)) with (mb / 64) by reflexivity; rewrite K2; reflexivity. }
    apply (by_handler s pre p (255 :: mb :: t) OUnaryMX k 1 E_UNDEF _ " - Reading a far pointer w/ mod=3" Hf eq_refl Hx); [discriminate|discriminate| |apply msg_far; assumption].
    cbn [complaint1]. change (d_op (dc (hst s p (blen pre + 1)))) with (p_os p). rewrite Ko. replace ((k =? 3) || (k =? 5)) with true by lia. reflexivity.
  - assert (Hx : exists o k m s', dispatch bs = Some (o, k, m) /\ imul_op o = true /\ exec1 E o k (hst s p (blen pre + m)) = Err E_BUG s').
    { destruct bs as [|b t]; [discriminate|]. destruct (Z.eq_dec b 15) as [->|H15].
      - destruct t as [|b2 t]; [cbn in K; rewrite andb_false_r in K; discriminate K|]. cbn [imul_wide] in K. apply andb_true_iff in K. destruct K as [Ko K]. assert (b2 = 175) as -> by lia.
        exists OImulRMX, 0, 2. eexists. split; [reflexivity|]. split; [reflexivity|]. cbn [exec1]. unfold x_imul_rmx. unfold bind at 1, getD, gets. change (d_op (dc (hst s p (blen pre + 2)))) with (p_os p). rewrite Ko. reflexivity.
      - assert (Hi : imul_wide p (b :: t) = p_os p && mem_z [105; 107] b).
        { unfold imul_wide. clear - H15. destruct b as [|r|r]; [reflexivity| |reflexivity]. repeat (destruct r as [r|r|]; try reflexivity; try (exfalso; apply H15; reflexivity)). }
        rewrite Hi in K. apply andb_true_iff in K. destruct K as [Ko K]. cbn [mem_z existsb] in K. assert (b = 105 \/ b = 107) as Hb2 by lia.
        destruct Hb2 as [->| ->]; do 4 eexists; (split; [reflexivity|]; split; [reflexivity|]); cbn [exec1 e_op e_arg]; unfold x_imul_mix, x_imul_mi8x; unfold bind at 1, getD, gets; cbn [hst dc dec_of d_op]; rewrite Ko; reflexivity. }
    destruct Hx as (o & k & m & s' & Hd & Hio & Hx). apply (by_handler s pre p bs o k m E_BUG s' "IMUL (MIX) OvrSize Unimpl" Hf Hd Hx); [discriminate|discriminate| |apply msg_imul, K].
    rewrite complaint_imul by exact Hio. reflexivity.
  - destruct (wide_enter s pre p s0 s1 level t Hf Ko K) as (s' & Hx).
    apply (by_handler s pre p _ OEnter 0 1 E_UNDEF s' "- ENTER Operand Override unimplimented" Hf eq_refl Hx); [discriminate|discriminate|reflexivity|apply msg_enter; assumption].
  - assert (Hz : 0 <= n < 256 /\ exists o k, dispatch bs = Some (o, k, 1) /\
      exists off, exec1 E o k (hst s p (blen pre + 1)) = call_interrupt E n (hst s p off) /\ complaint1 E o k E_BADMEM (hst s p (blen pre + 1)) = ivt_t E n (hst s p off)).
    { pose proof (in_code E base _ _ _ _ Hf) as C0. destruct Hn as [t|n t|t Hof].
      - split; [lia|]. exists OInt3, 0. split; [reflexivity|]. eexists. split; reflexivity.
      - split; [apply Hb; right; left; reflexivity|]. exists OIntI, 0. split; [reflexivity|]. exists (blen pre + 1 + 1). apply code_from_cons in C0. destruct C0 as [_ C0]. cbn [exec1 complaint1].
        assert (Ef : fetch8 E (hst s p (blen pre + 1)) = Ok n (hst s p (blen pre + 1 + 1))) by (unfold hst; rewrite (fetch8_code E base (ar s) (dec_of p (blen pre + 1)) _ _ _ n t F Wr C0); reflexivity).
        unfold x_int_i. unfold bind at 1. rewrite Ef. split; reflexivity.
      - split; [lia|]. exists OInto, 0. split; [reflexivity|]. exists (blen pre + 1). cbn [exec1 complaint1]. split; [|reflexivity].
        unfold x_into, hst. rewrite st_getflags, ftest_OF. unfold flag. rewrite Hof. reflexivity. }
    destruct Hz as (Hr & o & k & Hd & off & Hx & Hcm).
    assert (Hz : vector n (ar s) = (0, 0)) by (unfold vector; rewrite V1, V2; reflexivity).
    unfold hst at 2 in Hx. rewrite (call_interrupt_zero E base n (ar s) (dec_of p off) _ _ _ Hr F Hz) in Hx.
    apply (by_handler s pre p bs o k 1 E_BADMEM _ zero_text Hf Hd Hx); [discriminate|discriminate| |apply (msg_vector p (ar s) bs n Hn V1 V2)].
    rewrite Hcm. unfold hst. rewrite (ivt_text E base) by assumption. rewrite V1, V2. reflexivity.
  - eapply boundary_printed; eauto.
Qed.
End Msgs7.
