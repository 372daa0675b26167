(** Lemmas behind C33-C38: PUSH/POP, CALL/RET, INT/IRET round trips. *)
From Verif Require Import Base Cpu Alu Ops Machine Spec SpecOps SpecOps2 SpecSys SpecRun SpecTop PBase PMem PRun PFrame PAlu PExec PStep PFlags PSmall PSmall2 PSmall3 PSmall4 PIAlu PIAlu2 PAlg PIMov PIStack PIJump PIInt PIStr PSmall6.

Section WithEnv.
Context (E : env) (base : Z).
Lemma decode_stack_ok s pre p bs k : fetched E base s pre p bs -> decode_stack p (ar s) bs = Some k -> p_os p = false ->
  match k with
  | K_PushReg n | K_PopReg n => 0 <= n < 8
  | K_PushSeg n | K_PopSeg n => 0 <= n < 6
  | K_PushImm v => inrange 16 v
  | K_PushRM r | K_PopRM r => rm_ok r
  | K_Enter sz lv => inrange 16 sz /\ 0 <= lv < 32
  | _ => True
  end.
Proof.
  intros Hf Hd Ho. unfold decode_stack in Hd. rewrite Ho in Hd.
  assert (Hp1 : forall n, push_seg_op bs = Some n -> 0 <= n < 6).
  { clear. intros n. unfold push_seg_op. 
    destruct bs as [|[|q|q] [|[|q2|q2] [|? ?]]]; try discriminate; repeat (destruct q as [q|q|]; try discriminate); repeat (destruct q2 as [q2|q2|]; try discriminate); intros [= <-]; lia. }
  assert (Hp2 : forall n, pop_seg_op bs = Some n -> 0 <= n < 6).
  { clear. intros n. unfold pop_seg_op. 
    destruct bs as [|[|q|q] [|[|q2|q2] [|? ?]]]; try discriminate; repeat (destruct q as [q|q|]; try discriminate); repeat (destruct q2 as [q2|q2|]; try discriminate); intros [= <-]; lia. }
  destruct (push_seg_op bs) as [n|]; [injection Hd as <-; auto|].
  destruct (pop_seg_op bs) as [n|]; [injection Hd as <-; auto|]. clear Hp1 Hp2.
  destruct bs as [|op t]; [discriminate|].
  destruct (instr_ctx _ _ _ _ _ _ _ Hf) as (F & W & Hp & C & Hb).
  assert (Hifr : forall (t : list Z) (k' : stk), ifrest t k' = Some k -> k' = k) by (intros [|] k'; [intros [= ->]; auto|discriminate]).
  assert (Him : forall w i, width w -> imm w t = Some i -> inrange w i) by (intros; eapply imm_range; eauto).
  assert (Hpr : forall r rg, parse_rm p (ar s) t = Some (rg, r, []) -> rm_ok r) by (intros r rg Hr; eapply parse_rm_ok; eauto).
  destruct ((80 <=? op) && (op <=? 87)) eqn:H1. { cbn [andb] in Hd. apply Hifr in Hd. subst k. lia. }
  destruct ((88 <=? op) && (op <=? 95)) eqn:H2. { cbn [andb] in Hd. apply Hifr in Hd. subst k. lia. }
  destruct (op =? 106). { destruct (imm 8 t); [|discriminate]. cbn [after] in Hd. injection Hd as <-. unfold osz. rewrite Ho. apply low_range; auto with width. }
  destruct (op =? 104). { destruct (imm 16 t) eqn:Hi; [|discriminate]. cbn [after] in Hd. injection Hd as <-. apply Him in Hi; auto with width. }
  destruct (op =? 96). { apply Hifr in Hd. subst k. exact I. }
  destruct (op =? 97). { apply Hifr in Hd. subst k. exact I. }
  destruct (op =? 156). { apply Hifr in Hd. subst k. exact I. }
  destruct (op =? 157). { apply Hifr in Hd. subst k. exact I. }
  destruct (op =? 201). { apply Hifr in Hd. subst k. exact I. }
  destruct (op =? 200).
  { destruct t as [|l [|h [|lv [|? ?]]]]; try discriminate. injection Hd as <-.
    split; [|apply Z.mod_pos_bound; lia]. eapply code_word_range; eauto. }
  destruct (op =? 143). { destruct (parse_rm p (ar s) t) as [[[rg r] [|]]|] eqn:Hr; try discriminate. destruct (rg =? 0); [|discriminate]. injection Hd as <-. eauto. }
  destruct (op =? 255); [|discriminate].
  destruct (parse_rm p (ar s) t) as [[[rg r] [|]]|] eqn:Hr; try discriminate. destruct (rg =? 6); [|discriminate]. injection Hd as <-. eauto.
Qed.
Lemma pushed_range n a : 0 <= n < 8 -> inrange 16 (pushed n a).
Proof. intros. unfold pushed. destruct (n =? 4); [apply low_range|apply reg_range]; auto with width. Qed.
Lemma push_instr s pre p bs k v : fetched E base s pre p bs -> decode_stack p (ar s) bs = Some k -> operand_ok p (ar s) bs -> p_os p = false ->
  pushed_value k (ar s) = Some v -> inrange 16 v /\ executes E s (pre ++ bs) (push16 v (ar s)).
Proof.
  intros Hf Hd Hop Ho Hv. pose proof (decode_stack_ok s pre p bs k Hf Hd Ho) as K. pose proof Hf as ([F W _ _] & _).
  assert (Hk1 : k = K_PopF -> cpu (ar s) = 0 \/ cpu (ar s) = 1 \/ cpu (ar s) = 2) by (intros ->; discriminate).
  assert (Hk2 : forall size, k <> K_Enter size 1) by (intros size ->; discriminate).
  pose proof (stack_instr E base s pre p bs k Hf Hd Hop Hk1 Hk2) as X.
  destruct k; try discriminate; cbn [stack_effect pushed_value] in *; rewrite ?Ho in *.
  - injection Hv as <-. split; [apply pushed_range, K|exact X].
  - injection Hv as <-. split; [apply sreg_range, W|exact X].
  - injection Hv as <-. split; [exact K|exact X].
  - destruct r as [n|sg o]; injection Hv as <-; cbn [rm_ok] in K; (split; [|exact X]); [apply pushed_range; exact K|].
    apply (rd_rm_range E base (ar s) 16 (RMem sg o)); auto with width.
  - injection Hv as <-. split; [apply W|exact X].
Qed.
Lemma pop_instr s pre p bs k a' : fetched E base s pre p bs -> decode_stack p (ar s) bs = Some k -> operand_ok p (ar s) bs -> p_os p = false ->
  popped_into k (stack_word 0 (ar s)) (drop 2 (ar s)) = Some a' -> executes E s (pre ++ bs) a'.
Proof.
  intros Hf Hd Hop Ho Hv.
  assert (Hk1 : k = K_PopF -> cpu (ar s) = 0 \/ cpu (ar s) = 1 \/ cpu (ar s) = 2) by (intros ->; discriminate).
  assert (Hk2 : forall size, k <> K_Enter size 1) by (intros size ->; discriminate).
  pose proof (stack_instr E base s pre p bs k Hf Hd Hop Hk1 Hk2) as X.
  rewrite <- top16_word in Hv by apply sp_range.
  destruct k; try discriminate; cbn [stack_effect popped_into] in *; rewrite ?Ho in *; injection Hv as <-; exact X.
Qed.
(** A state whose stack is as a (16-bit) push of v left it. *)
Lemma left_push v a0 a1 a2 : flat E base a0 -> wf_regs a0 -> inrange 16 v -> same a1 (push16 v a0) -> as_left 1 a2 a1 ->
  stack_word 0 a2 = v /\ drop 2 a2 = with_reg 16 4 (reg 16 4 a0) a2.
Proof.
  intros F W Hv S (L1 & L2 & L3). split.
  - rewrite L3 by lia. rewrite (word_same _ _ _ S). apply (word_push0 E base); auto.
  - apply drop_back; [|apply sp_range]. rewrite L2, (same_reg _ _ _ _ S). apply push_sp.
Qed.

(** POPA after PUSHA. *)
Lemma word_wreg k n v a : 0 <= n < 8 -> n <> 4 -> inrange 16 v -> stack_word k (with_reg 16 n v a) = stack_word k a.
Proof. intros. unfold stack_word. rewrite mem_wreg, reg16_other by (auto; lia). rewrite with_reg_setf by (auto with width; lia). reflexivity. Qed.
Lemma pop_word k n a : flat E base a -> wf_regs a -> 0 <= n < 8 -> n <> 4 -> stack_word k (pop_into n a) = stack_word (k + 1) a.
Proof. intros F W Hn H4. unfold pop_into. rewrite word_wreg by (auto; eapply top16_range; eauto). apply word_drop. Qed.
Lemma pop_reg n m a : flat E base a -> wf_regs a -> 0 <= n < 8 -> n <> 4 -> 0 <= m < 8 ->
  reg 16 m (pop_into n a) = if m =? n then stack_word 0 a else if m =? 4 then low 16 (reg 16 4 a + 2) else reg 16 m a.
Proof.
  intros F W Hn H4 Hm. unfold pop_into. pose proof (top16_range E base a F W) as T. destruct (Z.eqb_spec m n) as [->|Hne].
  - rewrite reg_same by (auto with width). apply top16_word, sp_range.
  - rewrite reg16_other by auto. unfold drop. destruct (Z.eqb_spec m 4) as [->|H].
    + apply reg_same; auto with width; apply low_range; auto with width.
    + apply reg16_other; auto; try lia. apply low_range; auto with width.
Qed.
Lemma wreg_hi n v a m : 0 <= n < 8 -> 0 <= m < 8 -> inrange 16 v -> gpr m (with_reg 16 n v a) / 65536 = gpr m a / 65536.
Proof.
  intros Hn Hm Hv. rewrite !gpr_getf, gprs_with_reg by (auto with width).
  assert (K : forall g, getf (32 * m) 32 g / 65536 = getf (32 * m + 16) 16 g).
  { intros g. change 65536 with (2 ^ 16). rewrite <- Z.shiftr_div_pow2 by lia. apply Z.bits_inj'. intros i Hi.
    rewrite Z.shiftr_spec, !getf_testbit by lia. replace (i + 16 <? 32) with (i <? 16) by lia. f_equal. f_equal. lia. }
  rewrite !K. unfold rpos. cbn [Z.eqb Pos.eqb]. apply getf_setf_disjoint; lia.
Qed.
Lemma only_low_refl a : only_low a a. Proof. split; [destruct a; apply same_refl|auto]. Qed.
Lemma only_low_reg n v a b : 0 <= n < 8 -> inrange 16 v -> only_low a b -> only_low (with_reg 16 n v a) b.
Proof.
  intros Hn Hv [S H]. split.
  - rewrite with_reg_setf by (auto with width). destruct S. constructor; auto.
  - intros m Hm. rewrite wreg_hi by auto. auto.
Qed.
Lemma only_low_pop n a b : flat E base a -> wf_regs a -> 0 <= n < 8 -> only_low a b -> only_low (pop_into n a) b.
Proof.
  intros F W Hn H. unfold pop_into, drop. apply only_low_reg; auto; [eapply top16_range; eauto|].
  apply only_low_reg; auto; try lia. apply low_range; auto with width.
Qed.
Lemma only_low_drop n a b : only_low a b -> only_low (drop n a) b.
Proof. intros H. unfold drop. apply only_low_reg; auto; try lia. apply low_range; auto with width. Qed.
Lemma pop_facts n a c : flat E base a -> wf_regs a -> 0 <= n < 8 -> n <> 4 -> only_low a c -> exists b, b = pop_into n a /\
  flat E base b /\ wf_regs b /\ (forall k, stack_word k b = stack_word (k + 1) a) /\ reg 16 n b = stack_word 0 a /\ reg 16 4 b = low 16 (reg 16 4 a + 2) /\
  (forall m, 0 <= m < 8 -> m <> n -> m <> 4 -> reg 16 m b = reg 16 m a) /\ only_low b c.
Proof.
  intros F W Hn H4 L. exists (pop_into n a). split; [reflexivity|]. split; [apply pop_into_flat; auto|]. split; [eapply pop_into_wf; eauto|].
  split; [intros; apply pop_word; auto|]. split; [rewrite pop_reg by auto; rewrite Z.eqb_refl; reflexivity|].
  split; [rewrite pop_reg by (auto; lia); replace (4 =? n) with false by lia; reflexivity|].
  split; [|apply only_low_pop; auto]. intros m Hm H1 H2. rewrite pop_reg by auto. replace (m =? n) with false by lia. replace (m =? 4) with false by lia. reflexivity.
Qed.
Lemma popa_regs a : flat E base a -> wf_regs a ->
  reg 16 0 (popa a) = stack_word 7 a /\ reg 16 1 (popa a) = stack_word 6 a /\ reg 16 2 (popa a) = stack_word 5 a /\ reg 16 3 (popa a) = stack_word 4 a /\
  reg 16 4 (popa a) = low 16 (reg 16 4 a + 16) /\ reg 16 5 (popa a) = stack_word 2 a /\ reg 16 6 (popa a) = stack_word 1 a /\ reg 16 7 (popa a) = stack_word 0 a /\
  only_low (popa a) a.
Proof.
  intros F W. unfold popa.
  destruct (pop_facts 7 a a F W ltac:(lia) ltac:(lia) (only_low_refl a)) as (a1 & <- & F1 & W1 & K1 & R1 & P1 & O1 & L1).
  destruct (pop_facts 6 a1 a F1 W1 ltac:(lia) ltac:(lia) L1) as (a2 & <- & F2 & W2 & K2 & R2 & P2 & O2 & L2).
  destruct (pop_facts 5 a2 a F2 W2 ltac:(lia) ltac:(lia) L2) as (a3 & <- & F3 & W3 & K3 & R3 & P3 & O3 & L3).
  assert (exists a4, a4 = drop 2 a3 /\ flat E base a4 /\ wf_regs a4 /\ (forall k, stack_word k a4 = stack_word (k + 1) a3) /\ reg 16 4 a4 = low 16 (reg 16 4 a3 + 2) /\
    (forall m, 0 <= m < 8 -> m <> 4 -> reg 16 m a4 = reg 16 m a3) /\ only_low a4 a) as (a4 & <- & F4 & W4 & K4 & P4 & O4 & L4).
  { exists (drop 2 a3). split; [reflexivity|]. split; [apply drop_flat; auto|]. split; [apply drop_wf; auto|]. split; [intros; apply word_drop|].
    split; [apply drop_sp|]. split; [|apply only_low_drop; auto].
    intros m H1 H2. unfold drop. apply reg16_other; auto; try lia. apply low_range; auto with width. }
  destruct (pop_facts 3 a4 a F4 W4 ltac:(lia) ltac:(lia) L4) as (a5 & <- & F5 & W5 & K5 & R5 & P5 & O5 & L5).
  destruct (pop_facts 2 a5 a F5 W5 ltac:(lia) ltac:(lia) L5) as (a6 & <- & F6 & W6 & K6 & R6 & P6 & O6 & L6).
  destruct (pop_facts 1 a6 a F6 W6 ltac:(lia) ltac:(lia) L6) as (a7 & <- & F7 & W7 & K7 & R7 & P7 & O7 & L7).
  destruct (pop_facts 0 a7 a F7 W7 ltac:(lia) ltac:(lia) L7) as (a8 & <- & F8 & W8 & K8 & R8 & P8 & O8 & L8).
  assert (K : forall x c d, low 16 (low 16 (x + c) + d) = low 16 (x + (c + d))) by (intros; unfold low; rewrite Zplus_mod_idemp_l; f_equal; lia).
  split; [rewrite R8, K7, K6, K5, K4, K3, K2, K1; reflexivity|].
  split; [rewrite O8, R7, K6, K5, K4, K3, K2, K1 by lia; reflexivity|].
  split; [rewrite O8, O7, R6, K5, K4, K3, K2, K1 by lia; reflexivity|].
  split; [rewrite O8, O7, O6, R5, K4, K3, K2, K1 by lia; reflexivity|].
  split; [rewrite P8, P7, P6, P5, P4, P3, P2, P1, !K; reflexivity|].
  split; [rewrite O8, O7, O6, O5, O4, R3, K2, K1 by lia; reflexivity|].
  split; [rewrite O8, O7, O6, O5, O4, O3, R2, K1 by lia; reflexivity|].
  split; [rewrite O8, O7, O6, O5, O4, O3, O2, R1 by lia; reflexivity|exact L8].
Qed.
(** The stack after PUSHA. *)
Lemma push_facts v a : flat E base a -> wf_regs a -> inrange 16 v -> exists b, b = push16 v a /\ flat E base b /\ wf_regs b /\
  stack_word 0 b = v /\ (forall j k, 0 <= k < 32766 -> j = k + 1 -> stack_word j b = stack_word k a) /\ reg 16 4 b = low 16 (reg 16 4 a - 2) /\
  (forall m, 0 <= m < 8 -> m <> 4 -> reg 16 m b = reg 16 m a) /\ r_ss b = r_ss a.
Proof.
  intros F W Hv. exists (push16 v a). split; [reflexivity|]. split; [apply push_flat; auto|]. split; [apply push_wf; auto|].
  split; [apply (word_push0 E base); auto|]. split; [intros j k Hk ->; apply (word_pushS E base); auto|]. split; [apply push_sp|].
  split; [intros; apply push_reg; auto|apply push_ss].
Qed.
Lemma pusha_words a : flat E base a -> wf_regs a ->
  stack_word 7 (pusha a) = reg 16 0 a /\ stack_word 6 (pusha a) = reg 16 1 a /\ stack_word 5 (pusha a) = reg 16 2 a /\ stack_word 4 (pusha a) = reg 16 3 a /\
  stack_word 3 (pusha a) = reg 16 4 a /\ stack_word 2 (pusha a) = reg 16 5 a /\ stack_word 1 (pusha a) = reg 16 6 a /\ stack_word 0 (pusha a) = reg 16 7 a /\
  reg 16 4 (pusha a) = low 16 (reg 16 4 a - 16).
Proof.
  intros F W. unfold pusha. assert (R : forall n, 0 <= n < 8 -> inrange 16 (reg 16 n a)) by (intros; apply reg_range; auto with width).
  destruct (push_facts (reg 16 0 a) a F W (R 0 ltac:(lia))) as (a1 & <- & F1 & W1 & T1 & K1 & P1 & O1 & _).
  destruct (push_facts (reg 16 1 a) a1 F1 W1 (R 1 ltac:(lia))) as (a2 & <- & F2 & W2 & T2 & K2 & P2 & O2 & _).
  destruct (push_facts (reg 16 2 a) a2 F2 W2 (R 2 ltac:(lia))) as (a3 & <- & F3 & W3 & T3 & K3 & P3 & O3 & _).
  destruct (push_facts (reg 16 3 a) a3 F3 W3 (R 3 ltac:(lia))) as (a4 & <- & F4 & W4 & T4 & K4 & P4 & O4 & _).
  destruct (push_facts (reg 16 4 a) a4 F4 W4 (R 4 ltac:(lia))) as (a5 & <- & F5 & W5 & T5 & K5 & P5 & O5 & _).
  destruct (push_facts (reg 16 5 a) a5 F5 W5 (R 5 ltac:(lia))) as (a6 & <- & F6 & W6 & T6 & K6 & P6 & O6 & _).
  destruct (push_facts (reg 16 6 a) a6 F6 W6 (R 6 ltac:(lia))) as (a7 & <- & F7 & W7 & T7 & K7 & P7 & O7 & _).
  destruct (push_facts (reg 16 7 a) a7 F7 W7 (R 7 ltac:(lia))) as (a8 & <- & F8 & W8 & T8 & K8 & P8 & O8 & _).
  assert (K : forall x c d, low 16 (low 16 (x - c) - d) = low 16 (x - (c + d))) by (intros; unfold low; rewrite Zminus_mod_idemp_l; f_equal; lia).
  split; [rewrite (K8 7 6), (K7 6 5), (K6 5 4), (K5 4 3), (K4 3 2), (K3 2 1), (K2 1 0), T1 by lia; reflexivity|].
  split; [rewrite (K8 6 5), (K7 5 4), (K6 4 3), (K5 3 2), (K4 2 1), (K3 1 0), T2 by lia; reflexivity|].
  split; [rewrite (K8 5 4), (K7 4 3), (K6 3 2), (K5 2 1), (K4 1 0), T3 by lia; reflexivity|].
  split; [rewrite (K8 4 3), (K7 3 2), (K6 2 1), (K5 1 0), T4 by lia; reflexivity|].
  split; [rewrite (K8 3 2), (K7 2 1), (K6 1 0), T5 by lia; reflexivity|].
  split; [rewrite (K8 2 1), (K7 1 0), T6 by lia; reflexivity|].
  split; [rewrite (K8 1 0), T7 by lia; reflexivity|].
  split; [exact T8|]. rewrite P8, P7, P6, P5, P4, P3, P2, P1, !K. reflexivity.
Qed.
(** Unstacking what was pushed. *)
Lemma as_left_same n a b c : as_left n a b -> same b c -> as_left n a c.
Proof.
  intros (L1 & L2 & L3) S. split; [rewrite L1; apply (sm_ss _ _ S)|]. split; [rewrite L2; apply same_reg, S|].
  intros k Hk. rewrite L3 by exact Hk. apply word_same, S.
Qed.
Lemma as_left_ip n a i b : as_left n a (a_ip i b) -> as_left n a b. Proof. intros H; exact H. Qed.
Lemma as_left_cs n a i b : as_left n a (a_cs i b) -> as_left n a b. Proof. intros H; exact H. Qed.
Lemma as_left_fl n a i b : as_left n a (a_flags i b) -> as_left n a b. Proof. intros H; exact H. Qed.
Lemma left_pop n v a b : flat E base b -> wf_regs b -> inrange 16 v -> 0 <= n < 32766 -> as_left (n + 1) a (push16 v b) ->
  top16 a = v /\ as_left n (drop 2 a) b.
Proof.
  intros F W Hv Hn (L1 & L2 & L3). split.
  - rewrite top16_word, L3 by (try apply sp_range; lia). apply (word_push0 E base); auto.
  - split; [|split].
    + rewrite <- (push_ss v b), <- L1. unfold drop. rewrite with_reg_setf by (auto with width; try lia; apply low_range; auto with width). reflexivity.
    + rewrite drop_sp, L2, push_sp. apply low_sub_add, sp_range.
    + intros k Hk. rewrite word_drop, L3 by lia. apply (word_pushS E base); auto. lia.
Qed.
Lemma left_sp n k a b : as_left n (drop k a) b -> drop k a = with_reg 16 4 (reg 16 4 b) a.
Proof. intros (_ & L & _). rewrite <- L, drop_sp. reflexivity. Qed.
Lemma left_frame n ret cs fl a b : flat E base b -> wf_regs b -> inrange 16 ret -> inrange 16 cs -> inrange 16 fl -> 0 <= n < 32000 ->
  as_left (n + 3) a (push16 ret (push16 cs (push16 fl b))) ->
  top16 a = ret /\ top16 (drop 2 a) = cs /\ top16 (drop 2 (drop 2 a)) = fl /\ as_left n (drop 6 a) b.
Proof.
  intros F W H1 H2 H3 Hn L.
  replace (n + 3) with (n + 2 + 1) in L by lia. apply left_pop in L; auto using push_flat, push_wf; try lia. destruct L as [T1 L].
  replace (n + 2) with (n + 1 + 1) in L by lia. apply left_pop in L; auto using push_flat, push_wf; try lia. destruct L as [T2 L].
  apply left_pop in L; auto; try lia. destruct L as [T3 L]. rewrite !drop_drop in *. auto.
Qed.
Lemma left_frame2 n ret cs a b : flat E base b -> wf_regs b -> inrange 16 ret -> inrange 16 cs -> 0 <= n < 32000 ->
  as_left (n + 2) a (push16 ret (push16 cs b)) ->
  top16 a = ret /\ top16 (drop 2 a) = cs /\ as_left n (drop 4 a) b.
Proof.
  intros F W H1 H2 Hn L.
  replace (n + 2) with (n + 1 + 1) in L by lia. apply left_pop in L; auto using push_flat, push_wf; try lia. destruct L as [T1 L].
  apply left_pop in L; auto; try lia. destruct L as [T2 L]. rewrite !drop_drop in *. auto.
Qed.
End WithEnv.
