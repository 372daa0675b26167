(** Property theorems C33-C38: the stack, calls, interrupts, host callbacks. *)
From Verif Require Import Base Cpu Alu Ops Machine Spec SpecOps SpecOps2 SpecSys SpecRun SpecTop PBase PMem PRun PFrame PAlu PExec PStep PFlags PSmall PSmall2 PSmall3 PSmall4 PIAlu PIAlu2 PAlg PIMov PIStack PIJump PIInt PIStr PSmall6 PSmall7 Demo Properties6.

(** ** C33.  [pushed_value k a]: the word instruction k pushes; PUSH SP pushes SP-2 (8086). *)
Theorem C33_push E base s pre p bs k v : fetched E base s pre p bs -> decode_stack p (ar s) bs = Some k -> operand_ok p (ar s) bs -> p_os p = false ->
  pushed_value k (ar s) = Some v ->
  let sp := (reg 16 SP (ar s) - 2) mod 65536 in
  executes E s (pre ++ bs) (with_mem 16 (lin (r_ss (ar s)) sp) v (with_reg 16 SP sp (ar s))).
Proof. intros. cbv zeta. eapply push_instr; eauto. Qed.
Theorem C33_pop E base s pre p bs k a' : fetched E base s pre p bs -> decode_stack p (ar s) bs = Some k -> operand_ok p (ar s) bs -> p_os p = false ->
  let sp := reg 16 SP (ar s) in
  popped_into k (mem 16 (ar s) (lin (r_ss (ar s)) sp)) (with_reg 16 SP ((sp + 2) mod 65536) (ar s)) = Some a' ->
  executes E s (pre ++ bs) a'.
Proof.
  intros Hf Hd Ho Hp. cbv zeta. intros Hv. eapply pop_instr; eauto. rewrite <- top16_word by apply sp_range. exact Hv.
Qed.
(** s1: any PUSH; s2: any later state with SS:SP and the pushed word as the PUSH left them; then a POP
    stores the pushed value and SP is as before the PUSH. *)
Theorem C33_roundtrip E base s1 pre1 p1 bs1 k1 v s1' s2 pre2 p2 bs2 k2 a' :
  fetched E base s1 pre1 p1 bs1 -> decode_stack p1 (ar s1) bs1 = Some k1 -> operand_ok p1 (ar s1) bs1 -> p_os p1 = false ->
  pushed_value k1 (ar s1) = Some v -> run_one E s1 = Ok tt s1' ->
  fetched E base s2 pre2 p2 bs2 -> as_left 1 (ar s2) (ar s1') ->
  decode_stack p2 (ar s2) bs2 = Some k2 -> operand_ok p2 (ar s2) bs2 -> p_os p2 = false ->
  popped_into k2 v (with_reg 16 SP (reg 16 SP (ar s1)) (ar s2)) = Some a' ->
  executes E s2 (pre2 ++ bs2) a'.
Proof.
  intros F1 D1 O1 P1 V1 R1 F2 L D2 O2 P2 V2. destruct (push_instr E base s1 pre1 p1 bs1 k1 v F1 D1 O1 P1 V1) as [Hv X].
  pose proof F1 as (Rd & _). destruct Rd as [Fl W _ _].
  apply executes_run with (2 := R1) in X. pose proof (as_left_ip _ _ _ _ (as_left_same _ _ _ _ L X)) as L2.
  destruct (left_push E base v (ar s1) (push16 v (ar s1)) (ar s2) Fl W Hv (same_refl _) L2) as [T D].
  eapply pop_instr; eauto. rewrite T, D. exact V2.
Qed.
(** PUSH CX at SP = 0 (wraps to FFFE), then POP ES. *)
Example C33_case : let s1 := demo [0; 0x1234] 2 [] [0x51] in
  let s2 := demo [7; 8; 9; 10; 0xFFFE] 0x46 [(0x3FFFE, 0x34); (0x3FFFF, 0x12)] [0x07] in
  fetched demo_env HB s1 [] np [0x51] /\ decode_stack np (ar s1) [0x51] = Some (K_PushReg CX) /\ operand_ok np (ar s1) [0x51] /\
  pushed_value (K_PushReg CX) (ar s1) = Some 0x1234 /\
  (exists s1', run_one demo_env s1 = Ok tt s1' /\ as_left 1 (ar s2) (ar s1')) /\
  fetched demo_env HB s2 [] np [0x07] /\ decode_stack np (ar s2) [0x07] = Some (K_PopSeg 0) /\ operand_ok np (ar s2) [0x07] /\
  popped_into (K_PopSeg 0) 0x1234 (with_reg 16 SP (reg 16 SP (ar s1)) (ar s2)) = Some (with_sreg 0 0x1234 (with_reg 16 SP 0 (ar s2))).
Proof.
  cbv zeta. split; [apply (demo_fetched demo_env _ 2 _ []); reflexivity|]. split; [vm_compute; reflexivity|]. split; [exact I|]. split; [vm_compute; reflexivity|].
  split. { witness (fun s => (r_ss (ar s) =? 0x3000) && (reg 16 SP (ar s) =? 0xFFFE) && (stack_word 0 (ar s) =? 0x1234)).
    split; [|split]; [transitivity 0x3000; [reflexivity|lia]|transitivity 0xFFFE; [vm_compute; reflexivity|lia]|].
    intros k Hk. replace k with 0 by lia. transitivity 0x1234; [vm_compute; reflexivity|lia]. }
  split; [apply (demo_fetched demo_env _ 0x46 _ []); reflexivity|]. split; [vm_compute; reflexivity|]. split; [exact I|]. reflexivity.
Qed.
Print Assumptions C33_push. Print Assumptions C33_pop. Print Assumptions C33_roundtrip.

(** ** C34. *)
Theorem C34_pusha_popa E base s1 pre1 p1 s1' s2 pre2 p2 :
  fetched E base s1 pre1 p1 [0x60] -> p_os p1 = false -> run_one E s1 = Ok tt s1' ->
  fetched E base s2 pre2 p2 [0x61] -> p_os p2 = false -> as_left 8 (ar s2) (ar s1') ->
  exists a', executes E s2 (pre2 ++ [0x61]) a' /\ (forall n, 0 <= n < 8 -> reg 16 n a' = reg 16 n (ar s1)) /\ only_low a' (ar s2).
Proof.
  intros F1 P1 R1 F2 P2 L. pose proof F1 as ([Fl1 W1 _ _] & _). pose proof F2 as ([Fl2 W2 _ _] & _).
  assert (X : executes E s1 (pre1 ++ [0x60]) (pusha (ar s1))).
  { apply (stack_instr E base s1 pre1 p1 [0x60] K_PushA); auto; [unfold decode_stack; cbn; rewrite P1; reflexivity|exact I|discriminate|discriminate]. }
  apply executes_run with (2 := R1) in X. pose proof (as_left_ip _ _ _ _ (as_left_same _ _ _ _ L X)) as (L1 & L2 & L3). clear L X.
  destruct (popa_regs E base (ar s2) Fl2 W2) as (Q0 & Q1 & Q2 & Q3 & Q4 & Q5 & Q6 & Q7 & Q).
  destruct (pusha_words E base (ar s1) Fl1 W1) as (U0 & U1 & U2 & U3 & U4 & U5 & U6 & U7 & U).
  exists (popa (ar s2)). split.
  { apply (stack_instr E base s2 pre2 p2 [0x61] K_PopA); auto; [unfold decode_stack; cbn; rewrite P2; reflexivity|exact I|discriminate|discriminate]. }
  split; [|exact Q]. intros n Hn.
  assert (n = 0 \/ n = 1 \/ n = 2 \/ n = 3 \/ n = 4 \/ n = 5 \/ n = 6 \/ n = 7) as K by lia.
  destruct K as [->|[->|[->|[->|[->|[->|[->| ->]]]]]]].
  - rewrite Q0, L3, U0 by lia. reflexivity.
  - rewrite Q1, L3, U1 by lia. reflexivity.
  - rewrite Q2, L3, U2 by lia. reflexivity.
  - rewrite Q3, L3, U3 by lia. reflexivity.
  - rewrite Q4, L2, U. apply low_sub_add, sp_range.
  - rewrite Q5, L3, U5 by lia. reflexivity.
  - rewrite Q6, L3, U6 by lia. reflexivity.
  - rewrite Q7, L3, U7 by lia. reflexivity.
Qed.
(** cpu type 0: 8086, 1: 80286, 2: 80386. *)
Theorem C34_pushf_popf E base s1 pre1 p1 s1' s2 pre2 p2 :
  fetched E base s1 pre1 p1 [0x9C] -> p_os p1 = false -> run_one E s1 = Ok tt s1' ->
  fetched E base s2 pre2 p2 [0x9D] -> p_os p2 = false -> as_left 1 (ar s2) (ar s1') ->
  cpu (ar s2) = 0 \/ cpu (ar s2) = 1 \/ cpu (ar s2) = 2 ->
  exists f, executes E s2 (pre2 ++ [0x9D]) (a_flags f (with_reg 16 SP (reg 16 SP (ar s1)) (ar s2))) /\
    flag 1 f = true /\ flag 3 f = false /\ flag 5 f = false /\
    (forall j, In j [12; 13; 14; 15] -> flag j f = if cpu (ar s2) =? 0 then true else if cpu (ar s2) =? 1 then false else flag j (r_flags (ar s1))) /\
    (forall j, 0 <= j -> ~ In j [1; 3; 5; 12; 13; 14; 15] -> flag j f = flag j (r_flags (ar s1))).
Proof.
  intros F1 P1 R1 F2 P2 L Hcpu. pose proof F1 as ([Fl1 W1 _ _] & _). pose proof F2 as ([Fl2 W2 _ _] & _).
  assert (X : executes E s1 (pre1 ++ [0x9C]) (push16 (r_flags (ar s1)) (ar s1))).
  { apply (stack_instr E base s1 pre1 p1 [0x9C] K_PushF); auto; [unfold decode_stack; cbn; rewrite P1; reflexivity|exact I|discriminate|discriminate]. }
  apply executes_run with (2 := R1) in X. pose proof (as_left_ip _ _ _ _ (as_left_same _ _ _ _ L X)) as L2.
  destruct (left_push E base _ (ar s1) (push16 (r_flags (ar s1)) (ar s1)) (ar s2) Fl1 W1 (wf_flags _ W1) (same_refl _) L2) as [T D].
  exists (popf_value (cpu (ar s2)) (r_flags (ar s1))). split.
  { assert (X2 : executes E s2 (pre2 ++ [0x9D]) (stack_effect p2 K_PopF (ar s2))).
    { apply (stack_instr E base s2 pre2 p2 [0x9D] K_PopF); auto; [unfold decode_stack; cbn; rewrite P2; reflexivity|exact I|discriminate]. }
    cbn [stack_effect] in X2. rewrite top16_word, T, D in X2 by apply sp_range. exact X2. }
  generalize (r_flags (ar s1)). intros f. unfold popf_value.
  split; [|split; [|split; [|split]]].
  - destruct Hcpu as [->|[->| ->]]; cbn [Z.eqb]; rewrite ?flag_put by lia; reflexivity.
  - destruct Hcpu as [->|[->| ->]]; rewrite ?flag_put by lia; reflexivity.
  - destruct Hcpu as [->|[->| ->]]; rewrite ?flag_put by lia; reflexivity.
  - intros j Hj. cbn [In] in Hj. destruct Hj as [<-|[<-|[<-|[<-|[]]]]]; destruct Hcpu as [->|[->| ->]]; cbn [Z.eqb Pos.eqb]; rewrite ?flag_put by lia; reflexivity.
  - intros j Hj Hi. cbn [In] in Hi. destruct Hcpu as [->|[->| ->]]; rewrite ?flag_put by lia;
      repeat match goal with |- context [?a =? ?b] => replace (a =? b) with false by lia end; reflexivity.
Qed.
Example C34_case : let s1 := demo [1; 2; 3; 4; 8; 6; 7; 0x10008] 2 [] [0x60] in
  let s2 := demo [0xFFFFFFFF; 0; 0; 0; 0xFFF8] 0x46 (blist 0x3FFF8 [8; 0; 7; 0; 6; 0; 8; 0] ++ blist 0x30000 [4; 0; 3; 0; 2; 0; 1; 0]) [0x61] in
  fetched demo_env HB s1 [] np [0x60] /\ (exists s1', run_one demo_env s1 = Ok tt s1' /\ as_left 8 (ar s2) (ar s1')) /\ fetched demo_env HB s2 [] np [0x61].
Proof.
  cbv zeta. split; [apply (demo_fetched demo_env _ 2 _ []); reflexivity|]. split; [|apply (demo_fetched demo_env _ 0x46 _ []); reflexivity].
  witness (fun s => (r_ss (ar s) =? 0x3000) && (reg 16 SP (ar s) =? 0xFFF8) && forallb (fun q => stack_word (fst q) (ar s) =? snd q) [(0, 8); (1, 7); (2, 6); (3, 8); (4, 4); (5, 3); (6, 2); (7, 1)]).
  cbn [forallb fst snd] in H2. rewrite !andb_true_iff, !Z.eqb_eq in H2.
  split; [|split]; [transitivity 0x3000; [reflexivity|lia]|transitivity 0xFFF8; [vm_compute; reflexivity|lia]|].
  intros k Hk. assert (k = 0 \/ k = 1 \/ k = 2 \/ k = 3 \/ k = 4 \/ k = 5 \/ k = 6 \/ k = 7) as K by lia.
  destruct K as [->|[->|[->|[->|[->|[->|[->| ->]]]]]]]; match goal with |- _ = ?r => let v := match goal with H : context [r = ?v] |- _ => v end in transitivity v; [vm_compute; reflexivity|lia] end.
Qed.
Example C34_case2 : let s1 := demo [0; 0; 0; 0; 0x100] 0xFD7 [] [0x9C] in
  let s2 := demo [7; 8; 9; 10; 0xFE] 0x46 [(0x300FE, 0xD7); (0x300FF, 0xF)] [0x9D] in
  fetched demo_env HB s1 [] np [0x9C] /\ (exists s1', run_one demo_env s1 = Ok tt s1' /\ as_left 1 (ar s2) (ar s1')) /\ fetched demo_env HB s2 [] np [0x9D] /\ cpu (ar s2) = 2.
Proof.
  cbv zeta. split; [apply (demo_fetched demo_env _ 0xFD7 _ []); reflexivity|]. split; [|split; [apply (demo_fetched demo_env _ 0x46 _ []); reflexivity|reflexivity]].
  witness (fun s => (r_ss (ar s) =? 0x3000) && (reg 16 SP (ar s) =? 0xFE) && (stack_word 0 (ar s) =? 0xFD7)).
  split; [|split]; [transitivity 0x3000; [reflexivity|lia]|transitivity 0xFE; [vm_compute; reflexivity|lia]|].
  intros k Hk. replace k with 0 by lia. transitivity 0xFD7; [vm_compute; reflexivity|lia].
Qed.
Print Assumptions C34_pusha_popa. Print Assumptions C34_pushf_popf.

(** ** C35.  The bytes of CALL and RET, with the number of extra bytes RET n removes. *)
Inductive ret_near : list Z -> Z -> Prop :=
| ret_near_0 : ret_near [0xC3] 0
| ret_near_n l h : ret_near [0xC2; l; h] (l + 256 * h).
Inductive ret_far : list Z -> Z -> Prop :=
| ret_far_0 : ret_far [0xCB] 0
| ret_far_n l h : ret_far [0xCA; l; h] (l + 256 * h).
Definition after_instr (s : st) (bs : list Z) : Z := (r_ip (ar s) + blen bs) mod 65536.

Lemma ret_near_instr E base s pre p bs n : fetched E base s pre p bs -> p_os p = false -> ret_near bs n ->
  executes_to E s (pre ++ bs) (a_ip (top16 (ar s)) (drop (2 + n) (ar s))).
Proof.
  intros Hf Hp Hb. destruct Hb as [|l h]; (jumpx; [rewrite Hp; cbn [imm Z.eqb Pos.eqb after ifrest]; reflexivity|]); rewrite ?drop_drop; apply same_refl.
Qed.
Lemma ret_far_instr E base s pre p bs n : fetched E base s pre p bs -> p_os p = false -> ret_far bs n ->
  executes_to E s (pre ++ bs) (a_cs (top16 (drop 2 (ar s))) (a_ip (top16 (ar s)) (drop (4 + n) (ar s)))).
Proof.
  intros Hf Hp Hb. destruct Hb as [|l h]; (jumpx; [rewrite Hp; cbn [imm Z.eqb Pos.eqb after ifrest]; reflexivity|]); rewrite !drop_drop; unfold far; first [apply same_refl|replace (2 + (2 + (l + 256 * h))) with (4 + (l + 256 * h)) by lia; apply same_refl].
Qed.
Lemma drop_left n k a b : as_left 0 (drop k a) b -> drop (k + n) a = with_reg 16 SP ((reg 16 SP b + n) mod 65536) a.
Proof.
  intros (_ & L & _). rewrite <- drop_drop. unfold drop at 1. rewrite L. unfold drop.
  rewrite wreg_twice by (auto with width; try lia; apply low_range; auto with width). reflexivity.
Qed.
Lemma mod16_range x : inrange 16 (x mod 65536). Proof. apply Z.mod_pos_bound. lia. Qed.
(** Near CALL (direct), then RET or RET n with SS:SP and the top word as the CALL left them. *)
Theorem C35_near E base s1 pre1 p1 dl dh s1' s2 pre2 p2 bs2 n :
  fetched E base s1 pre1 p1 [0xE8; dl; dh] -> p_os p1 = false -> run_one E s1 = Ok tt s1' ->
  fetched E base s2 pre2 p2 bs2 -> p_os p2 = false -> ret_near bs2 n -> as_left 1 (ar s2) (ar s1') ->
  executes_to E s2 (pre2 ++ bs2) (a_ip (after_instr s1 (pre1 ++ [0xE8; dl; dh])) (with_reg 16 SP ((reg 16 SP (ar s1) + n) mod 65536) (ar s2))).
Proof.
  intros F1 P1 R1 F2 P2 B L. pose proof F1 as ([Fl1 W1 _ _] & _).
  pose proof (C31_call_near E base s1 pre1 p1 dl dh F1 P1) as X. cbv zeta in X. apply executes_run with (2 := R1) in X.
  pose proof (as_left_ip _ _ _ _ (as_left_same _ _ _ _ L X)) as L2.
  apply (left_pop E base 0) in L2; auto using mod16_range; try lia. destruct L2 as [T D].
  eapply executes_to_same; [eapply ret_near_instr; eauto|]. rewrite T, (drop_left n _ _ _ D). apply same_refl.
Qed.
Theorem C35_near_indirect_partial E base s1 pre1 p1 t r s1' s2 pre2 p2 bs2 n :
  fetched E base s1 pre1 p1 (0xFF :: t) -> p_os p1 = false -> parse_rm p1 (ar s1) t = Some (2, r, []) -> operand_ok p1 (ar s1) (0xFF :: t) ->
  let ret := after_instr s1 (pre1 ++ 0xFF :: t) in
  rd_rm 16 r (push16 ret (ar s1)) = rd_rm 16 r (ar s1) -> run_one E s1 = Ok tt s1' ->
  fetched E base s2 pre2 p2 bs2 -> p_os p2 = false -> ret_near bs2 n -> as_left 1 (ar s2) (ar s1') ->
  executes_to E s2 (pre2 ++ bs2) (a_ip ret (with_reg 16 SP ((reg 16 SP (ar s1) + n) mod 65536) (ar s2))).
Proof.
  intros F1 P1 Hp Ho. cbv zeta. intros Hr R1 F2 P2 B L. pose proof F1 as ([Fl1 W1 _ _] & _).
  pose proof (C31_call_indirect_partial E base s1 pre1 p1 t r F1 P1 Hp Ho Hr) as X. cbv zeta in X. apply executes_run with (2 := R1) in X.
  pose proof (as_left_ip _ _ _ _ (as_left_same _ _ _ _ L X)) as L2.
  apply (left_pop E base 0) in L2; auto using mod16_range; try lia. destruct L2 as [T D].
  eapply executes_to_same; [eapply ret_near_instr; eauto|]. rewrite T, (drop_left n _ _ _ D). apply same_refl.
Qed.
Lemma far_back E base s1 s1' s2 pre2 p2 bs2 n ret c i : flat E base (ar s1) -> wf_regs (ar s1) -> inrange 16 ret ->
  same (ar s1') (a_cs c (a_ip i (push16 ret (push16 (r_cs (ar s1)) (ar s1))))) ->
  fetched E base s2 pre2 p2 bs2 -> p_os p2 = false -> ret_far bs2 n -> as_left 2 (ar s2) (ar s1') ->
  executes_to E s2 (pre2 ++ bs2) (a_cs (r_cs (ar s1)) (a_ip ret (with_reg 16 SP ((reg 16 SP (ar s1) + n) mod 65536) (ar s2)))).
Proof.
  intros Fl1 W1 Hr X F2 P2 B L.
  pose proof (as_left_ip _ _ _ _ (as_left_cs _ _ _ _ (as_left_same _ _ _ _ L X))) as L2.
  apply (left_frame2 E base 0) in L2; auto; try lia; try apply W1. destruct L2 as (T1 & T2 & D).
  eapply executes_to_same; [eapply ret_far_instr; eauto|]. rewrite T1, T2, (drop_left n _ _ _ D). apply same_refl.
Qed.
(** Far CALL (direct, or through memory), then RETF or RETF n. *)
Theorem C35_far E base s1 pre1 p1 o0 o1 g0 g1 s1' s2 pre2 p2 bs2 n :
  fetched E base s1 pre1 p1 [0x9A; o0; o1; g0; g1] -> p_os p1 = false -> run_one E s1 = Ok tt s1' ->
  fetched E base s2 pre2 p2 bs2 -> p_os p2 = false -> ret_far bs2 n -> as_left 2 (ar s2) (ar s1') ->
  executes_to E s2 (pre2 ++ bs2) (a_cs (r_cs (ar s1)) (a_ip (after_instr s1 (pre1 ++ [0x9A; o0; o1; g0; g1])) (with_reg 16 SP ((reg 16 SP (ar s1) + n) mod 65536) (ar s2)))).
Proof.
  intros F1 P1 R1 F2 P2 B L. pose proof F1 as ([Fl1 W1 _ _] & _).
  pose proof (C31_call_far E base s1 pre1 p1 o0 o1 g0 g1 F1 P1) as X. cbv zeta in X. apply executes_run with (2 := R1) in X.
  eapply far_back; eauto. apply mod16_range.
Qed.
Theorem C35_far_indirect E base s1 pre1 p1 t sg o s1' s2 pre2 p2 bs2 n :
  fetched E base s1 pre1 p1 (0xFF :: t) -> p_os p1 = false -> parse_rm p1 (ar s1) t = Some (3, RMem sg o, []) -> operand_ok p1 (ar s1) (0xFF :: t) ->
  run_one E s1 = Ok tt s1' ->
  fetched E base s2 pre2 p2 bs2 -> p_os p2 = false -> ret_far bs2 n -> as_left 2 (ar s2) (ar s1') ->
  executes_to E s2 (pre2 ++ bs2) (a_cs (r_cs (ar s1)) (a_ip (after_instr s1 (pre1 ++ 0xFF :: t)) (with_reg 16 SP ((reg 16 SP (ar s1) + n) mod 65536) (ar s2)))).
Proof.
  intros F1 P1 Hp Ho R1 F2 P2 B L. pose proof F1 as ([Fl1 W1 _ _] & _).
  pose proof (C31_call_far_indirect E base s1 pre1 p1 t sg o F1 P1 Hp Ho) as X. cbv zeta in X. apply executes_run with (2 := R1) in X.
  eapply far_back; eauto. apply mod16_range.
Qed.
Lemma left1 a b sp w : r_ss a = r_ss b -> reg 16 SP a = sp -> stack_word 0 a = w -> reg 16 SP b = sp -> stack_word 0 b = w -> as_left 1 a b.
Proof. intros H1 H2 H3 H4 H5. split; [exact H1|]. split; [congruence|]. intros k Hk. replace k with 0 by lia. congruence. Qed.
Example C35_case : let b1 := [0xE8; 0x10; 0xFF] in let s1 := demo [0; 0; 0; 0; 0x100] 2 [] b1 in
  let b2 := [0xC2; 6; 0] in let s2 := demo [7; 8; 9; 10; 0xFE] 0x46 [(0x300FE, 0x03); (0x300FF, 0x01)] b2 in
  fetched demo_env HB s1 [] np b1 /\ (exists s1', run_one demo_env s1 = Ok tt s1' /\ as_left 1 (ar s2) (ar s1')) /\ fetched demo_env HB s2 [] np b2 /\ ret_near b2 6.
Proof.
  cbv zeta. split; [apply (demo_fetched demo_env _ 2 _ []); reflexivity|]. split; [|split; [apply (demo_fetched demo_env _ 0x46 _ []); reflexivity|apply (ret_near_n 6 0)]].
  witness (fun s => (r_ss (ar s) =? 0x3000) && (reg 16 SP (ar s) =? 0xFE) && (stack_word 0 (ar s) =? 0x103)).
  apply (left1 _ _ 0xFE 0x103); [transitivity 0x3000; [reflexivity|lia]|vm_compute; reflexivity|vm_compute; reflexivity|lia|lia].
Qed.
Example C35_case2 : let b1 := [0x9A; 0x10; 0; 0; 0x20] in let s1 := demo [0; 0; 0; 0; 0x100] 2 [] b1 in
  let b2 := [0xCB] in let s2 := demo [7; 8; 9; 10; 0xFC] 0x46 (blist 0x300FC [5; 1; 0; 0x10]) b2 in
  fetched demo_env HB s1 [] np b1 /\ (exists s1', run_one demo_env s1 = Ok tt s1' /\ as_left 2 (ar s2) (ar s1')) /\ fetched demo_env HB s2 [] np b2 /\ ret_far b2 0.
Proof.
  cbv zeta. split; [apply (demo_fetched demo_env _ 2 _ []); reflexivity|]. split; [|split; [apply (demo_fetched demo_env _ 0x46 _ []); reflexivity|constructor]].
  witness (fun s => (r_ss (ar s) =? 0x3000) && (reg 16 SP (ar s) =? 0xFC) && (stack_word 0 (ar s) =? 0x105) && (stack_word 1 (ar s) =? 0x1000)).
  split; [transitivity 0x3000; [reflexivity|lia]|]. split; [transitivity 0xFC; [vm_compute; reflexivity|lia]|].
  intros k Hk. assert (k = 0 \/ k = 1) as [->| ->] by lia; [transitivity 0x105; [vm_compute; reflexivity|lia]|transitivity 0x1000; [vm_compute; reflexivity|lia]].
Qed.
Print Assumptions C35_near. Print Assumptions C35_near_indirect_partial. Print Assumptions C35_far. Print Assumptions C35_far_indirect.

(** ** C36.  INT3 (CC), INT n (CD n), INTO (CE, when OF is set). *)
Theorem C36_int E base s pre p bs n sg o : fetched E base s pre p bs -> int_number bs = Some n ->
  (bs = [0xCE] -> flag OF (r_flags (ar s)) = true) ->
  vector n (ar s) = (sg, o) -> (sg, o) <> (0, 0) -> (sg, o) <> (0xB800, n) ->
  executes_to E s (pre ++ bs)
    (a_cs sg (a_ip o (a_flags (put IF_ false (put TF false (r_flags (ar s))))
      (push16 (after_instr s (pre ++ bs)) (push16 (r_cs (ar s)) (push16 (r_flags (ar s)) (ar s))))))).
Proof. intros. apply (int_instr E base s pre p bs n sg o); assumption. Qed.
Theorem C36_zero_vector E base s pre p bs n : fetched E base s pre p bs -> int_number bs = Some n ->
  (bs = [0xCE] -> flag OF (r_flags (ar s)) = true) ->
  vector n (ar s) = (0, 0) -> stops E s E_BADMEM.
Proof. apply int_zero_instr. Qed.
Theorem C36_into_clear E base s pre p : fetched E base s pre p [0xCE] -> flag OF (r_flags (ar s)) = false -> executes E s (pre ++ [0xCE]) (ar s).
Proof. apply into_clear_instr. Qed.
(** IRET with SS:SP and the three words as the interrupt left them. *)
Theorem C36_iret E base s1 pre1 p1 bs1 n s1' s2 pre2 p2 : fetched E base s1 pre1 p1 bs1 -> int_number bs1 = Some n ->
  (bs1 = [0xCE] -> flag OF (r_flags (ar s1)) = true) -> vector n (ar s1) <> (0, 0) -> vector n (ar s1) <> (0xB800, n) ->
  run_one E s1 = Ok tt s1' ->
  fetched E base s2 pre2 p2 [0xCF] -> p_os p2 = false -> as_left 3 (ar s2) (ar s1') ->
  executes_to E s2 (pre2 ++ [0xCF])
    (a_flags (r_flags (ar s1)) (a_cs (r_cs (ar s1)) (a_ip (after_instr s1 (pre1 ++ bs1)) (with_reg 16 SP (reg 16 SP (ar s1)) (ar s2))))).
Proof.
  intros F1 Hn Ho V0 Vh R1 F2 P2 L. pose proof F1 as ([Fl1 W1 _ _] & _).
  destruct (vector n (ar s1)) as [sg o] eqn:Hv.
  pose proof (C36_int E base s1 pre1 p1 bs1 n sg o F1 Hn Ho Hv V0 Vh) as X. apply executes_run with (2 := R1) in X.
  pose proof (as_left_fl _ _ _ _ (as_left_ip _ _ _ _ (as_left_cs _ _ _ _ (as_left_same _ _ _ _ L X)))) as L2.
  apply (left_frame E base 0) in L2; auto using mod16_range; try lia; try apply W1. destruct L2 as (T1 & T2 & T3 & D).
  jumpx; [rewrite P2; cbn [ifrest]; reflexivity|]. rewrite T1, T2, T3, !drop_drop. change (2 + (2 + 2)) with (6 + 0). rewrite (drop_left 0 _ _ _ D), Z.add_0_r, Z.mod_small by apply sp_range.
  apply same_refl.
  all: apply mod16_range.
Qed.
(** Vector 0x21 = 2000:0040. *)
Example C36_case : let b1 := [0xCD; 0x21] in let s1 := demo [0; 0; 0; 0; 0x100] 0x302 (blist 0x84 [0x40; 0; 0; 0x20]) b1 in
  let s2 := demo [7; 8; 9; 10; 0xFA] 0x46 (blist 0x300FA [2; 1; 0; 0x10; 2; 3]) [0xCF] in
  fetched demo_env HB s1 [] np b1 /\ int_number b1 = Some 0x21 /\ vector 0x21 (ar s1) = (0x2000, 0x40) /\
  (exists s1', run_one demo_env s1 = Ok tt s1' /\ as_left 3 (ar s2) (ar s1')) /\ fetched demo_env HB s2 [] np [0xCF].
Proof.
  cbv zeta. split; [apply (demo_fetched demo_env _ 0x302 _ []); reflexivity|]. split; [reflexivity|]. split; [vm_compute; reflexivity|].
  split; [|apply (demo_fetched demo_env _ 0x46 _ []); reflexivity].
  witness (fun s => (r_ss (ar s) =? 0x3000) && (reg 16 SP (ar s) =? 0xFA) && (stack_word 0 (ar s) =? 0x102) && (stack_word 1 (ar s) =? 0x1000) && (stack_word 2 (ar s) =? 0x302)).
  split; [transitivity 0x3000; [reflexivity|lia]|]. split; [transitivity 0xFA; [vm_compute; reflexivity|lia]|].
  intros k Hk. assert (k = 0 \/ k = 1 \/ k = 2) as [->|[->| ->]] by lia; [transitivity 0x102; [vm_compute; reflexivity|lia]|transitivity 0x1000; [vm_compute; reflexivity|lia]|transitivity 0x302; [vm_compute; reflexivity|lia]].
Qed.
Example C36_case2 : let s := demo [] 0x802 [] [0xCE] in fetched demo_env HB s [] np [0xCE] /\ int_number [0xCE] = Some 4 /\ flag OF (r_flags (ar s)) = true /\ vector 4 (ar s) = (0, 0).
Proof. cbv zeta. split; [apply (demo_fetched demo_env _ 0x802 _ []); reflexivity|]. vm_compute. auto. Qed.
Example C36_case3 : let s := demo [] 2 [] [0xCE] in fetched demo_env HB s [] np [0xCE] /\ flag OF (r_flags (ar s)) = false.
Proof. cbv zeta. split; [apply (demo_fetched demo_env _ 2 _ []); reflexivity|]. reflexivity. Qed.
Print Assumptions C36_int. Print Assumptions C36_zero_vector. Print Assumptions C36_into_clear. Print Assumptions C36_iret.

(** ** C37.  Callbacks act on registers and memory as the function [f handle n]; [hle_effect f n a] is what
    the callback for n does to a, if one is installed. *)
Theorem C37_int E base f s pre p bs n : callbacks E f -> fetched E base s pre p bs -> int_number bs = Some n ->
  (bs = [0xCE] -> flag OF (r_flags (ar s)) = true) -> vector n (ar s) = (0xB800, n) ->
  let a' := hle_effect f n (ar s) in
  flat E base a' -> executes_to E s (pre ++ bs) (a_ip ((r_ip a' + blen (pre ++ bs)) mod 65536) a').
Proof. intros Hc Hf Hn Ho Hv. cbv zeta. intros Hfl. apply (int_hle_instr E base f s pre p bs n); assumption. Qed.
(** CS:IP = B800:n. *)
Theorem C37_entry E base f s n : callbacks E f -> r_cs (ar s) = 0xB800 -> r_ip (ar s) = n -> 0 <= n < 256 ->
  let a := hle_effect f n (ar s) in flat E base a -> wf_regs a ->
  exists s', run_one E s = Ok tt s' /\
    same (ar s') (a_flags (stack_word 2 a) (a_cs (stack_word 1 a) (a_ip (stack_word 0 a) (with_reg 16 SP ((reg 16 SP a + 6) mod 65536) a)))) /\ icount s' = icount s.
Proof.
  intros Hc H1 H2 Hn. cbv zeta. intros F W. destruct (hle_entry E base f s n Hc H1 H2 Hn F W) as (s' & R & S & I1 & _).
  exists s'. split; [exact R|]. split; [|exact I1]. eapply same_trans; [exact S|]. generalize (hle_effect f n (ar s)). intros a.
  unfold iret, far. cbv zeta. rewrite !drop_drop. change (2 + (2 + 2)) with 6. rewrite <- (drop_drop 2 2).
  rewrite !top16_word by apply sp_range. rewrite !word_drop. apply same_refl.
Qed.
(** Any other vector: whatever the callbacks are, the result is the same. *)
Theorem C37_other_vector E E' base s pre p bs n : fetched E base s pre p bs -> int_number bs = Some n -> vector n (ar s) <> (0xB800, n) ->
  (bs = [0xCE] -> flag OF (r_flags (ar s)) = true) -> vector n (ar s) <> (0, 0) ->
  null_check E' = null_check E -> zero_null_ok E' = zero_null_ok E ->
  exists a', executes_to E s (pre ++ bs) a' /\ executes_to E' s (pre ++ bs) a'.
Proof.
  intros Hf Hn Vh Ho V0 N1 N2. destruct (vector n (ar s)) as [sg o] eqn:Hv.
  assert (Hf' : fetched E' base s pre p bs).
  { destruct Hf as ([F W P C] & H1 & H2). split; [|split; assumption]. constructor; try assumption. destruct F as [A B C0 D]. constructor; try assumption.
    rewrite N1, N2. exact B. }
  eexists. split; [eapply (C36_int E); eauto|eapply (C36_int E'); eauto].
Qed.
(** A callback that sets AX to 0x1234 and ZF, installed for interrupt 0x10 (vector B800:0010). *)
Definition cb_f (h n : Z) (a : arch) : arch := with_reg 16 AX (0x1000 * h + n) a.
Definition cb_env : env := mkEnv false false (fun _ _ p => p) (fun h n s => mkSt (cb_f h n (ar s)) (dc s) (dbg s) (icount s) (lastnull s)).
Definition with_hle (t : Z -> Z) (s : st) : st := mkSt (mkArch (gprs (ar s)) (r_ss (ar s)) (r_ds (ar s)) (r_es (ar s)) (r_fs (ar s)) (r_gs (ar s)) (r_cs (ar s)) (r_ip (ar s)) (r_flags (ar s)) (cpu (ar s)) (mtab (ar s)) t (hmem (ar s)) (iolog (ar s))) (dc s) (dbg s) (icount s) (lastnull s).
Lemma with_hle_fetched t E base s pre p bs : fetched E base s pre p bs -> fetched E base (with_hle t s) pre p bs.
Proof. intros ([F W P C] & H1 & H2). split; [|split; assumption]. constructor; try assumption; [destruct F; constructor; assumption|destruct W; constructor; assumption]. Qed.
Example C37_case : let bs := [0xCD; 0x10] in let s := with_hle (fun n => if n =? 16 then 1 else 0) (demo [5] 2 (blist 0x40 [0x10; 0; 0; 0xB8]) bs) in
  callbacks cb_env cb_f /\ fetched cb_env HB s [] np bs /\ int_number bs = Some 16 /\ vector 16 (ar s) = (0xB800, 16) /\
  flat cb_env HB (hle_effect cb_f 16 (ar s)) /\ reg 16 AX (hle_effect cb_f 16 (ar s)) = 0x1010 /\ wf_regs (hle_effect cb_f 16 (ar s)).
Proof.
  cbv zeta. assert (Hf : fetched cb_env HB (with_hle (fun n => if n =? 16 then 1 else 0) (demo [5] 2 (blist 0x40 [0x10; 0; 0; 0xB8]) [0xCD; 0x10])) [] np [0xCD; 0x10]).
  { apply with_hle_fetched. apply (demo_fetched cb_env _ 2 _ []); reflexivity. }
  split; [intros h n s; reflexivity|]. split; [exact Hf|]. split; [reflexivity|]. split; [vm_compute; reflexivity|]. destruct Hf as ([F W _ _] & _).
  unfold hle_effect. cbn [with_hle ar hle Z.eqb Pos.eqb]. unfold cb_f. split; [auto with flat|]. split; [vm_compute; reflexivity|].
  apply wf_with_reg; auto with width; try lia. unfold inrange; lia.
Qed.
Print Assumptions C37_int. Print Assumptions C37_entry. Print Assumptions C37_other_vector.

(** ** C38.  RME_CallInt; [fuel] bounds the number of instructions the model runs. *)
Theorem C38_invalid_number E fuel n s : ~ 0 <= n < 256 -> exists s', call_int E fuel n s = Err E_INVAL s' /\ same (ar s') (a_ip 65535 (a_cs 65535 (ar s))).
Proof. intros H. destruct (call_int_bad E fuel n s H) as (s' & R & S & _). eauto. Qed.
(** The state s1 in which the handler starts: frame with return address FFFF:FFFF and the caller's
    FLAGS, IF and TF clear, CS:IP from the vector. *)
Definition handler_start (n : Z) (s s1 : st) : Prop :=
  exists sg o b, b = push16 65535 (push16 65535 (push16 (r_flags (ar s)) (a_ip 65535 (a_cs 65535 (ar s))))) /\ vector n b = (sg, o) /\
    same (ar s1) (a_cs sg (a_ip o (a_flags (put IF_ false (put TF false (r_flags (ar s)))) b))) /\ icount s1 = icount s.
Lemma handler_start_ok E base n s s1 : flat E base (ar s) -> wf_regs (ar s) -> same (ar s1) (enter_int n 65535 (a_ip 65535 (a_cs 65535 (ar s)))) -> icount s1 = icount s -> handler_start n s s1.
Proof.
  intros F W S I1. unfold enter_int in S. cbv zeta in S. destruct (vector n (int_frame 65535 (a_ip 65535 (a_cs 65535 (ar s))))) as [sg o] eqn:Hv.
  exists sg, o, (int_frame 65535 (a_ip 65535 (a_cs 65535 (ar s)))). split; [reflexivity|]. split; [exact Hv|]. split; [exact S|exact I1].
Qed.
Lemma run_magic E s : magic (ar s) -> run_one E s = Err E_FCNRET s.
Proof. intros [H1 H2]. unfold run_one. rewrite H1, H2. cbn [Z.eqb Pos.eqb andb]. destruct s; reflexivity. Qed.
(** If the handler gets in k steps to an IRET with SS:SP and the frame as at its start, RME_CallInt returns
    0 with FLAGS and SP as before the call. *)
Theorem C38_handler_returns E base n s : 0 <= n < 256 -> flat E base (ar s) -> wf_regs (ar s) ->
  exists s1, handler_start n s s1 /\
  forall k s2 pre p, runs E k s1 s2 -> fetched E base s2 pre p [0xCF] -> p_os p = false -> as_left 3 (ar s2) (ar s1) ->
  forall fuel, (k + 1 < fuel)%nat -> exists s', call_int E fuel n s = Ok tt s' /\
    same (ar s') (a_flags (r_flags (ar s)) (a_cs 65535 (a_ip 65535 (with_reg 16 SP (reg 16 SP (ar s)) (ar s2))))).
Proof.
  intros Hn F W. destruct (call_int_enter E base n s Hn F W) as (s1 & S & I1 & _ & _ & Hc).
  exists s1. split; [eapply handler_start_ok; eauto|]. intros k s2 pre p Hr F2 P2 L fuel Hk.
  assert (F' : flat E base (a_ip 65535 (a_cs 65535 (ar s)))) by auto with flat.
  assert (W' : wf_regs (a_ip 65535 (a_cs 65535 (ar s)))) by (destruct W; constructor; try assumption; cbn; unfold inrange; lia).
  unfold enter_int in S. cbv zeta in S. destruct (vector n (int_frame 65535 (a_ip 65535 (a_cs 65535 (ar s))))) as [sg o] eqn:Hv.
  pose proof (as_left_fl _ _ _ _ (as_left_ip _ _ _ _ (as_left_cs _ _ _ _ (as_left_same _ _ _ _ L S)))) as L2.
  unfold int_frame in L2.
  assert (R16 : inrange 16 65535) by (unfold inrange; lia).
  destruct (left_frame E base 0 65535 (r_cs (a_ip 65535 (a_cs 65535 (ar s)))) (r_flags (a_ip 65535 (a_cs 65535 (ar s)))) _ (a_ip 65535 (a_cs 65535 (ar s))) F' W' R16 (wf_cs _ W') (wf_flags _ W') ltac:(lia) L2) as (T1 & T2 & T3 & D).
  change (r_cs (a_ip 65535 (a_cs 65535 (ar s)))) with 65535 in T2. change (r_flags (a_ip 65535 (a_cs 65535 (ar s)))) with (r_flags (ar s)) in T3.
  assert (X : executes_to E s2 (pre ++ [0xCF]) (a_flags (r_flags (ar s)) (a_cs 65535 (a_ip 65535 (with_reg 16 SP (reg 16 SP (ar s)) (ar s2)))))).
  { jumpx; [rewrite P2; cbn [ifrest]; reflexivity|]. rewrite T1, T2, T3, !drop_drop. change (2 + (2 + 2)) with (6 + 0). rewrite (drop_left 0 _ _ _ D), Z.add_0_r, Z.mod_small by apply sp_range.
    apply same_refl. }
  assert (Hnull : is_null (ar s2) (a_flags (r_flags (ar s)) (a_cs 65535 (a_ip 65535 (with_reg 16 SP (reg 16 SP (ar s)) (ar s2))))) (pre ++ [0xCF]) = false).
  { destruct F2 as (_ & _ & _ & Cd). unfold is_null. destruct (Z.eqb_spec (blen (pre ++ [0xCF])) 2) as [Hl|]; [|reflexivity].
    unfold blen in Hl. rewrite app_length in Hl. cbn [length] in Hl. destruct pre as [|q [|? ?]]; cbn [length] in Hl; try lia.
    pose proof (Cd 1%nat 0xCF eq_refl) as B.
    replace (byte _ (pc (ar s2) + 1)) with 0xCF. apply andb_false_r. }
  destruct X as (s3 & R & S3 & _). rewrite Hnull, andb_false_r in R.
  exists s3. rewrite Hc. split; [|exact S3]. apply rme_call_ok. exists (k + 1)%nat. split; [exact Hk|]. exists s3. split.
  - apply (runs_trans E k 1 s1 s2 s3 Hr). econstructor; [exact R|constructor].
  - apply run_magic. split; [rewrite (sm_cs _ _ S3)|rewrite (sm_ip _ _ S3)]; reflexivity.
Qed.
(** With the HLE vector B800:n the callback is the handler. *)
Theorem C38_hle E base f n s : callbacks E f -> 0 <= n < 256 -> flat E base (ar s) -> wf_regs (ar s) ->
  exists s1, handler_start n s s1 /\ (r_cs (ar s1) = 0xB800 -> r_ip (ar s1) = n ->
  let a := hle_effect f n (ar s1) in flat E base a -> wf_regs a -> as_left 3 a (ar s1) ->
  forall fuel, (1 < fuel)%nat -> exists s', call_int E fuel n s = Ok tt s' /\
    same (ar s') (a_flags (r_flags (ar s)) (a_cs 65535 (a_ip 65535 (with_reg 16 SP (reg 16 SP (ar s)) a))))).
Proof.
  intros Hcb Hn F W. destruct (call_int_enter E base n s Hn F W) as (s1 & S & I1 & _ & _ & Hc).
  exists s1. split; [eapply handler_start_ok; eauto|]. intros Hcs Hip. cbv zeta. intros Fa Wa L fuel Hk.
  assert (F' : flat E base (a_ip 65535 (a_cs 65535 (ar s)))) by auto with flat.
  assert (W' : wf_regs (a_ip 65535 (a_cs 65535 (ar s)))) by (destruct W; constructor; try assumption; cbn; unfold inrange; lia).
  unfold enter_int in S. cbv zeta in S. destruct (vector n (int_frame 65535 (a_ip 65535 (a_cs 65535 (ar s))))) as [sg o] eqn:Hv.
  pose proof (as_left_fl _ _ _ _ (as_left_ip _ _ _ _ (as_left_cs _ _ _ _ (as_left_same _ _ _ _ L S)))) as L2.
  unfold int_frame in L2.
  assert (R16 : inrange 16 65535) by (unfold inrange; lia).
  destruct (left_frame E base 0 65535 (r_cs (a_ip 65535 (a_cs 65535 (ar s)))) (r_flags (a_ip 65535 (a_cs 65535 (ar s)))) _ (a_ip 65535 (a_cs 65535 (ar s))) F' W' R16 (wf_cs _ W') (wf_flags _ W') ltac:(lia) L2) as (T1 & T2 & T3 & D).
  change (r_cs (a_ip 65535 (a_cs 65535 (ar s)))) with 65535 in T2. change (r_flags (a_ip 65535 (a_cs 65535 (ar s)))) with (r_flags (ar s)) in T3.
  destruct (hle_entry E base f s1 n Hcb Hcs Hip Hn Fa Wa) as (s3 & R & S3 & _).
  unfold iret in S3. cbv zeta in S3. rewrite T1, T2, T3, !drop_drop in S3. change (2 + (2 + 2)) with (6 + 0) in S3. rewrite (drop_left 0 _ _ _ D), Z.add_0_r, Z.mod_small in S3 by apply sp_range.
  exists s3. rewrite Hc. split; [|exact S3]. apply rme_call_ok. exists 1%nat. split; [exact Hk|]. exists s3. split.
  - econstructor; [exact R|constructor].
  - apply run_magic. split; [rewrite (sm_cs _ _ S3)|rewrite (sm_ip _ _ S3)]; reflexivity.
Qed.
(** RME_CallInt(0x21) with vector 1000:0100 and handler STC; IRET. *)
Example C38_case : let s := demo [0; 0; 0; 0; 0x100] 0x46 (blist 0x84 [0; 1; 0; 0x10]) [0xF9; 0xCF] in
  flat demo_env HB (ar s) /\ wf_regs (ar s) /\
  okb (call_int demo_env 3 0x21 s) (fun s' => (reg 16 SP (ar s') =? 0x100) && (r_flags (ar s') =? 0x46)) = true.
Proof. cbv zeta. split; [apply demo_flat; reflexivity|]. split; [apply demo_wf; reflexivity|]. vm_compute. reflexivity. Qed.
Print Assumptions C38_invalid_number. Print Assumptions C38_handler_returns. Print Assumptions C38_hle.
