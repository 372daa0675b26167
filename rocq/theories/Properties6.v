(** Property theorems C30-C32: comparisons, jumps, loops. *)
From Verif Require Import Base Cpu Alu Ops Machine Spec SpecOps SpecOps2 SpecSys SpecRun SpecTop PBase PMem PRun PFrame PAlu PExec PStep PFlags PSmall PSmall2 PSmall3 PSmall4 PIAlu PIAlu2 PAlg PIMov PIStack PIJump PIInt PIStr PSmall6 Demo.

Definition np : pfx := mkPfx None false false 0.
Ltac witness t := match goal with |- exists s', ?r = _ /\ _ => destruct (okb_ex r t) as (s' & H1 & H2); [vm_compute; reflexivity|]; exists s'; split; [exact H1|] end.
Ltac regform := split; [intros H; exfalso; apply H; reflexivity|intros; first [exact I|discriminate]].

(** The bytes of Jcc: short (70+n d) and near (0F 80+n dl dh), with the signed displacement. *)
Inductive jcc_bytes (n : Z) : list Z -> Z -> Prop :=
| jcc_short d : jcc_bytes n [0x70 + n; d] (signed 8 d)
| jcc_near dl dh : jcc_bytes n [0x0F; 0x80 + n; dl; dh] (signed 16 (dl + 256 * dh)).
(** Where execution continues. *)
Definition goes_to (E : env) (s : st) (bs : list Z) (d : Z) (taken : bool) : Prop :=
  executes_to E s bs (a_ip ((r_ip (ar s) + blen bs + (if taken then d else 0)) mod 65536) (ar s)).

(** ** C31.  Conditional and unconditional jumps. *)
Theorem C31_jcc E base s pre p bs n d : fetched E base s pre p bs -> jcc_bytes n bs d -> 0 <= n < 16 -> (blen bs = 4 -> p_os p = false) ->
  goes_to E s (pre ++ bs) d (condition n (r_flags (ar s))).
Proof.
  intros Hf Hb Hn Ho. unfold goes_to. rewrite <- condition_jcc by exact Hn. destruct Hb as [d|dl dh].
  - eapply jump_to; [exact Hf| | |].
    + cbn [step_jump]. replace ((0x70 <=? 0x70 + n) && (0x70 + n <=? 0x7F)) with true by lia. cbn [imm Z.eqb Pos.eqb after]. replace (112 + n - 112) with n by lia. reflexivity.
    + unfold operand_ok. replace (has_modrm [112 + n; d]) with (@None (bool * list Z)); [exact I|]. clear Hf. pattern n. apply sixteen; auto.
    + unfold branch, fallthrough. destruct (jcc n (r_flags (ar s))); rewrite ?Z.add_0_r; apply same_refl.
  - eapply jump_to; [exact Hf| | |].
    + cbn [step_jump]. cbn [Z.leb Z.compare Pos.compare Pos.compare_cont andb Z.eqb Pos.eqb negb]. rewrite (Ho eq_refl).
      replace ((0x80 <=? 0x80 + n) && (0x80 + n <=? 0x8F)) with true by lia. cbn [imm Z.eqb Pos.eqb after]. replace (128 + n - 128) with n by lia. reflexivity.
    + unfold operand_ok. replace (has_modrm [15; 128 + n; dl; dh]) with (@None (bool * list Z)); [exact I|]. clear Hf. pattern n. apply sixteen; auto.
    + unfold branch, fallthrough. destruct (jcc n (r_flags (ar s))); rewrite ?Z.add_0_r; apply same_refl.
Qed.

Ltac jumpx := eapply jump_to; [eassumption|cbn [step_jump]; cbn [Z.leb Z.compare Pos.compare Pos.compare_cont CompOpp andb Z.eqb Pos.eqb negb]|exact I|].
Theorem C31_jmp_short E base s pre p d : fetched E base s pre p [0xEB; d] -> goes_to E s (pre ++ [0xEB; d]) (signed 8 d) true.
Proof. intros Hf. jumpx; [reflexivity|]. apply same_refl. Qed.
Theorem C31_jmp_near E base s pre p dl dh : fetched E base s pre p [0xE9; dl; dh] -> p_os p = false ->
  goes_to E s (pre ++ [0xE9; dl; dh]) (signed 16 (dl + 256 * dh)) true.
Proof. intros Hf Ho. jumpx; [rewrite Ho; reflexivity|]. apply same_refl. Qed.
Theorem C31_jmp_far E base s pre p o0 o1 s0 s1 : fetched E base s pre p [0xEA; o0; o1; s0; s1] -> p_os p = false ->
  executes_to E s (pre ++ [0xEA; o0; o1; s0; s1]) (a_cs (s0 + 256 * s1) (a_ip (o0 + 256 * o1) (ar s))).
Proof. intros Hf Ho. jumpx; [rewrite Ho; reflexivity|]. apply same_refl. Qed.
(** Calls: the address of the next instruction (and CS before it, if far) is pushed. *)
Theorem C31_call_near E base s pre p dl dh : fetched E base s pre p [0xE8; dl; dh] -> p_os p = false ->
  let bs := pre ++ [0xE8; dl; dh] in let ret := (r_ip (ar s) + blen bs) mod 65536 in
  executes_to E s bs (a_ip ((r_ip (ar s) + blen bs + signed 16 (dl + 256 * dh)) mod 65536) (push16 ret (ar s))).
Proof. intros Hf Ho. cbv zeta. jumpx; [rewrite Ho; reflexivity|]. apply same_refl. Qed.
Theorem C31_call_far E base s pre p o0 o1 s0 s1 : fetched E base s pre p [0x9A; o0; o1; s0; s1] -> p_os p = false ->
  let bs := pre ++ [0x9A; o0; o1; s0; s1] in let ret := (r_ip (ar s) + blen bs) mod 65536 in
  executes_to E s bs (a_cs (s0 + 256 * s1) (a_ip (o0 + 256 * o1) (push16 ret (push16 (r_cs (ar s)) (ar s))))).
Proof. intros Hf Ho. cbv zeta. jumpx; [rewrite Ho; reflexivity|]. apply same_refl. Qed.
(** FF groups 2-5: indirect near call, far call, near jump, far jump. *)
Theorem C31_jmp_indirect E base s pre p t r : fetched E base s pre p (0xFF :: t) -> p_os p = false ->
  parse_rm p (ar s) t = Some (4, r, []) -> operand_ok p (ar s) (0xFF :: t) ->
  executes_to E s (pre ++ 0xFF :: t) (a_ip (rd_rm 16 r (ar s)) (ar s)).
Proof.
  intros Hf Ho Hp Hop. eapply jump_to; [exact Hf| |exact Hop|].
  - cbn [step_jump]. cbn [Z.leb Z.compare Pos.compare Pos.compare_cont CompOpp andb Z.eqb Pos.eqb negb]. rewrite Ho, Hp. reflexivity.
  - apply same_refl.
Qed.
Theorem C31_jmp_far_indirect E base s pre p t sg o : fetched E base s pre p (0xFF :: t) -> p_os p = false ->
  parse_rm p (ar s) t = Some (5, RMem sg o, []) -> operand_ok p (ar s) (0xFF :: t) ->
  executes_to E s (pre ++ 0xFF :: t) (a_cs (mem 16 (ar s) (lin sg ((o + 2) mod 65536))) (a_ip (mem 16 (ar s) (lin sg o)) (ar s))).
Proof.
  intros Hf Ho Hp Hop. eapply jump_to; [exact Hf| |exact Hop|].
  - cbn [step_jump]. cbn [Z.leb Z.compare Pos.compare Pos.compare_cont CompOpp andb Z.eqb Pos.eqb negb]. rewrite Ho, Hp. reflexivity.
  - apply same_refl.
Qed.
(** Indirect near call.  The emulator re-reads the operand after the push, so the operand must not be
    in the pushed word. *)
Theorem C31_call_indirect_partial E base s pre p t r : fetched E base s pre p (0xFF :: t) -> p_os p = false ->
  parse_rm p (ar s) t = Some (2, r, []) -> operand_ok p (ar s) (0xFF :: t) ->
  let bs := pre ++ 0xFF :: t in let ret := (r_ip (ar s) + blen bs) mod 65536 in
  rd_rm 16 r (push16 ret (ar s)) = rd_rm 16 r (ar s) ->
  executes_to E s bs (a_ip (rd_rm 16 r (ar s)) (push16 ret (ar s))).
Proof.
  intros Hf Ho Hp Hop. cbv zeta. intros Hr. eapply jump_to; [exact Hf| |exact Hop|].
  - cbn [step_jump]. cbn [Z.leb Z.compare Pos.compare Pos.compare_cont CompOpp andb Z.eqb Pos.eqb negb]. rewrite Ho, Hp.
    change (fallthrough (blen (pre ++ 255 :: t)) (ar s)) with ((r_ip (ar s) + blen (pre ++ 255 :: t)) mod 65536). rewrite Hr, (Z.eqb_refl (rd_rm 16 r (ar s))). reflexivity.
  - apply same_refl.
Qed.
Theorem C31_call_far_indirect E base s pre p t sg o : fetched E base s pre p (0xFF :: t) -> p_os p = false ->
  parse_rm p (ar s) t = Some (3, RMem sg o, []) -> operand_ok p (ar s) (0xFF :: t) ->
  let bs := pre ++ 0xFF :: t in let ret := (r_ip (ar s) + blen bs) mod 65536 in
  executes_to E s bs (a_cs (mem 16 (ar s) (lin sg ((o + 2) mod 65536))) (a_ip (mem 16 (ar s) (lin sg o)) (push16 ret (push16 (r_cs (ar s)) (ar s))))).
Proof.
  intros Hf Ho Hp Hop. eapply jump_to; [exact Hf| |exact Hop|].
  - cbn [step_jump]. cbn [Z.leb Z.compare Pos.compare Pos.compare_cont CompOpp andb Z.eqb Pos.eqb negb]. rewrite Ho, Hp. reflexivity.
  - apply same_refl.
Qed.

(** CALL SP (SP = 0x5678) goes to 0x5676. *)
Theorem C31_call_sp_refuted : let s := demo [0; 0; 0; 0; 0x5678] 2 [] [0xFF; 0xD4] in
  parse_rm np (ar s) [0xD4] = Some (2, RReg SP, []) /\ rd_rm 16 (RReg SP) (ar s) = 0x5678 /\
  exists s', run_one demo_env s = Ok tt s' /\ r_ip (ar s') = 0x5676.
Proof.
  cbv zeta. split; [vm_compute; reflexivity|]. split; [vm_compute; reflexivity|].
  witness (fun s => r_ip (ar s) =? 0x5676). lia.
Qed.
Example C31_case : let bs := [0x7C; 0x80] in let s := demo [] 0x80 [] bs in
  fetched demo_env HB s [] np bs /\ jcc_bytes 12 bs (signed 8 0x80).
Proof. cbv zeta. split; [apply (demo_fetched demo_env _ 0x80 _ []); reflexivity|]. apply (jcc_short 12). Qed.
Example C31_case2 : let bs := [0xFF; 0x17] in let s := demo [0; 0; 0; 0x40] 2 [] bs in
  fetched demo_env HB s [] np bs /\ parse_rm np (ar s) [0x17] = Some (2, RMem 0x2000 0x40, []) /\ operand_ok np (ar s) bs /\
  rd_rm 16 (RMem 0x2000 0x40) (push16 0x102 (ar s)) = rd_rm 16 (RMem 0x2000 0x40) (ar s) /\ (r_ip (ar s) + blen bs) mod 65536 = 0x102.
Proof.
  cbv zeta. split; [apply (demo_fetched demo_env _ 2 _ []); reflexivity|]. split; [vm_compute; reflexivity|].
  split; [|split; vm_compute; reflexivity].
  split; [intros _; split; [vm_compute; split; congruence|intros _ H; exfalso; vm_compute in H; lia]|]. intros _. vm_compute. congruence.
Qed.
Example C31_case3 : let bs := [0x9A; 0; 1; 0; 0x20] in fetched demo_env HB (demo [] 2 [] bs) [] np bs.
Proof. apply (demo_fetched demo_env _ 2 _ []); reflexivity. Qed.
Print Assumptions C31_jcc. Print Assumptions C31_jmp_short. Print Assumptions C31_jmp_near. Print Assumptions C31_jmp_far. Print Assumptions C31_call_near. Print Assumptions C31_call_far.
Print Assumptions C31_jmp_indirect. Print Assumptions C31_jmp_far_indirect. Print Assumptions C31_call_indirect_partial. Print Assumptions C31_call_far_indirect. Print Assumptions C31_call_sp_refuted.

(** ** C30.  CMP x,y at width w, later (s2: any state with the same FLAGS) Jcc. *)
Theorem C30_compare_and_jump E base s1 pre1 p1 bs1 w dst y s1' s2 pre2 p2 bs2 n d :
  fetched E base s1 pre1 p1 bs1 -> decode_alu p1 (ar s1) bs1 = Some (7, w, dst, y) -> operand_ok p1 (ar s1) bs1 ->
  run_one E s1 = Ok tt s1' -> let x := rd_rm w dst (ar s1) in
  fetched E base s2 pre2 p2 bs2 -> r_flags (ar s2) = r_flags (ar s1') -> jcc_bytes n bs2 d -> 0 <= n < 16 -> (blen bs2 = 4 -> p_os p2 = false) ->
  goes_to E s2 (pre2 ++ bs2) d (compares_as n w x y).
Proof.
  intros Hf1 Hd Ho Hr x Hf2 Hfl Hb Hn Hp.
  destruct (decode_alu_ok E base s1 pre1 p1 bs1 7 w dst y Hf1 Hd) as (Hw & Hrm & Hy & Hx).
  pose proof (alu_instr E base s1 pre1 p1 bs1 7 w dst y Hf1 Hd Ho) as X. apply executes_run with (2 := Hr) in X.
  unfold alu_effect in X. cbn [alu_result Z.eqb Pos.eqb orb] in X. unfold spec_sub in X. cbv zeta in X.
  pose proof (sm_flags _ _ X) as Y. cbn [next a_ip a_flags r_flags] in Y.
  replace (compares_as n w x y) with (condition n (r_flags (ar s2))); [apply (C31_jcc E base s2 pre2 p2); auto|].
  eapply cmp_condition with (f := r_flags (ar s1)); eauto. rewrite Hfl, Y. unfold x.
  replace (rd_rm w dst (ar s1) - y - 0) with (rd_rm w dst (ar s1) - y) by lia. rewrite !Z.add_0_r, Z.sub_0_r. 
  apply put6_flags; [pose proof (width_pos w Hw); lia|]. apply low_range; auto.
Qed.
(** Alone, Jcc looks at exactly these flags. *)
Theorem C30_condition E base s pre p bs n d : fetched E base s pre p bs -> jcc_bytes n bs d -> 0 <= n < 16 -> (blen bs = 4 -> p_os p = false) ->
  goes_to E s (pre ++ bs) d (condition n (r_flags (ar s))).
Proof. exact (C31_jcc E base s pre p bs n d). Qed.
(** CMP AX,BX with AX = -2, BX = 1, then JL. *)
Example C30_case : let bs := [0x39; 0xD8] in let s := demo [0xFFFE; 0; 0; 1] 2 [] bs in
  fetched demo_env HB s [] np bs /\ decode_alu np (ar s) bs = Some (7, 16, RReg AX, 1) /\ operand_ok np (ar s) bs /\ compares_as 12 16 0xFFFE 1 = true /\
  exists s', run_one demo_env s = Ok tt s' /\ let s2 := demo [] (r_flags (ar s')) [] [0x0F; 0x8C; 0; 2] in
  fetched demo_env HB s2 [] np [0x0F; 0x8C; 0; 2] /\ jcc_bytes 12 [0x0F; 0x8C; 0; 2] 0x200.
Proof.
  cbv zeta. split; [apply (demo_fetched demo_env _ 2 _ []); reflexivity|]. split; [vm_compute; reflexivity|]. split; [regform|]. split; [reflexivity|].
  witness (fun s => r_flags (ar s) =? 0x82).
  assert (B : r_flags (ar s') = 0x82) by lia. rewrite B. split; [apply (demo_fetched demo_env _ 0x82 _ []); reflexivity|]. apply (jcc_near 12).
Qed.
Print Assumptions C30_compare_and_jump. Print Assumptions C30_condition.

(** ** C32.  E0 LOOPNZ, E1 LOOPZ, E2 LOOP (16-bit counter). *)
Definition loop_taken (op cx : Z) (f : Z) : bool :=
  negb (cx =? 0) && (if op =? 0xE0 then negb (flag ZF f) else if op =? 0xE1 then flag ZF f else true).
Theorem C32_loop E base s pre p op d : fetched E base s pre p [op; d] -> 0xE0 <= op <= 0xE2 -> p_as p = false ->
  let bs := pre ++ [op; d] in let cx := (reg 16 CX (ar s) - 1) mod 65536 in
  executes_to E s bs
    (a_ip ((r_ip (ar s) + blen bs + (if loop_taken op cx (r_flags (ar s)) then signed 8 d else 0)) mod 65536) (with_reg 16 CX cx (ar s))).
Proof.
  intros Hf Ho Ha. cbv zeta. eapply jump_to; [exact Hf| | |].
  - unfold step_jump. replace ((112 <=? op) && (op <=? 127)) with false by lia. replace (op =? 235) with false by lia.
    replace ((224 <=? op) && (op <=? 226)) with true by lia. rewrite Ha. cbn [andb negb imm Z.eqb Pos.eqb after]. reflexivity.
  - assert (op = 0xE0 \/ op = 0xE1 \/ op = 0xE2) as K by lia. destruct K as [->|[->| ->]]; exact I.
  - cbv zeta. fold (low 16 (reg 16 CX (ar s) - 1)). unfold branch, fallthrough. 
    change ((reg 16 1 (ar s) - 1) mod 65536) with (low 16 (reg 16 1 (ar s) - 1)).
    change (negb (low 16 (reg 16 1 (ar s) - 1) =? 0) && (if op =? 224 then negb (flag 6 (r_flags (ar s))) else if op =? 225 then flag 6 (r_flags (ar s)) else true))
      with (loop_taken op (low 16 (reg 16 1 (ar s) - 1)) (r_flags (ar s))).
    destruct (loop_taken op (low 16 (reg 16 1 (ar s) - 1)) (r_flags (ar s))); rewrite ?Z.add_0_r; apply same_refl.
Qed.
(** JCXZ (E3; with 67, JECXZ, only if 66 is also given: the emulator looks at the wrong prefix). *)
Theorem C32_jcxz_partial E base s pre p d : fetched E base s pre p [0xE3; d] -> p_os p = p_as p ->
  goes_to E s (pre ++ [0xE3; d]) (signed 8 d) (reg (osz p) CX (ar s) =? 0).
Proof.
  intros Hf Ho. unfold goes_to. eapply jump_to; [exact Hf| |exact I|].
  - unfold step_jump. cbn [Z.leb Z.compare Pos.compare Pos.compare_cont CompOpp andb Z.eqb Pos.eqb negb].
    rewrite Ho, Bool.eqb_reflx. cbn [imm Z.eqb Pos.eqb after]. reflexivity.
  - unfold branch, fallthrough. destruct (reg (osz p) 1 (ar s) =? 0); rewrite ?Z.add_0_r; apply same_refl.
Qed.
(** JCXZ with an operand-size prefix and no address-size prefix: CX = 0, so it should jump (to 1000:0113),
    but it tests ECX and falls through. *)
Theorem C32_jcxz_refuted : let bs := [0xE3; 0x10] in let s := demo [0; 0x10000] 2 [] (0x66 :: bs) in
  fetched demo_env HB s [0x66] (mkPfx None true false 0) bs /\ reg 16 CX (ar s) = 0 /\
  exists s', run_one demo_env s = Ok tt s' /\ r_ip (ar s') = 0x103.
Proof.
  cbv zeta. split; [apply (demo_fetched demo_env _ 2 _ [0x66]); reflexivity|]. split; [vm_compute; reflexivity|].
  witness (fun s' => r_ip (ar s') =? 0x103). lia.
Qed.
(** A LOOP to itself, started with CX = n (65536 if CX = 0), is executed n times and ends with CX = 0. *)
Lemma loop_self E base (n : nat) : forall s, fetched E base s [] np [0xE2; 0xFE] -> (1 <= n)%nat -> Z.of_nat n <= 65536 -> reg 16 CX (ar s) = Z.of_nat n mod 65536 ->
  icount s + Z.of_nat n <= 2147483647 ->
  exists s', runs E n s s' /\ same (ar s') (a_ip ((r_ip (ar s) + 2) mod 65536) (with_reg 16 CX 0 (ar s))).
Proof.
  induction n as [|n IH]; [lia|]. intros s Hf _ Hn Hc Hi.
  destruct (C32_loop E base s [] np 0xE2 0xFE Hf ltac:(lia) eq_refl) as (s1 & R & S1 & I1 & _).
  pose proof Hf as (Rd & _ & Cd). destruct Rd as [F W PC Hcnt].
  cbn [app] in *. change (blen [0xE2; 0xFE]) with 2 in *. change (signed 8 254) with (-2) in *. rewrite Hc in S1.
  assert (Hnull : forall ip v, is_null (ar s) (a_ip ip (with_reg 16 1 v (ar s))) [0xE2; 0xFE] = false).
  { intros ip v. destruct Cd as [_ Cd]. pose proof (Cd 0%nat 0xE2 eq_refl) as B. rewrite Z.add_0_r in B.
    unfold is_null. replace (byte (a_ip ip (with_reg 16 1 v (ar s))) (pc (ar s))) with 0xE2. reflexivity. }
  rewrite Hnull, andb_false_r in R.
  unfold loop_taken in S1. cbn [Z.eqb Pos.eqb] in S1. rewrite andb_true_r in S1.
  assert (Hcx : (Z.of_nat (Datatypes.S n) mod 65536 - 1) mod 65536 = Z.of_nat n) by (rewrite Zminus_mod_idemp_l, Z.mod_small; lia).
  rewrite Hcx in S1. destruct (Nat.eq_dec n 0) as [->|Hn0].
  - exists s1. split; [econstructor; [exact R|constructor]|]. cbn [Z.of_nat Z.eqb negb] in S1. rewrite Z.add_0_r in S1. exact S1.
  - replace (negb (Z.of_nat n =? 0)) with true in S1 by lia.
    assert (Hip : (r_ip (ar s) + 2 + -2) mod 65536 = r_ip (ar s)) by (rewrite Z.mod_small; [lia|]; pose proof (wf_ip _ W) as Hr; unfold inrange in Hr; lia).
    rewrite Hip in S1.
    assert (Hr : inrange 16 (Z.of_nat n)) by (unfold inrange; lia).
    assert (S2 : same (ar s1) (with_reg 16 1 (Z.of_nat n) (ar s))).
    { eapply same_trans; [exact S1|]. generalize (with_reg 16 1 (Z.of_nat n) (ar s)), (wreg_ip 16 1 (Z.of_nat n) (ar s)). intros b Hb. rewrite <- Hb. destruct b; apply same_refl. }
    assert (F2 : flat E base (with_reg 16 1 (Z.of_nat n) (ar s))) by auto with flat.
    assert (W2 : wf_regs (with_reg 16 1 (Z.of_nat n) (ar s))) by (apply wf_with_reg; auto with width; lia).
    assert (Hf1 : fetched E base s1 [] np [0xE2; 0xFE]).
    { split; [constructor|split; [reflexivity|]].
      - eapply same_flat; [apply same_sym, S2|exact F2].
      - eapply same_wf; [apply same_sym, S2|exact W2].
      - unfold normal_pc. rewrite (sm_cs _ _ S2), (sm_ip _ _ S2). exact PC.
      - rewrite I1. lia.
      - eapply same_code; [apply same_sym, S2|]. exact Cd. }
    destruct (IH s1 Hf1 ltac:(lia) ltac:(lia)) as (s' & Rn & Sn).
    + rewrite (same_reg _ _ _ _ S2), reg_same by (auto with width; lia). rewrite Z.mod_small by lia. reflexivity.
    + rewrite I1. lia.
    + exists s'. split; [econstructor; eauto|]. eapply same_trans; [exact Sn|]. rewrite (sm_ip _ _ S2).
      rewrite (wreg_ip 16 1). 
      eapply same_trans; [apply same_a_ip; apply same_with_reg; exact S2|]. rewrite wreg_twice by (auto with width; try lia; unfold inrange; lia). apply same_refl.
Qed.
Theorem C32_loop_to_itself E base s : fetched E base s [] np [0xE2; 0xFE] ->
  let n := if reg 16 CX (ar s) =? 0 then 65536 else reg 16 CX (ar s) in icount s + n <= 2147483647 ->
  exists s', runs E (Z.to_nat n) s s' /\ same (ar s') (a_ip ((r_ip (ar s) + 2) mod 65536) (with_reg 16 CX 0 (ar s))).
Proof.
  intros Hf. cbv zeta. intros Hi. pose proof (reg_range 16 1 (ar s) ltac:(auto with width) ltac:(lia)) as Hr. unfold inrange in Hr.
  assert (K : Z.of_nat (Z.to_nat (if reg 16 1 (ar s) =? 0 then 65536 else reg 16 1 (ar s))) = (if reg 16 1 (ar s) =? 0 then 65536 else reg 16 1 (ar s))).
  { apply Z2Nat.id. destruct (reg 16 1 (ar s) =? 0) eqn:?; lia. }
  apply loop_self with base; auto.
  - destruct (reg 16 1 (ar s) =? 0) eqn:?; lia.
  - rewrite K. destruct (reg 16 1 (ar s) =? 0) eqn:?; lia.
  - rewrite K. destruct (reg 16 1 (ar s) =? 0) eqn:?; [lia|]. rewrite Z.mod_small; lia.
  - rewrite K. exact Hi.
Qed.
Example C32_case : let bs := [0xE2; 0xFE] in fetched demo_env HB (demo [0; 300] 2 [] bs) [] np bs.
Proof. apply (demo_fetched demo_env _ 2 _ []); reflexivity. Qed.
Example C32_case2 : let bs := [0xE1; 0x10] in fetched demo_env HB (demo [0; 1] 0x42 [] bs) [] np bs.
Proof. apply (demo_fetched demo_env _ 0x42 _ []); reflexivity. Qed.
Print Assumptions C32_loop. Print Assumptions C32_jcxz_partial. Print Assumptions C32_jcxz_refuted. Print Assumptions C32_loop_to_itself.
