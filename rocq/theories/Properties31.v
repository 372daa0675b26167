(** Property theorems C85: the messages of failing instructions. *)
From Coq Require Import String Ascii.
From Verif Require Import Base Cpu Alu Ops Machine Spec SpecOps SpecOps2 SpecSys SpecRun SpecTop SpecStop SpecEa SpecUb SpecCodes PBase PMem PRun PFrame PExec PTop PTop2 PTop3 PStop PStop2 PCodes Dump SpecDump PDump TraceText SpecTrace PTrace PTrace2 SpecMsgs PMsgs PMsgs2 PMsgs3 PMsgs4 PMsgs5 PMsgs6 PMsgs7 SpecNames PWarn Demo Properties16.
Local Open Scope string_scope.
Local Open Scope Z_scope.
Definition np : pfx := mkPfx None false false 0.
Definition p66 : pfx := mkPfx None true false 0.
Ltac witness t := match goal with |- exists s', ?r = _ /\ _ => destruct (okb_ex r t) as (s' & H1 & H2); [vm_compute; reflexivity|]; exists s'; split; [exact H1|] end.
Lemma fetched_dbg E base s pre p bs g : fetched E base s pre p bs -> fetched E base (set_dbg g s) pre p bs.
Proof. intros ([F W P C] & H1 & H2). split; [constructor; assumption|split; assumption]. Qed.
Lemma wf_dbg s g : wf_state s -> wf_state (set_dbg g s). Proof. intros []. constructor; assumption. Qed.

(** ** C85: what the emulator says when it stops. *)
(** Every situation listed in [message] stops the instruction with that code and prints a message of that form: behind a register dump
    (DebugLevel 2), and the number and place of the instruction (DebugLevel 1). *)
Theorem C85_stops E base s pre p bs c m : polite E -> quiet_host E -> fetched E base s pre p bs -> wf_state s -> 0 <= icount s < 2147483648 -> whole p (ar s) bs ->
  message p (ar s) bs c m -> exists s1 place m', run_one E s = Err c s1 /\ begins_line s place /\ message p (ar s) bs c m' /\ run_prints E s = joined [level2 s; place; m'].
Proof.
  intros P Q Hf W Hi Hw Hm. destruct (all_printed E base P Q s pre p bs c m Hf W Hw Hm) as (s1 & m' & H1 & H2 & H3).
  exists s1, (start s), m'. split; [exact H1|]. split; [apply start_ok; [apply W|exact Hi]|]. split; [exact H2|]. rewrite H3. cbn [joined]. rewrite app_empty. reflexivity.
Qed.
(** Whatever an instruction is refused for, nothing else is printed: a message that describes the refusal, or none; at the second 00 00 in a
    row perhaps that the REP prefix before it was not used. *)
Theorem C85_only E base s pre p bs c s1 : polite E -> quiet_host E -> fetched E base s pre p bs -> wf_state s -> 0 <= icount s < 2147483648 -> whole p (ar s) bs ->
  run_one E s = Err c s1 -> exists place m, begins_line s place /\ run_prints E s = joined [level2 s; place; m] /\
    (message p (ar s) bs c m \/ m = "" \/ (c = E_BREAK /\ lastnull s = true /\ zeros s s1 /\ useless_rep p bs m)).
Proof.
  intros P Q Hf W Hi Hw Hr. exists (start s). destruct (run_fails E base P Q s pre p bs c s1 Hf W Hr) as [(El & Hd & Hp)|(Hc & Hl & Hz & s2 & El & Hp)].
  - exists (loop_complaint E 6 (reset s)). split; [apply start_ok; [apply W|exact Hi]|]. split; [rewrite Hp; cbn [joined]; rewrite app_empty; reflexivity|].
    destruct (all_explained E base Q s pre p bs c s1 Hf W Hw El Hr) as [H|H]; auto.
  - exists (if dbg s <? 1 then "" else warning_t E s s2). split; [apply start_ok; [apply W|exact Hi]|]. split; [rewrite Hp; cbn [joined]; rewrite app_empty; reflexivity|].
    destruct (dbg s <? 1); [auto|]. destruct bs as [|b t]; [destruct Hw|]. pose proof Hw as [->|[[Hpf Ha]|(Ho & _)]].
    + destruct (f1_says E base s pre p t Hf) as [X _]. congruence.
    + destruct (repeated_prefix_stops E base s pre p b t Hf Hpf Ha) as (s' & X & _). rewrite X in Hr. injection Hr as Hr _. rewrite Hc in Hr. discriminate Hr.
    + destruct (warned E Q base s pre p (b :: t) tt s2 s2 P Hf W Ho El eq_refl) as [[_ X]|(_ & _ & X)]; [auto|]. right. right. auto.
Qed.
(** RME_CallInt with an invalid number: the warning names it; nothing is executed. *)
Theorem C85_call_int E s n fuel : -2147483648 <= n < 2147483648 -> ~ 0 <= n < 256 ->
  bad_number s n (call_int_prints E fuel n s) /\ exists s1, call_int E fuel n s = Err E_INVAL s1.
Proof.
  intros Hr Hn. assert (Hb : (n <? 0) || (255 <? n) = true) by lia. split.
  - unfold bad_number. set (a := if 0 <? dbg s then "RM_Int: Calling Int 0x" ++ fmt_x 0 (wrap 32 n) ++ newline else "").
    exists a, (fmt_i n). split; [|split].
    + unfold call_int_prints, callint_t, int_callint. cbv zeta. rewrite Hb. change (dbg (set_ar _ s)) with (dbg s). fold a. unfold err. cbn [joined]. rewrite !app_empty. reflexivity.
    + unfold announces_call, a. destruct (Z.ltb_spec 0 (dbg s)); [right|left; split; [lia|reflexivity]]. split; [lia|]. exists (fmt_x 0 (wrap 32 n)). split; [cbn [joined]; rewrite app_empty; reflexivity|].
      change low with wrap. apply fmt_x0. unfold wrap. change (16 ^ 16) with 18446744073709551616. change (2 ^ 32) with 4294967296. lia.
    + destruct (Z.ltb_spec n 0).
      * right. split; [assumption|]. exists (fmt_i (- n)). split.
        { unfold fmt_i. replace (n <? 0) with true by lia. replace (- n <? 0) with false by lia. cbn [joined]. rewrite app_empty. reflexivity. }
        destruct (fmt_i_spec (- n)) as [K1 (d & r & Hd & K2)]; [change (10 ^ 20) with 100000000000000000000; lia|]. split; [|rewrite K2 in K1 |- *; rewrite skip_digit by exact Hd; split; [discriminate|exact K1]].
        rewrite K2. cbn. lia.
      * left. split; [assumption|]. destruct (fmt_i_spec n) as [K1 (d & r & Hd & K2)]; [change (10 ^ 20) with 100000000000000000000; lia|]. split; [|rewrite K2 in K1 |- *; rewrite skip_digit by exact Hd; split; [discriminate|exact K1]].
        rewrite K2. cbn. lia.
  - unfold call_int, set_cs, set_ip, int_callint. rewrite Hb. unfold bind, upd_ar, modify, err. eexists. reflexivity.
Qed.
(** "Whenever an instruction is refused the emulator says why" is false: LEA AX,CX, a doubled prefix and BT AX,AX (0F BA /0) are refused without a word. *)
Theorem C85_silent_refuted : let silent pre p bs := let s := demo [] 2 [] (pre ++ bs)%list in
    fetched demo_env HB s pre p bs /\ whole p (ar s) bs /\ (exists s1, run_one demo_env s = Err E_UNDEF s1) /\ run_prints demo_env s = "" in
  silent [] np [0x8D; 0xC1] /\ silent [0x66] p66 [0x66; 0x90] /\ silent [] np [0x0F; 0xBA; 0xC0].
Proof.
  cbv zeta. assert (K : forall pre p bs, fetched demo_env HB (demo [] 2 [] (pre ++ bs)%list) pre p bs -> whole p (ar (demo [] 2 [] (pre ++ bs)%list)) bs ->
    errb E_UNDEF (run_one demo_env (demo [] 2 [] (pre ++ bs)%list)) (fun _ => true) = true -> run_prints demo_env (demo [] 2 [] (pre ++ bs)%list) = "" ->
    let s := demo [] 2 [] (pre ++ bs)%list in fetched demo_env HB s pre p bs /\ whole p (ar s) bs /\ (exists s1, run_one demo_env s = Err E_UNDEF s1) /\ run_prints demo_env s = "").
  { intros pre p bs H1 H2 H3 H4. cbv zeta. split; [exact H1|]. split; [exact H2|]. split; [|exact H4]. apply errb_ex in H3. destruct H3 as (s1 & H3 & _). eauto. }
  split; [|split]; (apply K; [apply (demo_fetched demo_env _ 2 _ _); reflexivity| |vm_compute; reflexivity|vm_compute; reflexivity]).
  - right. right. split; [unfold opcode_read, prefix_byte; cbn [In]; split; [lia|]; split; [lia|discriminate]|]. split; [vm_compute; discriminate|]. split; discriminate.
  - right. left. split; [unfold prefix_byte; cbn; tauto|reflexivity].
  - right. right. split; [unfold opcode_read, prefix_byte; cbn [In]; split; [lia|]; split; [lia|discriminate]|]. split; [vm_compute; discriminate|]. split; discriminate.
Qed.
(** Non-vacuity: the messages as printed, each with the hypotheses of the theorems. *)
Example C85_case : let case pre p bs g c m := let s := set_dbg g (demo [] 2 [] (pre ++ bs)%list) in
    fetched demo_env HB s pre p bs /\ wf_state s /\ 0 <= icount s < 2147483648 /\ whole p (ar s) bs /\ message p (ar s) bs c m /\ (exists s1, run_one demo_env s = Err c s1) /\
    run_prints demo_env s = joined [if g <? 1 then "" else "(       1) [0x10100] 1000:0100"; m] in
  polite demo_env /\ quiet_host demo_env /\
  case [] np [0xF1] 1 E_BREAK " Executing unset memory (opcode 0xF1) 1000:0100" /\
  case [0x26] (mkPfx (Some 0) false false 0) [0x63; 0xC0] 0 E_UNDEF " Unkown Opcode 0x63" /\
  case [] np [0x0F; 0x05] 1 E_UNDEF " Unkown Opcode 0x0F 0x05" /\
  case [] np [0xFE; 0xD0] 0 E_UNDEF (joined [" - Unary M /2 unimplemented"; end_of_line]) /\
  case [0x66] p66 [0xFF; 0xD0] 0 E_UNDEF (joined [" - Unary MX (32) /2 unimplemented"; end_of_line]) /\
  case [] np [0xFF; 0xD8] 1 E_UNDEF " - Reading a far pointer w/ mod=3" /\
  case [0x66] p66 [0x0F; 0xAF; 0xC1] 0 E_BUG "IMUL (MIX) OvrSize Unimpl" /\
  case [0x66] p66 [0xC8; 0; 0; 2] 1 E_UNDEF "- ENTER Operand Override unimplimented" /\
  case [] np [0xCD; 0x80] 1 E_BADMEM " Caught attempt to execute IVT pointing to 0000:0000" /\
  case [] np [0x8B; 0x06; 0xFF; 0x0F] 1 E_BADMEM "1000:100 Word read across boundary (0x20fff)".
Proof.
  cbv zeta. split; [apply demo_polite|]. split; [apply demo_quiet|].
  assert (K : forall pre p bs g c m, fetched demo_env HB (demo [] 2 [] (pre ++ bs)%list) pre p bs -> wf_state (demo [] 2 [] (pre ++ bs)%list) -> whole p (ar (demo [] 2 [] (pre ++ bs)%list)) bs -> message p (ar (demo [] 2 [] (pre ++ bs)%list)) bs c m ->
    errb c (run_one demo_env (set_dbg g (demo [] 2 [] (pre ++ bs)%list))) (fun _ => true) = true -> run_prints demo_env (set_dbg g (demo [] 2 [] (pre ++ bs)%list)) = joined [if g <? 1 then "" else "(       1) [0x10100] 1000:0100"; m] ->
    let s := set_dbg g (demo [] 2 [] (pre ++ bs)%list) in
    fetched demo_env HB s pre p bs /\ wf_state s /\ 0 <= icount s < 2147483648 /\ whole p (ar s) bs /\ message p (ar s) bs c m /\ (exists s1, run_one demo_env s = Err c s1) /\
    run_prints demo_env s = joined [if g <? 1 then "" else "(       1) [0x10100] 1000:0100"; m]).
  { intros pre p bs g c m H1 H2 H3 H4 H5 H6. cbv zeta. split; [apply fetched_dbg, H1|]. split; [apply wf_dbg, H2|]. split; [cbn; lia|]. split; [exact H3|]. split; [exact H4|]. split; [|exact H6].
    apply errb_ex in H5. destruct H5 as (s1 & H5 & _). eauto. }
  Ltac opc := right; right; split; [unfold opcode_read, prefix_byte; cbn [In]; split; [lia|]; split; [lia|discriminate]|]; split; [first [exact I|vm_compute; discriminate]|split; [first [discriminate|intros _; cbn; lia]|discriminate]].
  repeat lazymatch goal with |- (fetched _ _ _ _ _ _ /\ _) /\ _ => split end; (apply K; [apply (demo_fetched demo_env _ 2 _ _); reflexivity|apply demo_wf_state; reflexivity| | |vm_compute; reflexivity|vm_compute; reflexivity]).
  all: try opc.
  - left. reflexivity.
  - apply (msg_unset np _ [] "1000" "0100"); split; reflexivity.
  - apply (msg_opcode (mkPfx (Some 0) false false 0) _ 0x63 [0xC0] "63"); [cbn; tauto|split; reflexivity].
  - apply (msg_opcode2 np _ 0x05 [] "05"); [cbn; lia|split; reflexivity].
  - apply (msg_group4 np _ [0xD0] "2"); [cbn; lia|]. split; [vm_compute; apply le_n|split; [discriminate|reflexivity]].
  - apply (msg_group5_wide p66 _ [0xD0] "2"); [reflexivity|cbn; tauto|]. split; [vm_compute; apply le_n|split; [discriminate|reflexivity]].
  - apply msg_far; [reflexivity|cbn; tauto|reflexivity].
  - apply msg_imul. reflexivity.
  - apply msg_enter; [reflexivity|cbn; lia].
  - apply (msg_vector np _ _ 0x80); [constructor|vm_compute; reflexivity|vm_compute; reflexivity].
  - apply (msg_boundary np _ _ [0x06; 0xFF; 0x0F] 0 0x20FFF [] "1000" "100" "20fff"); try reflexivity; try (split; [discriminate|reflexivity]); try discriminate.
Qed.
Print Assumptions C85_stops. Print Assumptions C85_only. Print Assumptions C85_call_int. Print Assumptions C85_silent_refuted.
