(** Property theorems C81, C82: the instruction trace. *)
From Coq Require Import String Ascii.
From Verif Require Import Base Cpu Alu Ops Machine Spec SpecOps SpecRun SpecTop SpecCodes SpecLen SpecStop SpecEa PBase PMem PExec PStop PStop2 PCodes Dump SpecDump TraceText SpecTrace PTrace PTrace2 PTrace3 PTrace4 PTrace5 Demo Properties16.
Local Open Scope string_scope.
Local Open Scope Z_scope.
Definition np : pfx := mkPfx None false false 0.
Ltac witness t := match goal with |- exists s', ?r = _ /\ _ => destruct (okb_ex r t) as (s' & H1 & H2); [vm_compute; reflexivity|]; exists s'; split; [exact H1|] end.
Lemma fetched_dbg E base s pre p bs g : fetched E base s pre p bs -> fetched E base (set_dbg g s) pre p bs.
Proof. intros ([F W P C] & H1 & H2). split; [constructor; assumption|split; assumption]. Qed.
Lemma wf_dbg s g : wf_state s -> wf_state (set_dbg g s). Proof. intros []. constructor; assumption. Qed.

(** ** C81: one line for each instruction. *)
(** With DebugLevel 1 or more, [n] successful RME_RunOne calls print, in order: for each instruction one line that starts with its number and
    its address (linear and CS:IP); nothing for an entry into a host callback; a register dump before each from level 2 on.  Only an
    instruction that raises a divide fault has, instead of text and bytes, the announcement of interrupt 0. *)
Theorem C81_trace E base n s s' : quiet_host E -> polite E -> flat E base (ar s) -> wf_state s -> 0 <= icount s < 2147483648 -> 1 <= dbg s -> runs E n s s' ->
  traced E s (trace E n s) s'.
Proof. exact (run_traced E base n s s'). Qed.
(** With DebugLevel 0 (or less) nothing is printed as long as every call succeeds. *)
Theorem C81_silent E n s s' : polite E -> wf_state s -> dbg s < 1 -> runs E n s s' -> trace E n s = "".
Proof. exact (run_silent E n s s'). Qed.
(** The bytes at the end of the line: those that memory holds afterwards where the instruction was. *)
Theorem C81_bytes E base s pre p bs s1 : polite E -> fetched E base s pre p bs -> wf_state s -> 0 <= cpu (ar s) <= 2 -> 0 <= icount s < 2147483648 -> 1 <= dbg s ->
  insn_size p bs = Some (blen bs) -> length_known p bs -> ~ may_divfault bs -> run_one E s = Ok tt s1 ->
  exists num lin cs ip txt bytes, run_prints E s = append (level2 s) (line num lin cs ip txt bytes) /\ names_place (icount s1) (r_cs (ar s)) (r_ip (ar s)) num lin cs ip /\ plain txt = true /\
    shows_bytes (map (fun j => byte (ar s1) (pc (ar s) + Z.of_nat j)) (seq 0 (List.length (pre ++ bs)))) bytes.
Proof.
  intros P Hf W Hc Hi Hd Hs Hk Nd Hr. destruct (line_bytes E base s pre p bs s1 P Hf W Hc Hi Hd Hs Hk Hr) as [(_ & num & lin & cs & ip & bytes & H1 & H2 & H3)|[X _]]; [|contradiction].
  exists num, lin, cs, ip, (middle E s s1), bytes. split; [exact H1|]. split; [exact H2|]. split; [apply plain_middle|exact H3].
Qed.
(** So an instruction that does not overwrite itself shows exactly its own bytes. *)
Theorem C81_own_bytes E base s pre p bs s1 : polite E -> fetched E base s pre p bs -> wf_state s -> 0 <= cpu (ar s) <= 2 -> 0 <= icount s < 2147483648 -> 1 <= dbg s ->
  insn_size p bs = Some (blen bs) -> length_known p bs -> ~ may_divfault bs -> run_one E s = Ok tt s1 ->
  (forall i, 0 <= i < blen (pre ++ bs) -> byte (ar s1) (pc (ar s) + i) = byte (ar s) (pc (ar s) + i)) ->
  exists num lin cs ip txt bytes, run_prints E s = append (level2 s) (line num lin cs ip txt bytes) /\ names_place (icount s1) (r_cs (ar s)) (r_ip (ar s)) num lin cs ip /\ plain txt = true /\
    shows_bytes (pre ++ bs) bytes.
Proof.
  intros P Hf W Hc Hi Hd Hs Hk Nd Hr Hsame. destruct (C81_bytes E base s pre p bs s1 P Hf W Hc Hi Hd Hs Hk Nd Hr) as (num & lin & cs & ip & txt & bytes & H1 & H2 & H3 & H4).
  exists num, lin, cs, ip, txt, bytes. split; [exact H1|]. split; [exact H2|]. split; [exact H3|].
  replace (pre ++ bs)%list with (map (fun j => byte (ar s1) (pc (ar s) + Z.of_nat j)) (seq 0 (List.length (pre ++ bs)))); [exact H4|].
  destruct Hf as (_ & _ & C1 & C2). unfold blen in Hsame. apply nth_ext with (d := 0) (d' := 0); [rewrite map_length, seq_length; reflexivity|]. rewrite map_length, seq_length. intros i Hil.
  rewrite (nth_indep _ 0 (byte (ar s1) (pc (ar s) + Z.of_nat 0))) by (rewrite map_length, seq_length; exact Hil). rewrite (map_nth (fun j => byte (ar s1) (pc (ar s) + Z.of_nat j))), seq_nth by exact Hil. cbn [Nat.add].
  rewrite Hsame by lia. destruct (nth_error (pre ++ bs) i) as [b|] eqn:En; [|apply nth_error_None in En; lia]. rewrite (nth_error_nth _ _ _ En). apply C2, En.
Qed.
(** The claim "every instruction's line shows its text and bytes" is false: after a divide fault it does not. *)
Theorem C81_divide_refuted : exists s s', polite demo_env /\ flat demo_env HB (ar s) /\ wf_state s /\ runs demo_env 1 s s' /\ trace demo_env 1 s = append "(       1) [0x10100] 1000:0100RM_Int: Calling Int 0x0" end_of_line.
Proof.
  exists (set_dbg 1 (demo [5; 3; 0] 2 [] [0xF6; 0xF2])). destruct (okb_ex (run_one demo_env (set_dbg 1 (demo [5; 3; 0] 2 [] [0xF6; 0xF2]))) (fun _ => true)) as (s' & H1 & _); [vm_compute; reflexivity|].
  exists s'. split; [apply demo_polite|]. split; [apply (demo_flat demo_env); reflexivity|]. split; [apply wf_dbg, demo_wf_state; reflexivity|]. split; [apply runs_S with s'; [exact H1|constructor]|]. vm_compute. reflexivity.
Qed.
(** "The bytes shown are those executed" is false for an instruction that overwrites itself: MOV BYTE CS:[0103],77 is shown with 77 for its own address byte. *)
Theorem C81_overwritten_refuted : let pre := [0x2E] in let bs := [0xC6; 0x06; 0x03; 0x01; 0x77] in let s := set_dbg 1 (demo [] 2 [] (pre ++ bs)) in
  fetched demo_env HB s pre (mkPfx (Some 1) false false 0) bs /\ (exists s', run_one demo_env s = Ok tt s' /\ True) /\
  exists txt, run_prints demo_env s = line "       1" "10100" "1000" "0100" txt " 2e c6 06 77 01 77".
Proof.
  cbv zeta. split; [apply fetched_dbg, (demo_fetched demo_env _ 2 _ [0x2E]); reflexivity|]. split; [witness (fun _ : st => true); exact I|].
  exists " Ovr (Seg) CS MOV (MI) CS:[0x0103] 0x77". vm_compute. reflexivity.
Qed.
(** Non-vacuity: a three-instruction program, its trace as printed. *)
Example C81_case : let s := set_dbg 1 (demo [5; 3; 0; 0xFFF0; 0x100; 0; 2] 2 [] [0x01; 0x40; 0xFE; 0xF3; 0xA4; 0xEB; 0x03]) in
  (exists s', runs demo_env 3 s s') /\ quiet_host demo_env /\ polite demo_env /\ flat demo_env HB (ar s) /\ wf_state s /\ 0 <= icount s < 2147483648 /\ 1 <= dbg s /\
  trace demo_env 3 s = joined
    ["(       1) [0x10100] 1000:0100 ADD (MRX) DS:[BX+SI+0xfffffffe] AX"; tab_char; "; 01 40 fe"; end_of_line;
     "(       2) [0x10103] 1000:0103 Prefix (REP) MOV (SB) ES:[DI] DS:[SI] (max 0x3 times) (0 skipp$"; tab_char; "; f3 a4"; end_of_line;
     "(       3) [0x10105] 1000:0105 JMP (S) .+0x03"; tab_char; "; eb 03"; end_of_line].
Proof.
  cbv zeta. split.
  - destruct (okb_ex (run_one demo_env (set_dbg 1 (demo [5; 3; 0; 0xFFF0; 0x100; 0; 2] 2 [] [0x01; 0x40; 0xFE; 0xF3; 0xA4; 0xEB; 0x03]))) (fun _ => true)) as (s1 & E1 & _); [vm_compute; reflexivity|].
    destruct (okb_ex (bind (run_one demo_env) (fun _ => run_one demo_env) (set_dbg 1 (demo [5; 3; 0; 0xFFF0; 0x100; 0; 2] 2 [] [0x01; 0x40; 0xFE; 0xF3; 0xA4; 0xEB; 0x03]))) (fun _ => true)) as (s2 & E2 & _); [vm_compute; reflexivity|].
    destruct (okb_ex (bind (run_one demo_env) (fun _ => bind (run_one demo_env) (fun _ => run_one demo_env)) (set_dbg 1 (demo [5; 3; 0; 0xFFF0; 0x100; 0; 2] 2 [] [0x01; 0x40; 0xFE; 0xF3; 0xA4; 0xEB; 0x03]))) (fun _ => true)) as (s3 & E3 & _); [vm_compute; reflexivity|].
    revert E1 E2 E3. generalize (set_dbg 1 (demo [5; 3; 0; 0xFFF0; 0x100; 0; 2] 2 [] [0x01; 0x40; 0xFE; 0xF3; 0xA4; 0xEB; 0x03])). intros s E1 E2 E3. unfold bind in E2, E3. rewrite E1 in E2, E3. rewrite E2 in E3.
    exists s3. apply runs_S with s1; [exact E1|]. apply runs_S with s2; [exact E2|]. apply runs_S with s3; [exact E3|]. constructor.
  - split; [apply demo_quiet|]. split; [apply demo_polite|]. split; [apply (demo_flat demo_env); reflexivity|]. split; [apply wf_dbg, demo_wf_state; reflexivity|]. split; [cbn; lia|]. split; [cbn; lia|]. vm_compute. reflexivity.
Qed.
Example C81_bytes_case : let bs := [0x01; 0x40; 0xFE] in let s := set_dbg 1 (demo [5; 3; 0; 0xFFF0; 0x100; 0; 2] 2 [] bs) in
  fetched demo_env HB s [] np bs /\ wf_state s /\ 0 <= cpu (ar s) <= 2 /\ 1 <= dbg s /\ insn_size np bs = Some (blen bs) /\ length_known np bs /\ ~ may_divfault bs /\
  exists s1, run_one demo_env s = Ok tt s1 /\ forall i, 0 <= i < blen bs -> byte (ar s1) (pc (ar s) + i) = byte (ar s) (pc (ar s) + i).
Proof.
  cbv zeta. split; [apply fetched_dbg, (demo_fetched demo_env _ 2 _ []); reflexivity|]. split; [apply wf_dbg, demo_wf_state; reflexivity|]. split; [cbn; lia|]. split; [cbn; lia|]. split; [reflexivity|].
  split; [split; [intros [H _]; discriminate|discriminate]|]. split; [unfold may_divfault; cbn [In]; lia|].
  witness (fun s => (byte (ar s) 0x10100 =? 0x01) && (byte (ar s) 0x10101 =? 0x40) && (byte (ar s) 0x10102 =? 0xFE)).
  intros i Hi. change (blen [0x01; 0x40; 0xFE]) with 3 in Hi. rewrite !andb_true_iff, !Z.eqb_eq in H2. destruct H2 as ((H2 & H3) & H4). change (pc (ar (set_dbg 1 (demo [5; 3; 0; 0xFFF0; 0x100; 0; 2] 2 [] [0x01; 0x40; 0xFE])))) with 0x10100.
  assert (C : i = 0 \/ i = 1 \/ i = 2) by lia. destruct C as [->|[->| ->]]; [rewrite (H2 : byte (ar s1) (0x10100 + 0) = 1)|rewrite (H3 : byte (ar s1) (0x10100 + 1) = 0x40)|rewrite (H4 : byte (ar s1) (0x10100 + 2) = 0xFE)]; vm_compute; reflexivity.
Qed.

(** ** C82: the operand shown is the operand accessed. *)
(** The line of an instruction with a memory operand shows "segment:[terms]" whose value, with the registers as they were, is the linear address the
    instruction works on (C14_real_address: [real_address]) - unless the text was too long and was cut, which "$" shows. *)
Theorem C82_operand E base s pre p bs s1 wide t rg x rest : quiet_host E -> polite E -> fetched E base s pre p bs -> wf_state s -> 0 <= icount s < 2147483648 -> 1 <= dbg s ->
  has_modrm bs = Some (wide, t) -> real_address p (ar s) t = Some (rg, x, rest) -> blen rest <= 4 -> run_one E s = Ok tt s1 ->
  (exists num lin cs ip txt bytes, run_prints E s = append (level2 s) (line num lin cs ip txt bytes) /\ names_place (icount s1) (r_cs (ar s)) (r_ip (ar s)) num lin cs ip /\ plain txt = true /\ plain bytes = true /\
     (has_char "$" txt = true \/
      exists sg e v o, shown_operand txt = Some (sg, e) /\ lookup_text sg (segments (ar s)) = Some v /\ offset_value (ar s) e = Some o /\ low 32 (16 * v + o) = x)) \/
  (opcode_at (ar s) divides /\ exists num lin cs ip, run_prints E s = append (level2 s) (fault_line num lin cs ip) /\ names_place (icount s1) (r_cs (ar s)) (r_ip (ar s)) num lin cs ip).
Proof.
  intros Q P Hf W Hi Hd Hm Hr Hl Hrun. pose proof Hf as ([F Wr PC Hc] & Hp & C).
  assert (Ht : exists b u, t = b :: u) by (destruct t as [|b u]; [discriminate|eauto]). destruct Ht as (b & u & ->).
  destruct (line_any E s s1 P W PC Hi Hd Hrun) as [(_ & num & lin & cs & ip & bytes & H1 & H2 & H3)|[(s2 & H1) H2]].
  - left. exists num, lin, cs, ip, (middle E s s1), bytes. split; [exact H1|]. split; [exact H2|]. split; [apply plain_middle|]. split; [exact H3|].
    apply (middle_operand E base s pre p bs s1 wide (b :: u) rg x rest); auto.
    + intros q ->. cbn in Hm. injection Hm as <- ->. destruct (undefined_stops E base s pre p (130 :: b :: u) Hf) as (s' & X & _); [|unfold undefined_opcode, undefined1; cbn [In]; lia|congruence].
      unfold opcode_read, prefix_byte. cbn [In]. split; [lia|]. split; [lia|discriminate].
    + intros q ->. cbn in Hm. injection Hm as <- ->. destruct (unsupported_stops E base s pre p (15 :: 186 :: b :: u) Hf I eq_refl) as (s' & X & _). congruence.
  - right. split; [eapply diverr_opcode; eauto|exact H2].
Qed.
(** Without prefixes nothing is cut, whatever the instruction. *)
Theorem C82_complete E base s s1 : polite E -> flat E base (ar s) -> wf_state s -> at_instruction (ar s) -> 0 <= icount s < 2147483648 -> 1 <= dbg s ->
  ~ prefix_byte (ipbyte (ar s) 0) -> ~ opcode_at (ar s) divides -> quiet_host E -> run_one E s = Ok tt s1 ->
  exists num lin cs ip txt bytes, run_prints E s = append (level2 s) (line num lin cs ip txt bytes) /\ plain txt = true /\ plain bytes = true /\ has_char "$" txt = false.
Proof.
  intros P F W A Hi Hd Np Nd Q Hrun. destruct (line_any E s s1 P W A Hi Hd Hrun) as [(_ & num & lin & cs & ip & bytes & H1 & H2 & H3)|[(s2 & H1) H2]].
  - exists num, lin, cs, ip, (middle E s s1), bytes. split; [exact H1|]. split; [apply plain_middle|]. split; [exact H3|]. eapply not_cut; eauto.
  - exfalso. apply Nd. eapply diverr_opcode; eauto.
Qed.
(** With three prefixes the operand may not be shown: 26 66 67 8B 44 13 (MOV EAX,ES:[...]) runs, and its text ends before the operand. *)
Theorem C82_cut_refuted : let bs := [0x8B; 0x44; 0x13; 0x12] in let pre := [0x26; 0x66; 0x67] in let p := mkPfx (Some 0) true true 0 in let s := set_dbg 1 (demo [] 2 [] (pre ++ bs)) in
  fetched demo_env HB s pre p bs /\ has_modrm bs = Some (true, [0x44; 0x13; 0x12]) /\ (exists s1, run_one demo_env s = Ok tt s1 /\ True) /\
  exists txt, run_prints demo_env s = line "       1" "10100" "1000" "0100" txt " 26 66 67 8b 44 13 12" /\ shown_operand txt = None.
Proof.
  cbv zeta. split; [apply fetched_dbg, (demo_fetched demo_env _ 2 _ [0x26; 0x66; 0x67]); reflexivity|]. split; [reflexivity|]. split; [witness (fun _ : st => true); exact I|].
  exists " Ovr (Seg) ES Ovr (OpSize) <OPER> Ovr (AddrSize) <ADDR> MOV (RM$". split; vm_compute; reflexivity.
Qed.
(** "A register operand is shown under its own name" is false: IN AX,DX is shown without a blank, and 66 0F B7 (MOVZX r32,r/m16) shows its 16-bit source as a 32-bit register. *)
Theorem C82_names_refuted : (exists s, fetched demo_env HB s [] np [0xED] /\ (exists s1, run_one demo_env s = Ok tt s1 /\ True) /\ run_prints demo_env s = line "       1" "10100" "1000" "0100" " IN (ADxX)DX AX" " ed") /\
  (exists s, fetched demo_env HB s [0x66] (mkPfx None true false 0) [0x0F; 0xB7; 0xC3] /\ (exists s1, run_one demo_env s = Ok tt s1 /\ True) /\
   run_prints demo_env s = line "       1" "10100" "1000" "0100" " Ovr (OpSize) <OPER> Ext (0F) MOV EAX EBX" " 66 0f b7 c3").
Proof.
  split.
  - exists (set_dbg 1 (demo [] 2 [] [0xED])). split; [apply fetched_dbg, (demo_fetched demo_env _ 2 _ []); reflexivity|]. split; [witness (fun _ : st => true); exact I|]. vm_compute. reflexivity.
  - exists (set_dbg 1 (demo [] 2 [] [0x66; 0x0F; 0xB7; 0xC3])). split; [apply fetched_dbg, (demo_fetched demo_env _ 2 _ [0x66]); reflexivity|]. split; [witness (fun _ : st => true); exact I|]. vm_compute. reflexivity.
Qed.
Example C82_case : let bs := [0x03; 0x83; 0x34; 0x82] in let s := set_dbg 1 (demo [5; 3; 0; 0x10; 0x100; 0x1000; 2; 0x70] 2 [] bs) in
  fetched demo_env HB s [] np bs /\ wf_state s /\ ~ prefix_byte (ipbyte (ar s) 0) /\ has_modrm bs = Some (true, [0x83; 0x34; 0x82]) /\
  (exists x, real_address np (ar s) [0x83; 0x34; 0x82] = Some (0, x, []) /\ x = 0x3000 * 16 + 0x1000 + 0x70 - 0x7DCC) /\ (exists s1, run_one demo_env s = Ok tt s1 /\ True) /\
  run_prints demo_env s = line "       1" "10100" "1000" "0100" " ADD (RMX) AX SS:[BP+DI+0xffff8234]" " 03 83 34 82".
Proof.
  cbv zeta. split; [apply fetched_dbg, (demo_fetched demo_env _ 2 _ []); reflexivity|]. split; [apply wf_dbg, demo_wf_state; reflexivity|]. split; [vm_compute; intros H; repeat (destruct H as [H|H]; [discriminate H|]); exact H|]. split; [reflexivity|].
  split; [eexists; split; vm_compute; reflexivity|]. split; [witness (fun _ : st => true); exact I|]. vm_compute. reflexivity.
Qed.
Print Assumptions C81_trace. Print Assumptions C81_silent. Print Assumptions C81_bytes. Print Assumptions C81_own_bytes. Print Assumptions C82_operand. Print Assumptions C82_complete. Print Assumptions C82_cut_refuted.
