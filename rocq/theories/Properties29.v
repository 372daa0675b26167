(** Property theorems C83: the instruction names of the trace. *)
From Coq Require Import String Ascii.
From Verif Require Import Base Cpu Alu Ops Machine Spec SpecOps SpecMul SpecStr SpecRun SpecTop SpecCodes SpecLen SpecStop PBase PMem PExec PStop PStop2 PCodes Dump SpecDump TraceText SpecTrace SpecNames PTrace PTrace2 PTrace3 PTrace4 PTrace5 PTrace6 PTrace7 PWarn Demo Properties16 Properties28.
Local Open Scope string_scope.
Local Open Scope Z_scope.

(** ** C83: the line names the instruction. *)
(** With DebugLevel 1 or more, the line of an executed instruction consists of: exactly if a REP prefix is there and the instruction is no string
    instruction, a warning naming both; the prefixes in their
    order; the instruction's name in the Intel manual (or, for MOVZX and the 66 forms of instructions named after their width, some name) with
    its form in brackets; the operands; all of it as far as 63 characters reach.  An instruction that raises a divide fault shows none of it. *)
Theorem C83_name E base s pre p bs s1 : quiet_host E -> polite E -> fetched E base s pre p bs -> wf_state s -> 0 <= icount s < 2147483648 -> 1 <= dbg s ->
  opcode_read bs -> modrm_read bs -> blen bs <= 15 -> run_one E s = Ok tt s1 ->
  (exists num lin cs ip w name form ops bytes,
     run_prints E s = append (level2 s) (line num lin cs ip (append w (append " " (limited (append (announced pre) (append name (append " (" (append form (append ")" ops)))))))) bytes) /\
     names_place (icount s1) (r_cs (ar s)) (r_ip (ar s)) num lin cs ip /\ warning p bs w /\ plain bytes = true /\ named_as (p_os p) bs name form ops) \/
  (opcode_at (ar s) divides /\ exists num lin cs ip, run_prints E s = append (level2 s) (fault_line num lin cs ip) /\ names_place (icount s1) (r_cs (ar s)) (r_ip (ar s)) num lin cs ip).
Proof.
  intros Q P Hf W Hi Hd Ho Hm Hl Hrun. pose proof Hf as ([F Wr PC Hc] & Hp & C).
  destruct (line_any E s s1 P W PC Hi Hd Hrun) as [(Hdo & num & lin & cs & ip & bytes & H1 & H2 & H3)|[(s2 & H1) H2]].
  - left. assert (Hu : ~ undefined_opcode bs) by (intros Hu; destruct (undefined_stops E base s pre p bs Hf Ho Hu) as (s' & X & _); congruence).
    assert (Hr : refused_form bs = false).
    { destruct (refused_form bs) eqn:Er; [|reflexivity]. exfalso. destruct bs as [|op t]; [discriminate|]. destruct (Z.eq_dec op 15) as [->|H15].
      - destruct t as [|op2 t]; [discriminate|]. cbn in Er. destruct (unsupported_stops E base s pre p (15 :: op2 :: t) Hf Hm Er) as (s' & X & _). congruence.
      - assert (Er' : (isin op [246; 247] && (reg_field t =? 1)) || ((op =? 254) && (2 <=? reg_field t)) || ((op =? 255) && (reg_field t =? 7)) = true).
        { rewrite <- Er. unfold refused_form. destruct op as [|q|q]; try reflexivity. do 4 (destruct q as [q|q|]; try reflexivity). contradiction H15. reflexivity. }
        apply orb_true_iff in Er'. destruct Er' as [Er'|Er']; [apply orb_true_iff in Er'; destruct Er' as [Er'|Er']|].
        + apply andb_true_iff in Er'. destruct Er' as [A B]. apply isin_In in A. cbn [In] in A. apply Z.eqb_eq in B. apply (grp3_refused E base s pre p (op :: t) s1 Q Hf W Ho); [|exact Hdo]. exists op, t. split; [reflexivity|]. split; [lia|exact B].
        + apply andb_true_iff in Er'. destruct Er' as [A B]. apply Z.eqb_eq in A. subst op. destruct (invalid_stops E base s pre p (254 :: t) Hf Hm) as (s' & X & _); [cbn; rewrite B; reflexivity|congruence].
        + apply andb_true_iff in Er'. destruct Er' as [A B]. apply Z.eqb_eq in A. subst op. destruct (invalid_stops E base s pre p (255 :: t) Hf Hm) as (s' & X & _); [cbn; rewrite B; reflexivity|congruence]. }
    destruct (middle_named E base s pre p bs s1 (do_opcode_warned E Q base s pre p bs s1 P Hf W Ho Hdo) Hf W Ho Hl Hu Hr) as (w & name & form & ops & M1 & M2 & M3).
    exists num, lin, cs, ip, w, name, form, ops, bytes. rewrite <- M1. auto.
  - right. split; [eapply diverr_opcode; eauto|exact H2].
Qed.
(** The names are unambiguous: only SHL and SAL, synonyms, share an encoding. *)
Theorem C83_one_name os bs m1 m2 : Forall (fun b => 0 <= b < 256) bs -> In m1 (mnemonics os bs) -> In m2 (mnemonics os bs) -> m1 = m2 \/ (In m1 ["SHL"; "SAL"] /\ In m2 ["SHL"; "SAL"]).
Proof. exact (mnemonics_unique os bs m1 m2). Qed.
(** And they are the names of what the instruction specifications (C01, C02, ... C16) say is executed. *)
Theorem C83_alu os p a bs k w d v : decode_alu p a bs = Some (k, w, d, v) -> In (alu_name k) (mnemonics os bs).
Proof. exact (alu_mnemonic os p a bs k w d v). Qed.
Theorem C83_shift os p a bs k w r c : decode_shift p a bs = Some (k, w, r, c) -> In (shift_name k) (mnemonics os bs).
Proof. exact (shift_mnemonic os p a bs k w r c). Qed.
Theorem C83_unary os p a bs o w r : decode_unary p a bs = Some (o, w, r) -> In (unary_name o) (mnemonics os bs).
Proof. exact (unary_mnemonic os p a bs o w r). Qed.
Theorem C83_muldiv os p a bs k w r : decode_muldiv p a bs = Some (k, w, r) -> In (muldiv_name k) (mnemonics os bs).
Proof. exact (muldiv_mnemonic os p a bs k w r). Qed.
Theorem C83_string p bs o w : decode_str p bs = Some (o, w) -> In (str_name o w) (mnemonics (p_os p) bs).
Proof. exact (str_mnemonic p bs o w). Qed.
(** "Every instruction is shown under its own name" is false: 0F B6 (MOVZX AX,BL) is shown as a MOV of registers, and 66 A5 (MOVSD) as MOVSW. *)
Theorem C83_names_refuted : (let bs := [0x0F; 0xB6; 0xC3] in let s := set_dbg 1 (demo [] 2 [] bs) in
    fetched demo_env HB s [] np bs /\ mnemonics false bs = ["MOVZX"] /\ (exists s1, run_one demo_env s = Ok tt s1 /\ True) /\
    exists ops, run_prints demo_env s = line "       1" "10100" "1000" "0100" (append " Ext (0F) MOV" ops) " 0f b6 c3") /\
  (let bs := [0xA5] in let s := set_dbg 1 (demo [] 2 [] (0x66 :: bs)) in
    fetched demo_env HB s [0x66] (mkPfx None true false 0) bs /\ mnemonics true bs = ["MOVSD"] /\ (exists s1, run_one demo_env s = Ok tt s1 /\ True) /\
    exists ops, run_prints demo_env s = line "       1" "10100" "1000" "0100" (append " Ovr (OpSize) <OPER> MOV (SW)" ops) " 66 a5").
Proof.
  split; cbv zeta.
  - split; [apply fetched_dbg, (demo_fetched demo_env _ 2 _ []); reflexivity|]. split; [reflexivity|]. split; [witness (fun _ : st => true); exact I|]. exists " AX BL". vm_compute. reflexivity.
  - split; [apply fetched_dbg, (demo_fetched demo_env _ 2 _ [0x66]); reflexivity|]. split; [reflexivity|]. split; [witness (fun _ : st => true); exact I|]. exists " ES:[DI] DS:[SI]". vm_compute. reflexivity.
Qed.
(** Non-vacuity: F3 26 C1 24 03 (a useless REP, SHL ES:[SI],3). *)
Example C83_case : let bs := [0xC1; 0x24; 0x03] in let pre := [0xF3; 0x26] in let p := mkPfx (Some 0) false false 0xF3 in let s := set_dbg 1 (demo [] 2 [] (pre ++ bs)) in
  quiet_host demo_env /\ polite demo_env /\ fetched demo_env HB s pre p bs /\ wf_state s /\ opcode_read bs /\ modrm_read bs /\ blen bs <= 15 /\ (exists s1, run_one demo_env s = Ok tt s1 /\ True) /\
  run_prints demo_env s = line "       1" "10100" "1000" "0100" (append " Prefix 0xf3 used with wrong opcode 0xc1" (append " " (limited (append (announced pre) (append "SHL" (append " (" (append "MI8X" (append ")" " ES:[SI] 0x03")))))))) " f3 26 c1 24 03" /\ mnemonics false bs = ["SHL"; "SAL"].
Proof.
  cbv zeta. split; [apply demo_quiet|]. split; [apply demo_polite|]. split; [apply fetched_dbg, (demo_fetched demo_env _ 2 _ [0xF3; 0x26]); reflexivity|]. split; [apply wf_dbg, demo_wf_state; reflexivity|].
  split; [unfold opcode_read, prefix_byte; cbn [In]; split; [lia|]; split; [lia|discriminate]|]. split; [exact I|]. split; [vm_compute; discriminate|]. split; [witness (fun _ : st => true); exact I|]. split; [|reflexivity]. vm_compute. reflexivity.
Qed.
Print Assumptions C83_name. Print Assumptions C83_one_name. Print Assumptions C83_alu. Print Assumptions C83_shift. Print Assumptions C83_unary. Print Assumptions C83_muldiv. Print Assumptions C83_string. Print Assumptions C83_names_refuted.
