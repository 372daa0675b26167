(** Property theorems C84: the operands in the trace. *)
From Coq Require Import String Ascii.
From Verif Require Import Base Cpu Alu Ops Machine Spec SpecOps SpecMul SpecStr SpecRun SpecTop SpecCodes SpecLen SpecStop SpecEa PBase PMem PExec PStop PStop2 PCodes Dump SpecDump TraceText SpecTrace SpecNames SpecOpers SpecDbl PTrace PTrace2 PTrace3 PTrace4 PTrace5 PTrace6 PTrace7 PWarn PTrace8 PTrace9 PTrace10 PTrace11 Demo Properties16 Properties28.
Local Open Scope string_scope.
Local Open Scope Z_scope.

(** ** C84: the line shows the operands. *)
(** With DebugLevel 1 or more, behind the instruction's name the line shows its operands in the manual's order, destination first, each behind
    a blank: registers by name, memory as SEG:[sum] whose segment and sum denote the very address accessed, immediates and jump distances in
    hexadecimal; [operands] lists them from the opcode map, for the instructions not excepted there (see C84_shown_refuted).  As in C83, 63
    characters are shown, and an instruction that raises a divide fault shows none of it. *)
Theorem C84_operands E base s pre p bs s1 l : quiet_host E -> polite E -> fetched E base s pre p bs -> wf_state s -> 0 <= icount s < 2147483648 -> 1 <= dbg s ->
  opcode_read bs -> modrm_read bs -> blen bs <= 15 -> operands p (ar s) bs = Some l -> run_one E s = Ok tt s1 ->
  (exists num lin cs ip w name form more us bytes,
     run_prints E s = append (level2 s) (line num lin cs ip (append w (append " " (limited (append (announced pre) (append name (append " (" (append form (append ")" (append more (operand_text us)))))))))) bytes) /\
     names_place (icount s1) (r_cs (ar s)) (r_ip (ar s)) num lin cs ip /\ warning p bs w /\ plain bytes = true /\ named_as (p_os p) bs name form (append more (operand_text us)) /\
     between (p_os p) bs more /\ Forall2 (shows (ar s)) l us) \/
  (opcode_at (ar s) divides /\ exists num lin cs ip, run_prints E s = append (level2 s) (fault_line num lin cs ip) /\ names_place (icount s1) (r_cs (ar s)) (r_ip (ar s)) num lin cs ip).
Proof.
  intros Q P Hf W Hi Hd Ho Hm Hl Hops Hrun. pose proof Hf as ([F Wr PC Hc] & Hp & C).
  destruct (line_any E s s1 P W PC Hi Hd Hrun) as [(Hdo & num & lin & cs & ip & bytes & H1 & H2 & H3)|[(s2 & H1) H2]].
  - left. assert (Hu : ~ undefined_opcode bs) by (intros Hu; destruct (undefined_stops E base s pre p bs Hf Ho Hu) as (s' & X & _); congruence).
    assert (Hr : refused_form bs = false).
    { destruct (refused_form bs) eqn:Er; [|reflexivity]. exfalso. destruct bs as [|op t]; [discriminate|]. destruct (Z.eq_dec op 15) as [->|H15].
      - destruct t as [|op2 t]; [discriminate|]. cbn in Er. destruct (unsupported_stops E base s pre p (15 :: op2 :: t) Hf Hm Er) as (s' & X & _). congruence.
      - assert (Er' : (isin op [246; 247] && (reg_field t =? 1)) || ((op =? 254) && (2 <=? reg_field t)) || ((op =? 255) && (reg_field t =? 7)) = true).
        { rewrite <- Er. unfold refused_form. destruct op as [|q|q]; try reflexivity. do 4 (destruct q as [q|q|]; try reflexivity). contradiction H15. reflexivity. }
        apply orb_true_iff in Er'. destruct Er' as [Er'|Er']; [apply orb_true_iff in Er'; destruct Er' as [Er'|Er']|].
        + apply andb_true_iff in Er'. destruct Er' as [A B]. apply isin_In in A. cbn [In] in A. apply Z.eqb_eq in B. apply (grp3_refused E base s pre p (op :: t) s1 Q Hf W Ho); [|exact Hdo]. exists op, t. split; [reflexivity|]. split; [lia|exact B].
        + apply andb_true_iff in Er'. destruct Er' as [A B]. apply Z.eqb_eq in A. subst op. destruct (invalid_stops E base s pre p (254 :: t) Hf Hm) as (s' & X & _); [cbn; rewrite B; reflexivity|congruence].
        + apply andb_true_iff in Er'. destruct Er' as [A B]. apply Z.eqb_eq in A. subst op. destruct (invalid_stops E base s pre p (255 :: t) Hf Hm) as (s' & X & _); [cbn; rewrite B; reflexivity|congruence]. }
    destruct (middle_operands E base s pre p bs s1 l (do_opcode_warned E Q base s pre p bs s1 P Hf W Ho Hdo) Hf W Ho Hl Hu Hr Hops) as (w & name & form & more & us & M1 & M2 & M3 & M4 & M5).
    exists num, lin, cs, ip, w, name, form, more, us, bytes. rewrite <- M1. auto 10.
  - right. split; [eapply diverr_opcode; eauto|exact H2].
Qed.
(** The operands listed are those the instruction specifications (C01, C02, C03, C16, ...) work on: the first is the destination, the second
    has the source's value. *)
Theorem C84_alu E base s pre p op t k w d v : fetched E base s pre p (op :: t) -> ea_supported p (ar s) t -> decode_alu p (ar s) (op :: t) = Some (k, w, d, v) ->
  exists o1 o2, operands p (ar s) (op :: t) = Some [o1; o2] /\ stands w o1 d /\ value w o2 (ar s) = Some v.
Proof. intros Hf Hs. exact (alu_operands E base s pre p (op :: t) Hf Hs k w d v). Qed.
Theorem C84_shift E base s pre p op t k w r c : fetched E base s pre p (op :: t) -> ea_supported p (ar s) t -> decode_shift p (ar s) (op :: t) = Some (k, w, r, c) ->
  exists o1 o2, operands p (ar s) (op :: t) = Some [o1; o2] /\ stands w o1 r /\ value 8 o2 (ar s) = Some c.
Proof. intros Hf Hs. exact (shift_operands E base s pre p (op :: t) Hf Hs k w r c). Qed.
Theorem C84_unary E base s pre p op t o w r : fetched E base s pre p (op :: t) -> ea_supported p (ar s) t -> decode_unary p (ar s) (op :: t) = Some (o, w, r) ->
  exists o1, operands p (ar s) (op :: t) = Some [o1] /\ stands w o1 r.
Proof. intros Hf Hs. exact (unary_operands E base s pre p (op :: t) Hf Hs o w r). Qed.
Theorem C84_muldiv E base s pre p op t k w r : fetched E base s pre p (op :: t) -> ea_supported p (ar s) t -> decode_muldiv p (ar s) (op :: t) = Some (k, w, r) ->
  exists o1, operands p (ar s) (op :: t) = Some [o1] /\ stands w o1 r.
Proof. intros Hf Hs. exact (muldiv_operands E base s pre p (op :: t) Hf Hs k w r). Qed.
(** What a line shows determines the register, immediate or distance: no two operands of one kind share a text. *)
Theorem C84_distinct a : (forall w n w' n' u, 0 <= n < 8 -> 0 <= n' < 8 -> (w = 8 \/ w = 16 \/ w = 32) -> (w' = 8 \/ w' = 16 \/ w' = 32) -> shows a (XReg w n) u -> shows a (XReg w' n') u -> w = w' /\ n = n') /\
  (forall n n' u, 0 <= n < 6 -> 0 <= n' < 6 -> shows a (XSeg n) u -> shows a (XSeg n') u -> n = n') /\
  (forall v v' u, shows a (XImm v) u -> shows a (XImm v') u -> v = v') /\ (forall d d' u, shows a (XJump d) u -> shows a (XJump d') u -> d = d') /\
  (forall x x' u, shows a (XMem x) u -> shows a (XMem x') u -> x = x').
Proof.
  split; [|split; [exact (seg_distinct a)|split; [|split; [|exact (mem_distinct a)]]]].
  - intros w n w' n' u Hn Hn' Hw Hw' H H'. apply find_reg_ok in H; auto. apply find_reg_ok in H'; auto. split; congruence.
  - intros v v' u H H'. inversion H as [| | | |v0 h [_ K] E1 E2| | |]; subst. inversion H' as [| | | |v0 h' [_ K'] E1' E2'| | |]; subst. congruence.
  - intros v v' u H H'. inversion H as [| | | | |v0 h [_ K] E1 E2| |]; subst. inversion H' as [| | | | |v0 h' [_ K'] E1' E2'| |]; subst. congruence.
Qed.
(** "Every line shows the operands, destination first, by name and value" is false: SHLD AX,BX,4 is shown with the registers' low bytes, source first;
    IN AL,10 and LES BX,[SI] with the source first; RET 4 and AAM without the number; PUSH -128 (a 16-bit push) with a 32-bit number. *)
Theorem C84_shown_refuted : let shown bs ops bytes := let s := set_dbg 1 (demo [] 2 [] bs) in
    fetched demo_env HB s [] np bs /\ (exists s1, run_one demo_env s = Ok tt s1 /\ True) /\ run_prints demo_env s = line "       1" "10100" "1000" "0100" ops bytes in
  (shown [0x0F; 0xA4; 0xD8; 0x04] " Ext (0F) SHLD BL AL 4" " 0f a4 d8 04" /\ decode_dbl np (ar (set_dbg 1 (demo [] 2 [] [0x0F; 0xA4; 0xD8; 0x04]))) [0x0F; 0xA4; 0xD8; 0x04] = Some (true, 16, RReg AX, BX, 4)) /\
  shown [0xE4; 0x10] " IN (AI) 0x10 AL" " e4 10" /\ shown [0xC4; 0x1C] " LES (z) DS:[SI] BX" " c4 1c" /\ shown [0xC2; 0x04; 0x00] " RET (iN)" " c2 04 00" /\ shown [0xD4; 0x0A] " AAM (z)" " d4 0a" /\
  shown [0x6A; 0x80] " PUSH (I8) 0xffffff80" " 6a 80".
Proof.
  cbv zeta. repeat match goal with |- _ /\ _ => split end; try (apply fetched_dbg, (demo_fetched demo_env _ 2 _ []); reflexivity); try (witness (fun _ : st => true); exact I); vm_compute; reflexivity.
Qed.
(** Non-vacuity: 26 81 5C 02 34 12 (SBB ES:[SI+2],1234): the operands are ES*16+SI+2 = 40002 and 1234. *)
Example C84_case : let bs := [0x81; 0x5C; 0x02; 0x34; 0x12] in let pre := [0x26] in let p := mkPfx (Some 0) false false 0 in let s := set_dbg 1 (demo [] 2 [] (pre ++ bs)) in
  quiet_host demo_env /\ polite demo_env /\ fetched demo_env HB s pre p bs /\ wf_state s /\ opcode_read bs /\ modrm_read bs /\ blen bs <= 15 /\ (exists s1, run_one demo_env s = Ok tt s1 /\ True) /\
  operands p (ar s) bs = Some [XMem 0x40002; XImm 0x1234] /\
  run_prints demo_env s = line "       1" "10100" "1000" "0100" (append "" (append " " (limited (append (announced pre) (append "SBB" (append " (" (append "MIX" (append ")" (append "" (operand_text ["ES:[SI+0x2]"; "0x1234"])))))))))) " 26 81 5c 02 34 12" /\
  decode_alu p (ar s) bs = Some (3, 16, RMem 0x4000 2, 0x1234).
Proof.
  cbv zeta. split; [apply demo_quiet|]. split; [apply demo_polite|]. split; [apply fetched_dbg, (demo_fetched demo_env _ 2 _ [0x26]); reflexivity|]. split; [apply wf_dbg, demo_wf_state; reflexivity|].
  split; [unfold opcode_read, prefix_byte; cbn [In]; split; [lia|]; split; [lia|discriminate]|]. split; [exact I|]. split; [vm_compute; discriminate|]. split; [witness (fun _ : st => true); exact I|]. split; [|split]; vm_compute; reflexivity.
Qed.
Print Assumptions C84_operands. Print Assumptions C84_alu. Print Assumptions C84_shift. Print Assumptions C84_unary. Print Assumptions C84_muldiv. Print Assumptions C84_distinct. Print Assumptions C84_shown_refuted.
