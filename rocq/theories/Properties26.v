(** Property theorems C78: the register dump. *)
From Coq Require Import String Ascii.
From Verif Require Import Base Cpu Spec Dump SpecDump PBase PExec PDump Demo.
Local Open Scope Z_scope.

(** ** C78: a register dump shows every register it names, exactly. *)
Theorem C78_text a : wf_regs a -> exists ax cx dx bx sp bp si di ss ds es cs ip fl,
  dump_regs a = dump_layout ax cx dx bx sp bp si di ss ds es cs ip fl (flag_names (r_flags a)) /\
  (hex_text 8 (reg 32 AX a) ax /\ hex_text 8 (reg 32 CX a) cx /\ hex_text 8 (reg 32 DX a) dx /\ hex_text 8 (reg 32 BX a) bx) /\
  (hex_text 8 (reg 32 SP a) sp /\ hex_text 8 (reg 32 BP a) bp /\ hex_text 8 (reg 32 SI a) si /\ hex_text 8 (reg 32 DI a) di) /\
  (hex_text 4 (r_ss a) ss /\ hex_text 4 (r_ds a) ds /\ hex_text 4 (r_es a) es /\ hex_text 4 (r_cs a) cs /\ hex_text 4 (r_ip a) ip /\ hex_text 4 (r_flags a) fl).
Proof.
  intros W.
  assert (D : forall n, 0 <= n < 8 -> hex_text 8 (reg 32 n a) (fmt_x 8 (getf (32 * n) 32 (gprs a)))).
  { intros n Hn. rewrite reg_getf by (try exact Hn; unfold width; auto). unfold rpos. change (32 =? 8) with false. cbv iota. apply fmt_x_ok; [lia|]. apply getf_range. lia. }
  assert (S : forall v, inrange 16 v -> hex_text 4 v (fmt_x 4 v)) by (intros v Hv; apply fmt_x_ok; [lia|exact Hv]).
  exists (fmt_x 8 (getf (32 * 0) 32 (gprs a))), (fmt_x 8 (getf (32 * 1) 32 (gprs a))), (fmt_x 8 (getf (32 * 2) 32 (gprs a))), (fmt_x 8 (getf (32 * 3) 32 (gprs a))), (fmt_x 8 (getf (32 * 4) 32 (gprs a))), (fmt_x 8 (getf (32 * 5) 32 (gprs a))),
    (fmt_x 8 (getf (32 * 6) 32 (gprs a))), (fmt_x 8 (getf (32 * 7) 32 (gprs a))), (fmt_x 4 (r_ss a)), (fmt_x 4 (r_ds a)), (fmt_x 4 (r_es a)), (fmt_x 4 (r_cs a)), (fmt_x 4 (r_ip a)), (fmt_x 4 (r_flags a)).
  split.
  - unfold dump_regs. cbv zeta. rewrite flags_text. unfold dump_layout. cbn [joined]. unfold newline, end_of_line. rewrite app_empty. reflexivity.
  - destruct W. split; [|split]; repeat split; try (apply D; lia); try (apply S; assumption).
Qed.
(** Two states have the same dump exactly when they agree on every register it names. *)
Theorem C78_determines a b : wf_regs a -> wf_regs b -> dump_regs a = dump_regs b <->
  (forall n, 0 <= n < 8 -> reg 32 n a = reg 32 n b) /\ r_ss a = r_ss b /\ r_ds a = r_ds b /\ r_es a = r_es b /\ r_cs a = r_cs b /\ r_ip a = r_ip b /\ r_flags a = r_flags b.
Proof.
  intros Wa Wb. 
  destruct (C78_text a Wa) as (t0 & t1 & t2 & t3 & t4 & t5 & t6 & t7 & t8 & t9 & t10 & t11 & t12 & t13 & -> & (A0 & A1 & A2 & A3) & (A4 & A5 & A6 & A7) & A8 & A9 & A10 & A11 & A12 & A13).
  destruct (C78_text b Wb) as (u0 & u1 & u2 & u3 & u4 & u5 & u6 & u7 & u8 & u9 & u10 & u11 & u12 & u13 & -> & (B0 & B1 & B2 & B3) & (B4 & B5 & B6 & B7) & B8 & B9 & B10 & B11 & B12 & B13).
  split.
  - unfold dump_layout. cbn [joined]. intros H.
    repeat match type of H with
      | (?x ++ ?r)%string = (?x ++ ?r')%string => apply app_inj in H; [destruct H as [_ H]|reflexivity]
      | (?x ++ ?r)%string = (?y ++ ?r')%string => let E := fresh "E" in apply app_inj in H;
          [destruct H as [E H]; rewrite E in *; clear E|
           match goal with K : hex_text ?w _ x, K' : hex_text ?w _ y |- _ => destruct K as [K _]; destruct K' as [K' _]; congruence end]
      end; clear H.
    repeat match goal with K : hex_text _ _ ?t, K' : hex_text _ _ ?t |- _ => pose proof (hex_text_fun _ _ _ _ K K'); clear K K' end.
    split; [|repeat split; assumption]. intros n Hn. assert (C : n = 0 \/ n = 1 \/ n = 2 \/ n = 3 \/ n = 4 \/ n = 5 \/ n = 6 \/ n = 7) by lia. destruct C as [->|[->|[->|[->|[->|[->|[->| ->]]]]]]]; assumption.
  - intros (G & ES & ED & EE & EC & EI & EF). rewrite !G in * by lia. rewrite ES, ED, EE, EC, EI, EF in *.
    repeat match goal with K : hex_text ?w ?v ?t, K' : hex_text ?w ?v ?u |- _ => pose proof (hex_text_unique _ _ _ _ K K'); subst; clear K K' end. reflexivity.
Qed.
(** FS and GS are registers of the processor too: a dump does not show them. *)
Theorem C78_all_registers_refuted : exists a b, wf_regs a /\ wf_regs b /\ r_fs a <> r_fs b /\ r_gs a <> r_gs b /\ dump_regs a = dump_regs b.
Proof.
  exists (demo_arch [1; 2; 3; 4; 5; 6; 7; 8] 2 [] []), (with_sreg 4 0 (with_sreg 5 0 (demo_arch [1; 2; 3; 4; 5; 6; 7; 8] 2 [] []))).
  assert (W : wf_regs (demo_arch [1; 2; 3; 4; 5; 6; 7; 8] 2 [] [])) by (apply demo_wf; reflexivity). assert (Z0 : inrange 16 0) by (unfold inrange; lia).
  split; [exact W|]. split; [apply wf_with_sreg; [exact Z0|]; apply wf_with_sreg; [exact Z0|exact W]|]. split; [vm_compute; discriminate|]. split; [vm_compute; discriminate|]. reflexivity.
Qed.
Example C78_case : dump_regs (ar (demo [0x12345678; 0xFFFFFFFF; 0; 4; 0xabc; 6; 7; 8] 0x8d5 [] [])) =
  joined [end_of_line; "EAX 12345678  ECX ffffffff  EDX 00000000  EBX 00000004"; end_of_line; "ESP 00000abc  EBP 00000006  ESI 00000007  EDI 00000008"; end_of_line;
    "SS 3000  DS 2000  ES 4000"; end_of_line; "CS:IP = 0x1000:0100"; end_of_line; "Flags = 08d5 OF SF ZF AF PF CF"; end_of_line]%string.
Proof. reflexivity. Qed.
Print Assumptions C78_text.
Print Assumptions C78_determines.
Print Assumptions C78_all_registers_refuted.
