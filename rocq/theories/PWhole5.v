(** The reference machine, the list of refusals and the list of exceptions cover all instructions (C87): all opcodes. *)
From Verif Require Import Base Cpu Alu Ops Machine Spec SpecOps SpecOps2 SpecSys SpecMul SpecBcd SpecDbl SpecStr SpecStr2 SpecRun SpecTop SpecStop SpecEa SpecUb SpecIsa SpecCodes SpecRefuse SpecOutside SpecMsgs PBase PMem PRun PFrame PAlu PExec PIAlu PIStack PStep PIInt PIStr PTop PTop2 PStop PStop2 PEa PEa2 PEa3 PEa4 PIsa PProg PRefuse PRefuse2 PWhole PWhole2 PWhole3 PWhole4.
Local Open Scope Z_scope.

Definition bytes256 : list Z := map Z.of_nat (seq 0 256).
Lemma in_bytes256 b : 0 <= b < 256 -> In b bytes256.
Proof. intros H. unfold bytes256. apply in_map_iff. exists (Z.to_nat b). split; [lia|]. apply in_seq. lia. Qed.
Definition L_pfx : list Z := [38; 46; 54; 62; 100; 101; 102; 103; 242; 243].
Definition groups1 : list (list Z) :=
  [L_pfx; [241; 15]; undefined1; [0xF4]; L_alu_rm; [0x80; 0x81; 0x83]; L_alu_acc; L_alu_accw; L_incdec; [0xF6]; [0xF7]; [0xFE]; [0xFF]; L_shift_fix; [0xC0; 0xC1];
   [0x69]; [0x6B]; [0x27; 0x2F; 0x37; 0x3F]; [0xD4]; [0xD5]; L_mov_rm; [0xC6]; [0xC7]; L_mov_i8; L_mov_iw; [0xA0; 0xA1; 0xA2; 0xA3]; [0x8C]; [0x8E]; L_xchg;
   [0xC4; 0xC5]; [0xD7]; [0x8D]; L_pushpop; L_seg; [0x6A]; [0x68]; [0x60; 0x61; 0x9C; 0x9D]; [0xC8]; [0x8F]; [0x98]; L_misc; [0xE4; 0xE5; 0xE6; 0xE7];
   [0xEC; 0xED; 0xEE; 0xEF]; L_str; L_short; [0xE0; 0xE1; 0xE2]; [0xE3]; [0xE8; 0xE9; 0xC2; 0xCA]; [0xEA; 0x9A]; [0xC3; 0xCB; 0xCF]; [0xCC]; [0xCD]; [0xCE]].
Definition groups2 : list (list Z) :=
  [[0xA4; 0xAC]; [0xA5; 0xAD]; [0xAF]; [0xB2; 0xB4; 0xB5]; [0xB6; 0xB7]; [0xA0; 0xA1; 0xA8; 0xA9]; [0xBC]; [0xBA]; L_jcc2].
Lemma mem_in l b : mem_z l b = true -> In b l.
Proof. unfold mem_z. intros H. apply existsb_exists in H. destruct H as (x & Hx & E). apply Z.eqb_eq in E. subst. exact Hx. Qed.
Lemma all1 b : 0 <= b < 256 -> exists g, In g groups1 /\ In b g.
Proof.
  intros H. apply in_bytes256 in H. assert (C : forallb (fun b => existsb (fun g => mem_z g b) groups1) bytes256 = true) by (vm_compute; reflexivity).
  rewrite forallb_forall in C. specialize (C b H). apply existsb_exists in C. destruct C as (g & Hg & C). exists g. split; [exact Hg|apply mem_in, C].
Qed.
Lemma all2 b : In b defined0F -> exists g, In g groups2 /\ In b g.
Proof.
  intros H. assert (C : forallb (fun b => existsb (fun g => mem_z g b) groups2) defined0F = true) by (vm_compute; reflexivity).
  rewrite forallb_forall in C. specialize (C b H). apply existsb_exists in C. destruct C as (g & Hg & C). exists g. split; [exact Hg|apply mem_in, C].
Qed.
Lemma in_z_dec b (l : list Z) : In b l \/ ~ In b l.
Proof. destruct (in_dec Z.eq_dec b l); auto. Qed.

Section Cover.
Context (E : env) (base : Z) (inp : list ioev -> Z -> Z -> Z) (svc : Z -> Z -> arch -> arch) (s : st) (pre : list Z) (p : pfx).
Notation a := (ar s).
Notation cov := (covered inp svc s pre p).
Ltac un t n := match n with O => idtac | S ?m => destruct t as [|? t]; [exfalso; cbn [length] in *; lia|un t m] end.
Ltac one := match goal with H : In _ [_] |- _ => destruct H as [<-|[]] end.
Lemma cover2 op t : fetched E base s pre p (0x0F :: op :: t) -> opcode_read (0x0F :: op :: t) -> (10 <= length t)%nat -> cov (0x0F :: op :: t).
Proof.
  intros Hf Ho Hl. destruct (in_z_dec op defined0F) as [D|D]; [|eapply c_ref, rf_opcode; [exact Ho|right; split; [reflexivity|exact D]]].
  apply all2 in D. destruct D as (g & Hg & D). unfold groups2 in Hg. cbn [In] in Hg.
  repeat (destruct Hg as [<-|Hg]; [|]); try contradiction.
  - eapply o_dbl_imm; eauto.
  - eapply o_dbl_cl; eauto.
  - one. eapply o_imulAF; eauto.
  - eapply o_lxs2; eauto.
  - eapply o_movzx; eauto.
  - eapply o_seg2; eauto.
  - one. eapply o_bsf; eauto.
  - one. eapply c_ref, rf_unsupported. reflexivity.
  - un t 2%nat. eapply o_jcc2; eauto.
Qed.
Theorem cover bs : fetched E base s pre p bs -> opcode_read bs -> 12 <= blen bs -> cov bs.
Proof.
  intros Hf Ho Hl. pose proof Hf as [Rd _]. destruct Rd as [F W PC Hc]. pose proof (code_bytes _ _ _ _ _ _ Hf) as Hb. unfold blen in Hl.
  destruct bs as [|op t]; [contradiction|]. assert (L : (11 <= length t)%nat) by (cbn [length] in Hl; lia). clear Hl. pose proof Ho as (Hpre & H241 & _).
  destruct (all1 op (Hb op ltac:(left; reflexivity))) as (g & Hg & D). unfold groups1 in Hg. cbn [In] in Hg. clear Hb.
  repeat (destruct Hg as [<-|Hg]; [|]); try contradiction.
  - destruct D as [<-|[<-|[]]]; [congruence|]. destruct t as [|b2 t]; [cbn in L; lia|]. apply cover2; [exact Hf|exact Ho|cbn in L; lia].
  - eapply c_ref, rf_opcode; [exact Ho|left; exact D].
  - one. eapply c_ref, rf_halt.
  - eapply o_alu_rm; eauto.
  - eapply o_alu_rmi; eauto.
  - eapply o_alu_acc; eauto.
  - eapply o_alu_accw; eauto.
  - eapply o_incdec; eauto.
  - one. eapply o_grp3b; eauto.
  - one. eapply o_grp3w; eauto.
  - one. eapply o_FE; eauto.
  - one. eapply o_FF; eauto.
  - eapply o_shift_fix; eauto.
  - eapply o_shift_imm; eauto.
  - one. eapply o_imul69; eauto.
  - one. eapply o_imul6B; eauto.
  - eapply o_bcd; eauto.
  - one. un t 1%nat. eapply o_aam; eauto.
  - one. un t 1%nat. eapply o_aad; eauto.
  - eapply o_mov_rm; eauto.
  - one. eapply o_C6; eauto.
  - one. eapply o_C7; eauto.
  - eapply o_mov_i8; eauto.
  - eapply o_mov_iw; eauto.
  - eapply o_moffs; eauto.
  - one. eapply o_8C; eauto.
  - one. eapply o_8E; eauto.
  - eapply o_xchg; eauto.
  - eapply o_lxs; eauto.
  - one. eapply o_xlat; eauto.
  - one. eapply o_lea; eauto.
  - eapply o_pushpop; eauto.
  - eapply o_seg; eauto.
  - one. un t 1%nat. eapply o_6A; eauto.
  - one. un t 2%nat. eapply o_68; eauto.
  - eapply o_stack66; eauto.
  - one. un t 3%nat. eapply o_enter; eauto.
  - one. eapply o_8F; eauto.
  - one. eapply o_98; eauto.
  - eapply o_misc; eauto.
  - un t 1%nat. eapply o_io_i; eauto.
  - eapply o_io; eauto.
  - eapply o_str; eauto.
  - un t 1%nat. eapply o_short; eauto.
  - un t 1%nat. eapply o_loop; eauto.
  - one. un t 1%nat. eapply o_jcxz; eauto.
  - un t 2%nat. eapply o_near; eauto.
  - un t 4%nat. eapply o_far; eauto.
  - eapply o_ret; eauto.
  - one. eapply o_int3; eauto.
  - one. un t 1%nat. eapply o_intn; eauto.
  - one. eapply o_into; eauto.
Qed.
End Cover.

(** ** The emulator *)
Lemma fetched_prefix E base s pre p i j : fetched E base s pre p (i ++ j) -> fetched E base s pre p i.
Proof.
  intros (R & P & C). split; [exact R|]. split; [exact P|]. rewrite app_assoc in C. destruct C as [C1 C2]. rewrite blen_app in C1. pose proof (blen_nonneg j).
  split; [lia|]. intros n b Hn. apply C2. rewrite nth_error_app1; [exact Hn|]. apply nth_error_Some. congruence.
Qed.
Lemma modrm_rest bs w t : has_modrm bs = Some (w, t) -> (length bs <= length t + 2)%nat.
Proof.
  intros H. unfold has_modrm in H. destruct bs as [|b t0]; [discriminate|].
  repeat (match type of H with context [match ?x with _ => _ end] => destruct x end; try discriminate H; try (injection H as _ <-; cbn [length]; lia)).
Qed.
Lemma real_rm_some p a t : (6 <= length t)%nat -> real_rm p a t <> None.
Proof.
  intros L. do 6 (destruct t as [|? t]; [cbn in L; lia|]). cbn [real_rm real_address]. destruct (z / 64 =? 3) eqn:H3; [discriminate|].
  assert (R : real_offset p (z / 64) (z mod 8) a (z0 :: z1 :: z2 :: z3 :: z4 :: t) <> None).
  { unfold real_offset, disp, disp32. cbn [dword]. repeat (match goal with |- context [if ?c then _ else _] => destruct c end; try discriminate). }
  destruct (real_offset _ _ _ _ _) as [[o r]|]; [discriminate|congruence].
Qed.
Lemma whole_long p a bs : opcode_read bs -> 12 <= blen bs -> whole p a bs.
Proof.
  intros Ho Hl. unfold blen in Hl. destruct bs as [|b t]; [contradiction|]. right. right. split; [exact Ho|]. split; [|split].
  - destruct (has_modrm (b :: t)) as [[w t']|] eqn:H; [|exact I]. apply modrm_rest in H. apply real_rm_some. lia.
  - intros _. cbn [length] in Hl. lia.
  - intros _ ->. cbn [length] in Hl. lia.
Qed.
