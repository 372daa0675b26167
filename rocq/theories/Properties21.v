(** Property theorems C72 (whole guest programs run as on the reference machine) and C73 (multi-word arithmetic). *)
From Verif Require Import Base Cpu Alu Ops Machine Spec SpecOps SpecOps2 SpecSys SpecMul SpecBcd SpecDbl SpecStr SpecStr2 SpecRun SpecTop SpecIsa SpecProg PBase PMem PRun PFrame PAlu PExec PStep PFlags PSmall PSmall2 PAlg PIAlu PIMov PIStack PIJump PIInt PIBcd PSmall6 PSmall4 PIAlu2 PIStr PIStr PIsa PProg Demo.

(** ** C72 *)
Section C72.
Context (E : env) (base : Z) (f : Z -> Z -> arch -> arch).
(** The host's services are described by [f] and leave memory mapped and registers within their widths. *)
Definition services_ok : Prop := callbacks E f /\ forall h n a, machine E base a -> machine E base (f h n a).

Theorem C72_program n P s : services_ok -> machine E base (ar s) -> 0 <= icount s -> icount s + Z.of_nat n <= 2147483647 ->
  reaches (port_in E) f n P (ar s) -> exists s', runs E n s s' /\ P (ar s').
Proof. intros [Hc Hs] M H0 Hi HR. destruct (program_runs E base f Hc Hs n P s M H0 Hi HR) as (s' & Hr & HP & _). eauto. Qed.
Theorem C72_call n P s fuel : services_ok -> machine E base (ar s) -> 0 <= icount s -> icount s + Z.of_nat n <= 2147483647 ->
  reaches (port_in E) f n (fun a => magic a /\ P a) (ar s) -> (n < fuel)%nat ->
  exists s', rme_call E fuel s = Ok tt s' /\ P (ar s').
Proof. intros [Hc Hs] M H0 Hi HR Hf. destruct (program_call E base f Hc Hs n P s fuel M H0 Hi HR Hf) as (s' & Hr & HP & _). eauto. Qed.
(** RME_CallInt enters handler [i] with the return address FFFF:FFFF; if the handler's program reaches FFFF:FFFF the call succeeds. *)
Theorem C72_call_int i n P s fuel : services_ok -> 0 <= i < 256 -> machine E base (ar s) -> 0 <= icount s -> icount s + Z.of_nat n <= 2147483647 ->
  (forall a, same a (enter_int i 65535 (a_ip 65535 (a_cs 65535 (ar s)))) -> reaches (port_in E) f n (fun a => magic a /\ P a) a) -> (n < fuel)%nat ->
  exists s', call_int E fuel i s = Ok tt s' /\ P (ar s').
Proof. intros [Hc Hs] Hr M H0 Hi HR Hf. destruct (program_call_int E base f Hc Hs n i P s fuel Hr M H0 Hi HR Hf) as (s' & Hx & HP & _). eauto. Qed.
End C72.

Lemma demo_machine regs fl m bs : demo_ok regs fl m bs = true -> machine demo_env HB (ar (demo regs fl m bs)).
Proof.
  intros H. constructor; [apply demo_flat, H|apply demo_wf, H|]. intros x b Hx.
  pose proof (demo_wf_state regs fl m bs H) as [_ W _ _ _]. eapply W, Hx.
Qed.
Lemma demo_services : services_ok demo_env HB (fun _ _ a => a).
Proof. split; [apply demo_callbacks|auto]. Qed.

(** A handler for INT 21h at 1000:0100: INC AX; IRET. *)
Example C72_case : let s := demo [5; 0; 0; 0; 0x800; 0; 0; 0] 2 (blist 0x84 [0; 1; 0; 0x10]) [0x40; 0xCF] in
  machine demo_env HB (ar s) /\
  (forall a, same a (enter_int 0x21 65535 (a_ip 65535 (a_cs 65535 (ar s)))) ->
     reaches (port_in demo_env) (fun _ _ a => a) 2 (fun a => magic a /\ reg 16 AX a = 6 /\ reg 16 SP a = 0x800) a) /\
  exists s', call_int demo_env 3 0x21 s = Ok tt s' /\ reg 16 AX (ar s') = 6 /\ reg 16 SP (ar s') = 0x800.
Proof.
  cbv zeta. set (s := demo _ _ _ _). assert (M : machine demo_env HB (ar s)) by (apply demo_machine; reflexivity).
  split; [exact M|]. match goal with |- ?A /\ _ => assert (R : A) end.
  { assert (M0 : machine demo_env HB (a_ip 65535 (a_cs 65535 (ar s)))).
    { destruct M as [[A0 A1 A2 A3] [] B1]. constructor; [constructor; auto|constructor; auto; cbn; unfold inrange; lia|exact B1]. }
    pose proof (machine_enter_int demo_env HB (fun _ _ a => a) (fun _ _ _ H => H) 0x21 65535 _ ltac:(lia) M0) as Me.
    assert (C0 : code (enter_int 0x21 65535 (a_ip 65535 (a_cs 65535 (ar s)))) [0x40; 0xCF]).
    { split; [vm_compute; discriminate|]. intros i b Hi. destruct i as [|[|i]]; [| |destruct i; discriminate]; injection Hi as <-; vm_compute; reflexivity. }
    assert (G : r_cs (enter_int 0x21 65535 (a_ip 65535 (a_cs 65535 (ar s)))) = 0x1000 /\ r_ip (enter_int 0x21 65535 (a_ip 65535 (a_cs 65535 (ar s)))) = 0x100 /\
      reg 16 AX (enter_int 0x21 65535 (a_ip 65535 (a_cs 65535 (ar s)))) = 5 /\ reg 16 SP (enter_int 0x21 65535 (a_ip 65535 (a_cs 65535 (ar s)))) = 0x7FA /\
      r_ss (enter_int 0x21 65535 (a_ip 65535 (a_cs 65535 (ar s)))) = 0x3000 /\
      mem 16 (enter_int 0x21 65535 (a_ip 65535 (a_cs 65535 (ar s)))) 0x307FA = 65535 /\ mem 16 (enter_int 0x21 65535 (a_ip 65535 (a_cs 65535 (ar s)))) 0x307FC = 65535)
      by (repeat split; vm_compute; reflexivity).
    clearbody s. intros a S. generalize dependent (enter_int 0x21 65535 (a_ip 65535 (a_cs 65535 (ar s)))). intros e Me C0 (G1 & G2 & G3 & G4 & G5 & G6 & G7) S.
    assert (Sv : forall (h n : Z) (a : arch), machine demo_env HB a -> machine demo_env HB a) by auto.
    pose proof (machine_same _ _ _ _ S Me) as Ma.
    assert (Ca : code a [0x40]).
    { apply (same_code _ _ _ (same_sym _ _ S)). destruct C0 as [L C0]. split; [unfold blen in *; cbn [length] in *; lia|]. intros i b Hi. destruct i as [|i]; [apply (C0 0%nat); exact Hi|destruct i; discriminate]. }
    assert (Fa : r_cs a = 0x1000 /\ r_ip a = 0x100) by (rewrite (sm_cs _ _ S), (sm_ip _ _ S); auto).
    set (g := snd (spec_inc 16 5 (r_flags a))).
    assert (Ef : unary_effect U_INC 16 (RReg 0) a = with_reg 16 0 6 (a_flags g a)).
    { unfold unary_effect. cbn [spec_unary rd_rm wr_rm]. unfold g, spec_inc. cbn [snd]. rewrite (same_reg _ _ 16 0 S). change AX with 0 in G3. rewrite G3. reflexivity. }
    pose proof (I_unary (port_in demo_env) (fun _ _ a => a) (mkPfx None false false 0) (blen [0x40]) a [0x40] U_INC 16 (RReg 0) eq_refl ltac:(discriminate) I) as HIs.
    rewrite Ef in HIs.
    apply (reach_one demo_env HB (fun _ _ a => a) Sv 1 _ a [0x40] (a_ip (fallthrough (blen [0x40]) a) (with_reg 16 0 6 (a_flags g a))) Ma); [destruct Fa as [Q1 Q2]; unfold normal_pc; lia|exact Ca|exact HIs| |].
    { apply not_null; [exact Ca|discriminate|]. unfold byte, host. cbn [a_ip hmem mtab]. rewrite wreg_hmem, wreg_mtab. reflexivity. }
    intros a2 S2 M2.
    assert (K : forall x, byte a2 x = byte e x).
    { intros x. rewrite (same_byte _ _ x S2), <- (same_byte _ _ x S). unfold byte, host. cbn [a_ip hmem mtab]. rewrite wreg_hmem, wreg_mtab. reflexivity. }
    assert (F2 : r_cs a2 = 0x1000 /\ r_ip a2 = 0x101 /\ r_ss a2 = 0x3000 /\ reg 16 SP a2 = 0x7FA /\ reg 16 AX a2 = 6).
    { rewrite (sm_cs _ _ S2), (sm_ip _ _ S2), (sm_ss _ _ S2), !(same_reg _ _ 16 _ S2). cbn [a_ip r_cs r_ip r_ss]. change (reg 16 ?r (a_ip ?i ?b)) with (reg 16 r b).
      rewrite reg16_other, reg16_same by (unfold inrange; lia). rewrite wreg_cs, wreg_ss. cbn [a_flags r_cs r_ss]. change (reg 16 4 (a_flags g a)) with (reg 16 4 a).
      rewrite (same_reg _ _ 16 4 S), (sm_ss _ _ S). destruct Fa as [Fa1 Fa2]. rewrite Fa1. unfold fallthrough. rewrite Fa2. auto. }
    destruct F2 as (H1 & H2 & H3 & H4 & H5).
    assert (C2 : code a2 [0xCF]).
    { destruct C0 as [L C0]. split; [rewrite H2; vm_compute; discriminate|]. intros i b Hi. destruct i as [|i]; [|destruct i; discriminate]. rewrite K. rewrite <- (C0 1%nat b Hi). unfold pc, lin. rewrite G1, G2, H1, H2. reflexivity. }
    pose proof (I_jump (port_in demo_env) (fun _ _ a => a) (mkPfx None false false 0) (blen [0xCF]) a2 [0xCF] (iret a2) eq_refl I) as HI2.
    apply (reach_one demo_env HB (fun _ _ a => a) Sv 0 _ a2 [0xCF] (iret a2) M2); [unfold normal_pc; lia|exact C2|exact HI2| |].
    { apply not_null; [exact C2|discriminate|]. unfold iret, far, drop. cbv zeta. unfold byte, host. cbn [a_ip a_flags a_cs hmem mtab]. rewrite !wreg_hmem, !wreg_mtab. reflexivity. }
    intros a3 S3 M3. cbn [reaches]. unfold iret, far in S3. cbv zeta in S3. rewrite !drop_drop in S3.
    assert (T : forall x, mem 16 a2 x = mem 16 e x) by (intros x; apply mem16_ext; apply K).
    split; [split|split].
    - rewrite (sm_cs _ _ S3). cbn [a_flags a_cs a_ip r_cs]. unfold top16, drop. rewrite mem_wreg, wreg_ss, reg16_same by (try apply low_range; auto with width; lia). rewrite T, H3, H4. exact G7.
    - rewrite (sm_ip _ _ S3). cbn [a_flags a_cs a_ip r_ip]. unfold top16. rewrite T, H3, H4. exact G6.
    - rewrite (same_reg _ _ 16 0 S3). change (reg 16 0 (a_flags ?v (a_cs ?c (a_ip ?i ?b)))) with (reg 16 0 b). unfold drop. rewrite reg16_other by (try apply low_range; auto with width; lia). exact H5.
    - rewrite (same_reg _ _ 16 4 S3). change (reg 16 4 (a_flags ?v (a_cs ?c (a_ip ?i ?b)))) with (reg 16 4 b). rewrite drop_sp. change 4 with SP. rewrite H4. reflexivity. }
  split; [exact R|]. apply (C72_call_int demo_env HB (fun _ _ a => a) 0x21 2 (fun a => reg 16 AX a = 6 /\ reg 16 SP a = 0x800) s 3); auto; try lia; [apply demo_services| |]; cbn; lia.
Qed.

(** ** C73 *)
Theorem C73_add E base f n s : services_ok E base f -> machine E base (ar s) -> 0 <= icount s -> icount s + 1 + 7 * Z.of_nat n <= 2147483647 ->
  words_ready add_words n (ar s) -> let a := ar s in
  exists s', let a' := ar s' in runs E (1 + 7 * n) s s' /\ words_done add_words n a a' /\
    number n (lin (r_ds a) (reg 16 DI a)) a' + 65536 ^ Z.of_nat n * b2z (flag CF (r_flags a')) =
    number n (lin (r_ds a) (reg 16 DI a)) a + number n (lin (r_ds a) (reg 16 SI a)) a.
Proof.
  intros [Hc Hs] M H0 Hi W. cbv zeta. destruct (words_run E base f false n s Hc Hs M H0 Hi W) as (s' & Hr & _ & HD & HN).
  exists s'. split; [exact Hr|]. split; [exact HD|]. cbv zeta in HN. unfold sg in HN. lia.
Qed.
Theorem C73_sub E base f n s : services_ok E base f -> machine E base (ar s) -> 0 <= icount s -> icount s + 1 + 7 * Z.of_nat n <= 2147483647 ->
  words_ready sub_words n (ar s) -> let a := ar s in
  exists s', let a' := ar s' in runs E (1 + 7 * n) s s' /\ words_done sub_words n a a' /\
    number n (lin (r_ds a) (reg 16 DI a)) a' - 65536 ^ Z.of_nat n * b2z (flag CF (r_flags a')) =
    number n (lin (r_ds a) (reg 16 DI a)) a - number n (lin (r_ds a) (reg 16 SI a)) a.
Proof.
  intros [Hc Hs] M H0 Hi W. cbv zeta. destruct (words_run E base f true n s Hc Hs M H0 Hi W) as (s' & Hr & _ & HD & HN).
  exists s'. split; [exact Hr|]. split; [exact HD|]. cbv zeta in HN. unfold sg in HN. lia.
Qed.
Example C73_case : let s := demo [0; 100; 0; 0; 0; 0; 0x200; 0x400] 3 (blist 0x20200 [1; 2; 3; 4; 5; 6] ++ blist 0x20400 [255; 255; 255; 255; 255; 255]) add_words in
  services_ok demo_env HB (fun _ _ a => a) /\ machine demo_env HB (ar s) /\ 0 <= icount s /\ icount s + 1 + 7 * Z.of_nat 100 <= 2147483647 /\
  words_ready add_words 100 (ar s) /\ number 100 0x20200 (ar s) = 0x060504030201 /\ number 100 0x20400 (ar s) = 0xFFFFFFFFFFFF.
Proof.
  cbv zeta. split; [apply demo_services|]. split; [apply demo_machine; reflexivity|]. split; [cbn; lia|]. split; [cbn; lia|].
  split; [|split; vm_compute; reflexivity]. constructor.
  - apply (demo_fetched demo_env _ 3 _ [] (mkPfx None false false 0)); reflexivity.
  - vm_compute. discriminate.
  - vm_compute. reflexivity.
  - lia.
  - vm_compute. reflexivity.
  - vm_compute. reflexivity.
  - split; vm_compute; discriminate.
  - right. vm_compute. discriminate.
  - right. vm_compute. discriminate.
Qed.
(** With doublewords (operand-size prefix) the subtraction loop goes wrong: CF is lost in SBB when a borrow meets the source doubleword
    FFFFFFFFh.  Three doublewords: 00000001_00000000_00000000 - 00000000_FFFFFFFF_00000001 leaves its top doubleword 1 instead of 0.
    The program is the doubleword version of [sub_words] (advancing SI and DI with LEA) followed by JMP FFFF:FFFF, run with RME_Call. *)
Definition sub_dwords : list Z := [0xF8; 0x66; 0x8B; 0x04; 0x66; 0x19; 0x05; 0x8D; 0x74; 0x04; 0x8D; 0x7D; 0x04; 0xE2; 0xF2; 0xEA; 0xFF; 0xFF; 0xFF; 0xFF].
Theorem C73_dwords_refuted : let s := demo [0; 3; 0; 0; 0; 0; 0x200; 0x400] 2 (blist 0x20200 [1; 0; 0; 0; 255; 255; 255; 255] ++ [(0x20408, 1)]) sub_dwords in
  number 6 0x20400 (ar s) = 2 ^ 64 /\ number 6 0x20200 (ar s) = 0xFFFFFFFF00000001 /\
  exists s', rme_call demo_env 30 s = Ok tt s' /\ number 6 0x20400 (ar s') <> 2 ^ 64 - 0xFFFFFFFF00000001.
Proof.
  cbv zeta. split; [vm_compute; reflexivity|]. split; [vm_compute; reflexivity|].
  match goal with |- exists s', rme_call _ _ ?S = _ /\ _ =>
    destruct (okb_ex (rme_call demo_env 30 S) (fun s' => number 6 0x20400 (ar s') =? 2 ^ 64 + 0xFFFFFFFF) ltac:(vm_compute; reflexivity)) as (s' & H & H1) end.
  exists s'. split; [exact H|]. apply Z.eqb_eq in H1. rewrite H1. vm_compute. discriminate.
Qed.
Print Assumptions C72_program. Print Assumptions C72_call. Print Assumptions C72_call_int. Print Assumptions C73_add. Print Assumptions C73_sub. Print Assumptions C73_dwords_refuted.
