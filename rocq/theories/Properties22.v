(** Property theorems C14, C48, C50, C46: what happens at every operand address, also where it is not the manual's. *)
From Verif Require Import Base Cpu Alu Ops Machine Spec SpecOps SpecOps2 SpecSys SpecRun SpecStop SpecEa PBase PMem PRun PFrame PAlu PExec PIAlu PStep PStop PStop2 PEa PEa2 PEa3 PEa4 Demo.

Definition np : pfx := mkPfx None false false 0.
Definition p67 : pfx := mkPfx None false true 0.
Definition p6667 : pfx := mkPfx None true true 0.

(** ** C14, C48: the address the emulator uses, for every form of the ModR/M byte ([SpecEa]); MOV, XCHG, ALU and TEST with it. *)
Theorem C14_real_address E base s pre p op t rg x a' : fetched E base s pre p (op :: t) ->
  real_address p (ar s) t = Some (rg, x, []) ->
  (Z.odd op = true -> x mod 4096 <> 4095) -> x + (if Z.odd op then osz p else 8) / 8 <= map_size ->
  on_memory p op rg x (ar s) = Some a' -> executes E s (pre ++ op :: t) a'.
Proof. intros Hf Hr Hn Hx Ha. exact (real_operand E base s pre p op t rg x a' Hf Hr Hn Hx Ha). Qed.
(** It is the manual's address in the supported cases. *)
Theorem C14_real_agrees E base s pre p op t rg sg o rest : fetched E base s pre p (op :: t) ->
  parse_rm p (ar s) t = Some (rg, RMem sg o, rest) -> ea_supported p (ar s) t -> real_address p (ar s) t = Some (rg, 16 * sg + o, rest).
Proof.
  intros Hf Hr Hs. destruct (instr_ctx _ _ _ _ _ _ _ Hf) as (_ & _ & _ & C & _). exact (real_agrees E base s pre p (op :: t) t rg sg o rest _ Hf C Hr Hs).
Qed.
(** ADD [BX+SI],AX with BX = FFFF, SI = 2 works on DS:0000 + 10001. *)
Example C14_real_case : let bs := [0x01; 0x00] in let s := demo [5; 0; 0; 0xFFFF; 0; 0; 2] 2 [(0x2000 * 16 + 0x10001, 0x66)] bs in
  fetched demo_env HB s [] np bs /\ real_address np (ar s) [0x00] = Some (0, 0x30001, []) /\
  (exists a', on_memory np 0x01 0 0x30001 (ar s) = Some a' /\ mem 16 a' 0x30001 = 0x6B) /\
  exists s', run_one demo_env s = Ok tt s' /\ mem 16 (ar s') 0x30001 = 0x6B.
Proof.
  cbv zeta. split; [apply (demo_fetched demo_env _ 2 _ []); reflexivity|]. split; [vm_compute; reflexivity|].
  split; [eexists; split; [reflexivity|vm_compute; reflexivity]|].
  match goal with |- exists s', ?r = _ /\ _ => destruct (okb_ex r (fun s => mem 16 (ar s) 0x30001 =? 0x6B)) as (s' & H1 & H2); [vm_compute; reflexivity|] end.
  exists s'. split; [exact H1|lia].
Qed.

(** ** C48: LEA stores the offset formed, cut to the operand size, for every form of the ModR/M byte. *)
Theorem C48_real_lea E base s pre p b u o : fetched E base s pre p (0x8D :: b :: u) -> b / 64 <> 3 ->
  real_offset p (b / 64) (b mod 8) (ar s) u = Some (o, []) ->
  executes E s (pre ++ 0x8D :: b :: u) (with_reg (osz p) ((b / 8) mod 8) (low (osz p) o) (ar s)).
Proof. exact (real_lea E base s pre p b u o). Qed.
(** LEA EAX,[EBX+ECX+8] as the assembler writes it, 8D 44 0B 08: the byte 0B is taken as displacement, 08 as the SIB byte. *)
Example C48_real_case : let s := demo [0x1000; 0x20; 0; 0x300] 2 [] [0x66; 0x67; 0x8D; 0x44; 0x0B; 0x08] in
  fetched demo_env HB s [0x66; 0x67] p6667 [0x8D; 0x44; 0x0B; 0x08] /\
  real_offset p6667 1 4 (ar s) [0x0B; 0x08] = Some (0x102B, []) /\
  exists s', run_one demo_env s = Ok tt s' /\ reg 32 AX (ar s') = 0x102B.
Proof.
  cbv zeta. split; [apply (demo_fetched demo_env _ 2 _ [0x66; 0x67]); reflexivity|]. split; [vm_compute; reflexivity|].
  match goal with |- exists s', ?r = _ /\ _ => destruct (okb_ex r (fun s => reg 32 AX (ar s) =? 0x102B)) as (s' & H1 & H2); [vm_compute; reflexivity|] end.
  exists s'. split; [exact H1|lia].
Qed.

(** ** C46: an operand outside the map is an array access out of bounds, for every instruction that uses it. *)
Theorem C46_outside E base s pre p bs wide t rg x rest : fetched E base s pre p bs -> has_modrm bs = Some (wide, t) ->
  real_address p (ar s) t = Some (rg, x, rest) -> map_size <= x -> (wide = true -> x mod 4096 <> 4095) ->
  no_pointer bs = false -> invalid_form bs = false -> unsupported_form p bs = false -> imul_wide p bs = false -> sreg_exists bs ->
  run_one E s = UB UbMapIndex.
Proof.
  intros Hf Hm Hr Hx Hw Hn Hi Hu Hiw Hg. destruct wide.
  - assert (Hfi : far_indirect bs = false).
    { destruct bs as [|op q]; [reflexivity|]. unfold far_indirect. destruct (Z.eqb_spec op 255) as [->|]; [|reflexivity].
      cbn [no_pointer Z.eqb Pos.eqb orb andb] in Hn. unfold mem_z. cbn [existsb andb]. rewrite orb_false_r. exact Hn. }
    pose proof (wide_far E base s pre p bs t rg x rest Hf Hm Hr (or_intror Hx) Hi Hu Hiw Hfi Hg) as H.
    replace (x mod 4096 =? 4095) with false in H by (specialize (Hw eq_refl); lia). exact H.
  - apply (narrow_far E base s pre p bs t rg x rest Hf Hm Hr Hx Hn Hi).
    intros op q -> ->. discriminate Hn.
Qed.
Example C46_outside_case : let bs := [0x02; 0x03] in let s := demo [0; 0; 0; 0x200000] 2 [] (0x67 :: bs) in
  fetched demo_env HB s [0x67] p67 bs /\ has_modrm bs = Some (false, [0x03]) /\ real_address p67 (ar s) [0x03] = Some (0, 0x220000, []) /\ map_size <= 0x220000 /\
  no_pointer bs = false /\ run_one demo_env s = UB UbMapIndex.
Proof.
  cbv zeta. split; [apply (demo_fetched demo_env _ 2 _ [0x67]); reflexivity|]. split; [reflexivity|]. split; [vm_compute; reflexivity|]. split; [vm_compute; discriminate|].
  split; [reflexivity|]. apply is_ub_eq. vm_compute. reflexivity.
Qed.

(** ** C50 by the real address: a word operand on the last byte of any 4 KiB block (inside the map or not) is refused without effect. *)
Theorem C50_real_block_end E base s pre p bs t rg x rest : fetched E base s pre p bs -> has_modrm bs = Some (true, t) ->
  real_address p (ar s) t = Some (rg, x, rest) -> x mod 4096 = 4095 ->
  invalid_form bs = false -> unsupported_form p bs = false -> imul_wide p bs = false -> far_indirect bs = false -> sreg_exists bs ->
  stops E s E_BADMEM.
Proof.
  intros Hf Hm Hr Hx Hi Hu Hiw Hfi Hg. pose proof (wide_far E base s pre p bs t rg x rest Hf Hm Hr (or_introl Hx) Hi Hu Hiw Hfi Hg) as H.
  replace (x mod 4096 =? 4095) with true in H by lia. exact H.
Qed.
Example C50_real_case : let bs := [0x01; 0x00] in let s := demo [5; 0; 0; 0xFFFF; 0; 0; 0x1000] 2 [] bs in
  fetched demo_env HB s [] np bs /\ has_modrm bs = Some (true, [0x00]) /\ real_address np (ar s) [0x00] = Some (0, 0x30FFF, []) /\ 0x30FFF mod 4096 = 4095 /\
  invalid_form bs = false /\ unsupported_form np bs = false /\ imul_wide np bs = false /\ far_indirect bs = false /\ sreg_exists bs /\ ~ ea_supported np (ar s) [0x00].
Proof.
  cbv zeta. split; [apply (demo_fetched demo_env _ 2 _ []); reflexivity|]. split; [reflexivity|]. split; [vm_compute; reflexivity|]. split; [reflexivity|].
  split; [reflexivity|]. split; [reflexivity|]. split; [reflexivity|]. split; [reflexivity|]. split; [discriminate|].
  intros H. assert (X : 0 / 64 <> 3) by discriminate. specialize (H X). destruct H as [H _]. revert H. vm_compute. intros [_ H]. discriminate H.
Qed.
Print Assumptions C14_real_address. Print Assumptions C14_real_agrees. Print Assumptions C48_real_lea. Print Assumptions C46_outside. Print Assumptions C50_real_block_end.
