(** Property theorems C50, C51: instructions refused without any effect. *)
From Verif Require Import Base Cpu Alu Ops Machine Spec SpecOps SpecOps2 SpecSys SpecRun SpecTop SpecStop PBase PMem PRun PFrame PExec PStop2 Demo.

Definition np : pfx := mkPfx None false false 0.
Definition p66 : pfx := mkPfx None true false 0.

(** ** C50: a word or doubleword ModR/M operand that starts on the last byte of a 4 KiB block. *)
Theorem C50_block_end E base s pre p bs t rg sg o rest : fetched E base s pre p bs ->
  has_modrm bs = Some (true, t) -> parse_rm p (ar s) t = Some (rg, RMem sg o, rest) -> ea_supported p (ar s) t ->
  lin sg o mod 4096 = 4095 ->
  invalid_form bs = false -> unsupported_form p bs = false -> imul_wide p bs = false -> far_indirect bs = false -> sreg_exists bs ->
  stops E s E_BADMEM.
Proof. exact (block_end_stops E base s pre p bs t rg sg o rest). Qed.
(** ADD [BX],AX with DS:BX = 2000:0FFF. *)
Example C50_case : let bs := [0x01; 0x07] in let s := demo [5; 0; 0; 0xFFF] 2 [] bs in
  fetched demo_env HB s [] np bs /\ has_modrm bs = Some (true, [0x07]) /\ parse_rm np (ar s) [0x07] = Some (0, RMem 0x2000 0xFFF, []) /\
  ea_supported np (ar s) [0x07] /\ lin 0x2000 0xFFF mod 4096 = 4095 /\
  invalid_form bs = false /\ unsupported_form np bs = false /\ imul_wide np bs = false /\ far_indirect bs = false /\ sreg_exists bs.
Proof.
  cbv zeta. split; [apply (demo_fetched demo_env _ 2 _ []); reflexivity|]. split; [reflexivity|]. split; [vm_compute; reflexivity|].
  split; [|split; [reflexivity|]]; [|repeat split; discriminate].
  intros _. cbn [np p_as]. split; [vm_compute; split; congruence|]. intros _ [H|H]; cbn in H; lia.
Qed.
(** One byte lower the same instruction works. *)
Example C50_case_ok : let s := demo [5; 0; 0; 0xFFE] 2 [] [0x01; 0x07] in exists s', run_one demo_env s = Ok tt s' /\ byte (ar s') 0x20FFE = 5.
Proof.
  cbv zeta. match goal with |- exists s', ?r = _ /\ _ => destruct (okb_ex r (fun s' => byte (ar s') 0x20FFE =? 5)) as (s' & H1 & H2); [vm_compute; reflexivity|] end.
  exists s'. split; [exact H1|lia].
Qed.
Print Assumptions C50_block_end.

(** ** C51: invalid and unsupported encodings of implemented opcodes. *)
Theorem C51_invalid E base s pre p bs : fetched E base s pre p bs -> modrm_read bs -> invalid_form bs = true -> stops E s E_UNDEF.
Proof. exact (invalid_stops E base s pre p bs). Qed.
Theorem C51_grp3_invalid E base s pre p op t rg r rest : fetched E base s pre p (op :: t) -> op = 0xF6 \/ op = 0xF7 ->
  parse_rm p (ar s) t = Some (rg, r, rest) -> operand_ok p (ar s) (op :: t) -> reg_field t = 1 -> stops E s E_UNDEF.
Proof. exact (grp3_invalid_stops E base s pre p op t rg r rest). Qed.
Theorem C51_unsupported E base s pre p bs : fetched E base s pre p bs -> modrm_read bs -> unsupported_form p bs = true -> stops E s E_UNDEF.
Proof. exact (unsupported_stops E base s pre p bs). Qed.
Theorem C51_imul_wide E base s pre p bs : fetched E base s pre p bs -> imul_wide p bs = true -> stops E s E_BUG.
Proof. exact (imul_wide_stops E base s pre p bs). Qed.
(** LEA AX,BX; CALL FAR AX; 66 MOV EAX,DS; IMUL EAX,EBX,5; F7 /1 on BX. *)
Example C51_case1 : let bs := [0x8D; 0xC3] in fetched demo_env HB (demo [1] 2 [] bs) [] np bs /\ modrm_read bs /\ invalid_form bs = true.
Proof. cbv zeta. split; [apply (demo_fetched demo_env _ 2 _ []); reflexivity|]. split; [exact I|reflexivity]. Qed.
Example C51_case2 : let bs := [0xFF; 0xD8] in fetched demo_env HB (demo [1] 2 [] bs) [] np bs /\ modrm_read bs /\ invalid_form bs = true.
Proof. cbv zeta. split; [apply (demo_fetched demo_env _ 2 _ []); reflexivity|]. split; [exact I|reflexivity]. Qed.
Example C51_case3 : let bs := [0x8C; 0xD8] in fetched demo_env HB (demo [1] 2 [] (0x66 :: bs)) [0x66] p66 bs /\ modrm_read bs /\ unsupported_form p66 bs = true.
Proof. cbv zeta. split; [apply (demo_fetched demo_env _ 2 _ [0x66]); reflexivity|]. split; [exact I|reflexivity]. Qed.
Example C51_case4 : let bs := [0x6B; 0xC3; 5] in fetched demo_env HB (demo [1] 2 [] (0x66 :: bs)) [0x66] p66 bs /\ imul_wide p66 bs = true.
Proof. cbv zeta. split; [apply (demo_fetched demo_env _ 2 _ [0x66]); reflexivity|reflexivity]. Qed.
Example C51_case5 : let t := [0xCB] in let s := demo [1] 2 [] (0xF7 :: t) in fetched demo_env HB s [] np (0xF7 :: t) /\
  parse_rm np (ar s) t = Some (1, RReg 3, []) /\ operand_ok np (ar s) (0xF7 :: t) /\ reg_field t = 1.
Proof.
  cbv zeta. split; [apply (demo_fetched demo_env _ 2 _ []); reflexivity|]. split; [vm_compute; reflexivity|]. split; [|reflexivity].
  split; [intros H; exfalso; apply H; reflexivity|intros; exact I].
Qed.
Print Assumptions C51_invalid. Print Assumptions C51_grp3_invalid. Print Assumptions C51_unsupported. Print Assumptions C51_imul_wide.
