(** Property theorems C48: 32-bit effective addresses (prefix 67). *)
From Verif Require Import Base Cpu Alu Ops Machine Spec SpecOps SpecOps2 SpecSys SpecRun SpecTop PBase PMem PRun PFrame PExec PStep PIMov PSmall PSmall2 Demo.

Definition p67 : pfx := mkPfx None false true 0.
Definition p6667 : pfx := mkPfx None true true 0.
Ltac witness t := match goal with |- exists s', ?r = _ /\ _ => destruct (okb_ex r t) as (s' & H1 & H2); [vm_compute; reflexivity|]; exists s'; split; [exact H1|] end.

(** ** C48.  [parse_rm] with prefix 67 gives segment and offset by the 32-bit table of the manual
    ([ea32]); loads and stores use them for the forms in [ea32_supported]. *)
Theorem C48_load_partial E base s pre p t rg sg o : fetched E base s pre p (0x8A :: t) -> p_as p = true ->
  parse_rm p (ar s) t = Some (rg, RMem sg o, []) -> ea_supported p (ar s) t ->
  executes E s (pre ++ 0x8A :: t) (with_reg 8 rg (byte (ar s) (16 * sg + o)) (ar s)).
Proof. intros Hf _. exact (ea_load E base s pre p t rg sg o Hf). Qed.
Theorem C48_store_partial E base s pre p t rg sg o : fetched E base s pre p (0x88 :: t) -> p_as p = true ->
  parse_rm p (ar s) t = Some (rg, RMem sg o, []) -> ea_supported p (ar s) t ->
  executes E s (pre ++ 0x88 :: t) (with_mem 8 (16 * sg + o) (reg 8 rg (ar s)) (ar s)).
Proof. intros Hf _. exact (ea_store E base s pre p t rg sg o Hf). Qed.
(** LEA: needs no condition on segment or range. *)
Theorem C48_lea_partial E base s pre p t rg o : fetched E base s pre p (0x8D :: t) -> p_as p = true ->
  lea_offset p (ar s) t = Some (rg, o) -> lea_supported p (ar s) t ->
  executes E s (pre ++ 0x8D :: t) (with_reg (osz p) rg (o mod 2 ^ osz p) (ar s)).
Proof. intros Hf _. exact (lea_instr E base s pre p t rg o Hf). Qed.
(** MOV CL,[EBX+EDX*8]; MOV CL,[EDI+1234h] (disp32). *)
Example C48_case : let bs := [0x8A; 0x0C; 0xD3] in let s := demo [0; 0; 0x100; 0x20] 2 [] (0x67 :: bs) in
  fetched demo_env HB s [0x67] p67 bs /\ parse_rm p67 (ar s) [0x0C; 0xD3] = Some (1, RMem 0x2000 0x820, []) /\ ea_supported p67 (ar s) [0x0C; 0xD3].
Proof.
  cbv zeta. split; [apply (demo_fetched demo_env _ 2 _ [0x67]); reflexivity|]. split; [vm_compute; reflexivity|].
  intros _. split; [|split].
  - intros _. split; [reflexivity|]. intros H. vm_compute in H. discriminate.
  - intros H. exfalso. apply H. reflexivity.
  - intros _ [H|[H _]]; [vm_compute in H; discriminate|exfalso; apply H; reflexivity].
Qed.
Example C48_case2 : let bs := [0x88; 0x8F; 0x34; 0x12; 0; 0] in let s := demo [0; 0; 0; 0; 0; 0; 0; 0x20] 2 [] (0x67 :: bs) in
  fetched demo_env HB s [0x67] p67 bs /\ parse_rm p67 (ar s) [0x8F; 0x34; 0x12; 0; 0] = Some (1, RMem 0x2000 0x1254, []) /\ ea_supported p67 (ar s) [0x8F; 0x34; 0x12; 0; 0].
Proof.
  cbv zeta. split; [apply (demo_fetched demo_env _ 2 _ [0x67]); reflexivity|]. split; [vm_compute; reflexivity|].
  intros _. split; [|split].
  - intros H. vm_compute in H. discriminate.
  - intros _. vm_compute. split; congruence.
  - intros _ [H|[_ H]]; vm_compute in H; [discriminate|lia].
Qed.
Example C48_case_lea : let bs := [0x8D; 0x04; 0x8B] in let s := demo [0; 0x30000; 0; 0x12345678] 2 [] ([0x66; 0x67] ++ bs) in
  fetched demo_env HB s [0x66; 0x67] p6667 bs /\ lea_offset p6667 (ar s) [0x04; 0x8B] = Some (0, 0x12405678) /\ lea_supported p6667 (ar s) [0x04; 0x8B].
Proof.
  cbv zeta. split; [apply (demo_fetched demo_env _ 2 _ [0x66; 0x67]); reflexivity|]. split; [vm_compute; reflexivity|].
  split; [intros _; split; [reflexivity|intros H; vm_compute in H; discriminate]|intros _ H; vm_compute in H; congruence].
Qed.
(** The full claim is false. *)
(** LEA EAX,[EBX+ECX+8] (66 67 8D 44 0B 08): the displacement is read before the SIB byte, giving EAX+ECX+0Bh. *)
Theorem C48_sib_disp_refuted : let s := demo [0x1000; 0x20; 0; 0x300] 2 [] [0x66; 0x67; 0x8D; 0x44; 0x0B; 0x08] in
  lea_offset p6667 (ar s) [0x44; 0x0B; 0x08] = Some (0, 0x328) /\
  exists s', run_one demo_env s = Ok tt s' /\ reg 32 0 (ar s') = 0x102B.
Proof. cbv zeta. split; [vm_compute; reflexivity|]. witness (fun s => reg 32 0 (ar s) =? 0x102B). apply Z.eqb_eq, H2. Qed.
(** LEA EAX,[EBX-2]: 65534 is added. *)
Theorem C48_negative_refuted : let s := demo [0; 0; 0; 0x300] 2 [] [0x66; 0x67; 0x8D; 0x43; 0xFE] in
  lea_offset p6667 (ar s) [0x43; 0xFE] = Some (0, 0x2FE) /\
  exists s', run_one demo_env s = Ok tt s' /\ reg 32 0 (ar s') = 0x102FE.
Proof. cbv zeta. split; [vm_compute; reflexivity|]. witness (fun s => reg 32 0 (ar s) =? 0x102FE). apply Z.eqb_eq, H2. Qed.
(** LEA EAX,[EBX+12345678h]: only the low half of the displacement is added. *)
Theorem C48_disp32_refuted : let s := demo [0; 0; 0; 0x300] 2 [] [0x66; 0x67; 0x8D; 0x83; 0x78; 0x56; 0x34; 0x12] in
  lea_offset p6667 (ar s) [0x83; 0x78; 0x56; 0x34; 0x12] = Some (0, 0x12345978) /\
  exists s', run_one demo_env s = Ok tt s' /\ reg 32 0 (ar s') = 0x5978.
Proof. cbv zeta. split; [vm_compute; reflexivity|]. witness (fun s => reg 32 0 (ar s) =? 0x5978). apply Z.eqb_eq, H2. Qed.
(** LEA EAX,[ECX*4+100h]: the displacement is dropped. *)
Theorem C48_index_disp_refuted : let s := demo [0; 0x20] 2 [] [0x66; 0x67; 0x8D; 0x04; 0x8D; 0; 1; 0; 0] in
  lea_offset p6667 (ar s) [0x04; 0x8D; 0; 1; 0; 0] = Some (0, 0x180) /\
  exists s', run_one demo_env s = Ok tt s' /\ reg 32 0 (ar s') = 0x80.
Proof. cbv zeta. split; [vm_compute; reflexivity|]. witness (fun s => reg 32 0 (ar s) =? 0x80). apply Z.eqb_eq, H2. Qed.
(** MOV AL,[EBP+0] uses DS, MOV AL,[EBX+0] uses SS. *)
Theorem C48_segment_refuted : 
  (let s := demo [0; 0; 0; 0; 0; 0x40] 2 [(0x30040, 0x55); (0x20040, 0x66)] [0x67; 0x8A; 0x45; 0] in
   parse_rm p67 (ar s) [0x45; 0] = Some (0, RMem 0x3000 0x40, []) /\ exists s', run_one demo_env s = Ok tt s' /\ reg 8 0 (ar s') = 0x66) /\
  (let s := demo [0; 0; 0; 0x40] 2 [(0x30040, 0x55); (0x20040, 0x66)] [0x67; 0x8A; 0x43; 0] in
   parse_rm p67 (ar s) [0x43; 0] = Some (0, RMem 0x2000 0x40, []) /\ exists s', run_one demo_env s = Ok tt s' /\ reg 8 0 (ar s') = 0x55).
Proof.
  split; cbv zeta; (split; [vm_compute; reflexivity|]).
  - witness (fun s => reg 8 0 (ar s) =? 0x66). apply Z.eqb_eq, H2.
  - witness (fun s => reg 8 0 (ar s) =? 0x55). apply Z.eqb_eq, H2.
Qed.
Print Assumptions C48_load_partial. Print Assumptions C48_store_partial. Print Assumptions C48_lea_partial. Print Assumptions C48_sib_disp_refuted.
Print Assumptions C48_negative_refuted. Print Assumptions C48_disp32_refuted. Print Assumptions C48_index_disp_refuted. Print Assumptions C48_segment_refuted.
