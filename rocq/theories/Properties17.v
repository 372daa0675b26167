(** Property theorems C68 and following: what a refused instruction leaves behind; footprints. *)
From Verif Require Import Base Cpu Ops Machine Spec SpecOps SpecOps2 SpecSys SpecRun SpecTop SpecStop SpecCodes SpecFoot
  PBase PMem PRun PExec PTop2 PTop3 PStop PStop2 PCodes PFoot PPrecise Demo.
Definition np : pfx := mkPfx None false false 0.

(** ** C68: an instruction that ends with an error code has no effect.
    The whole architectural state: registers, segments, flags, IP, all memory, the port log.  The two ways out:
    the second 00 00 in a row has been executed when the emulator stops; and ENTER with the operand size
    prefix and nesting level 2 or more (refuted below). *)
Theorem C68_refused_no_effect E base s c s' : quiet_host E -> keeps_map E -> flat E base (ar s) -> wf_state s -> run_one E s = Err c s' ->
  lastnull s' = lastnull s /\ (ar s' = ar s \/ (c = E_BREAK /\ lastnull s = true) \/ wide_enter (ar s)).
Proof.
  intros Q KM F W H. destruct (run_precise E base Q KM s c s' F W H) as [K1 K2]. split; [exact K1|].
  destruct K2 as [K2|[K2|(k & A & B & (C1 & C2) & D)]]; [auto|auto|right; right]. exists k. split; [exact A|]. split; [exact B|]. split; [exact D|]. auto.
Qed.
(** The form a caller uses: retrying, or inspecting CS:IP, after an error sees the state before the instruction. *)
Theorem C68_fault_address E base s c s' : quiet_host E -> keeps_map E -> flat E base (ar s) -> wf_state s -> run_one E s = Err c s' ->
  c <> E_BREAK -> ~ opcode_at (ar s) (fun b => b = 0xC8) -> ar s' = ar s.
Proof.
  intros Q KM F W H N1 N2. destruct (C68_refused_no_effect E base s c s' Q KM F W H) as [_ [K|[[K _]|(k & A & B & _ & C1 & _)]]]; [exact K|congruence|].
  exfalso. apply N2. exists k. auto.
Qed.
(** Refuted for ENTER: 66 C8 10 00 02 pushes BP and then reports an undefined opcode. *)
Definition enter_state : st := demo [0; 0; 0; 0; 0x100; 0x1234; 0; 0] 2 [] [0x66; 0xC8; 0x10; 0; 2].
Theorem C68_enter_refuted : exists s', quiet_host demo_env /\ keeps_map demo_env /\ flat demo_env HB (ar enter_state) /\ wf_state enter_state /\ lastnull enter_state = false /\
  run_one demo_env enter_state = Err E_UNDEF s' /\ reg32 4 (ar enter_state) = 0x100 /\ reg32 4 (ar s') = 0xFE /\ byte (ar s') 0x300FE = 0x34 /\ byte (ar enter_state) 0x300FE = 0.
Proof.
  destruct (errb_ex E_UNDEF (run_one demo_env enter_state) (fun s' => (reg32 4 (ar s') =? 0xFE) && (byte (ar s') 0x300FE =? 0x34))) as (s' & H1 & H2); [vm_compute; reflexivity|].
  apply andb_true_iff in H2. destruct H2 as [H2 H3]. apply Z.eqb_eq in H2. apply Z.eqb_eq in H3. exists s'.
  split; [intros h n s; split; [reflexivity|auto]|]. split; [intros h n s; reflexivity|]. split; [apply demo_flat; reflexivity|]. split; [apply demo_wf_state; reflexivity|].
  split; [reflexivity|]. split; [exact H1|]. split; [vm_compute; reflexivity|]. split; [exact H2|]. split; [exact H3|]. vm_compute. reflexivity.
Qed.
(** Refuted when blocks are missing (NULL check compiled in): a push onto an unmapped stack has already
    decremented SP; REP MOVS that runs into an unmapped block has decremented CX but not moved SI, DI. *)
Definition checked : env := mkEnv true false (fun _ _ p => p * 3 + 7) (fun _ _ s => s).
Definition part (k : Z) (regs : list Z) (bs : list Z) : st :=
  mkSt (mkArch (pack regs) 0x3000 0x2000 0x4000 0 0 0x1000 0x100 2 2 (fun b => if b =? k then 0 else HB + 4096 * b) (fun _ => 0) (img (blist pc0 bs)) []) dec0 0 0 false.
Theorem C68_unmapped_push_refuted : exists s', run_one checked (part 0x30 [0; 0; 0; 0; 0x100] [0x50]) = Err E_BADMEM s' /\ reg32 4 (ar s') = 0xFE.
Proof.
  destruct (errb_ex E_BADMEM (run_one checked (part 0x30 [0; 0; 0; 0; 0x100] [0x50])) (fun s' => reg32 4 (ar s') =? 0xFE)) as (s' & H1 & H2); [vm_compute; reflexivity|].
  apply Z.eqb_eq in H2. eauto.
Qed.
Theorem C68_unmapped_movs_refuted : exists s', run_one checked (part 0x41 [0; 8; 0; 0; 0x100; 0; 0; 0xFFD] [0xF3; 0xA4]) = Err E_BADMEM s' /\
  reg32 1 (ar s') = 4 /\ reg32 6 (ar s') = 0 /\ reg32 7 (ar s') = 0xFFD.
Proof.
  destruct (errb_ex E_BADMEM (run_one checked (part 0x41 [0; 8; 0; 0; 0x100; 0; 0; 0xFFD] [0xF3; 0xA4])) (fun s' => (reg32 1 (ar s') =? 4) && (reg32 6 (ar s') =? 0) && (reg32 7 (ar s') =? 0xFFD)))
    as (s' & H1 & H2); [vm_compute; reflexivity|].
  apply andb_true_iff in H2. destruct H2 as [H2 H4]. apply andb_true_iff in H2. destruct H2 as [H2 H3]. apply Z.eqb_eq in H2. apply Z.eqb_eq in H3. apply Z.eqb_eq in H4. eauto.
Qed.
(** A case: DIV-group member that does not exist, after prefixes; nothing changed. *)
Example C68_case : let s := demo [1; 2; 3; 4; 0x100; 6; 7; 8] 2 [] [0x26; 0xF3; 0xF6; 0xC9] in
  quiet_host demo_env /\ keeps_map demo_env /\ flat demo_env HB (ar s) /\ wf_state s /\ (exists s', run_one demo_env s = Err E_UNDEF s' /\ icount s' =? 1 = true).
Proof.
  cbv zeta. split; [intros h n s; split; [reflexivity|auto]|]. split; [intros h n s; reflexivity|]. split; [apply demo_flat; reflexivity|]. split; [apply demo_wf_state; reflexivity|].
  apply (errb_ex E_UNDEF _ (fun s' => icount s' =? 1)). vm_compute. reflexivity.
Qed.
Print Assumptions C68_refused_no_effect. Print Assumptions C68_fault_address. Print Assumptions C68_enter_refuted. Print Assumptions C68_unmapped_push_refuted. Print Assumptions C68_unmapped_movs_refuted.

(** ** C69: footprints.  An instruction changes memory, FLAGS, a segment register or a general register only
    if its opcode is on the list for it - whatever its operands and prefixes, and also when it fails. *)
Definition steps (E : env) (s s' : st) : Prop := run_one E s = Ok tt s' \/ exists c, run_one E s = Err c s'.
Theorem C69_memory E base s s' : quiet_host E -> flat E base (ar s) -> wf_state s -> at_instruction (ar s) -> steps E s s' ->
  hmem (ar s') = hmem (ar s) \/ opcode2_at (ar s) changes_memory.
Proof. intros Q F W A. exact (memory_listed E base Q s s' F W A). Qed.
Theorem C69_flags E base s s' : quiet_host E -> flat E base (ar s) -> wf_state s -> at_instruction (ar s) -> steps E s s' ->
  r_flags (ar s') = r_flags (ar s) \/ opcode2_at (ar s) changes_flags.
Proof. intros Q F W A. exact (flags_listed E base Q s s' F W A). Qed.
Theorem C69_segments E base s s' : quiet_host E -> flat E base (ar s) -> wf_state s -> at_instruction (ar s) -> steps E s s' ->
  (r_es (ar s') = r_es (ar s) \/ opcode2_at (ar s) (changes_segment 0)) /\
  (r_cs (ar s') = r_cs (ar s) \/ opcode2_at (ar s) (changes_segment 1)) /\
  (r_ss (ar s') = r_ss (ar s) \/ opcode2_at (ar s) (changes_segment 2)) /\
  (r_ds (ar s') = r_ds (ar s) \/ opcode2_at (ar s) (changes_segment 3)) /\
  (r_fs (ar s') = r_fs (ar s) \/ opcode2_at (ar s) (changes_segment 4)) /\
  (r_gs (ar s') = r_gs (ar s) \/ opcode2_at (ar s) (changes_segment 5)).
Proof.
  intros Q F W A H. pose proof (segment_listed E base Q s s' F W A H) as K.
  split; [|split; [|split; [|split; [|split]]]].
  - destruct (K 0) as [K1|K1]; [lia|injection K1; auto|auto].
  - destruct (K 1) as [K1|K1]; [lia|injection K1; auto|auto].
  - destruct (K 2) as [K1|K1]; [lia|injection K1; auto|auto].
  - destruct (K 3) as [K1|K1]; [lia|injection K1; auto|auto].
  - destruct (K 4) as [K1|K1]; [lia|injection K1; auto|auto].
  - destruct (K 5) as [K1|K1]; [lia|injection K1; auto|auto].
Qed.
Theorem C69_registers E base s s' r : quiet_host E -> flat E base (ar s) -> wf_state s -> at_instruction (ar s) -> steps E s s' -> 0 <= r < 8 ->
  reg32 r (ar s') = reg32 r (ar s) \/ opcode2_at (ar s) (changes_register r).
Proof. intros Q F W A H. exact (register_listed E base Q s s' F W A H r). Qed.
(** Only INT instructions (through a host callback) can change the CPU type, the block map or the service table. *)
Theorem C69_config E base s s' : quiet_host E -> flat E base (ar s) -> wf_state s -> at_instruction (ar s) -> steps E s s' ->
  config (ar s') = config (ar s) \/ opcode2_at (ar s) (listed ints []).
Proof. intros Q F W A. exact (config_listed E base Q s s' F W A). Qed.
(** The list is not everything: the opcode at CS:IP is determined by memory, and JMP is on none of them. *)
Lemma opcode2_fun a (P : Z -> Z -> Prop) k : 0 <= k -> (forall i, 0 <= i < k -> prefix_byte (ipbyte a i)) -> ~ prefix_byte (ipbyte a k) -> (forall b b2, P b b2 -> ~ prefix_byte b) ->
  opcode2_at a P -> P (ipbyte a k) (ipbyte a (k + 1)).
Proof.
  intros Hk Hp Hn HP (j & Hj & Hpj & H). assert (j = k). { destruct (Z.lt_total j k) as [L|[L|L]]; [|exact L|]; exfalso. - apply (HP _ _ H). apply Hp. lia. - apply Hn, Hpj. lia. }
  subst. exact H.
Qed.
Definition no_prefix (l l0F : list Z) : bool := forallb (fun p => negb (existsb (Z.eqb p) l)) [38; 46; 54; 62; 100; 101; 102; 103; 242; 243].
Lemma listed_opcode l l0F b b2 : no_prefix l l0F = true -> listed l l0F b b2 -> ~ prefix_byte b.
Proof.
  intros H [K|[-> _]] Hb; [|cbv in Hb; lia]. unfold no_prefix in H. rewrite forallb_forall in H. specialize (H b Hb). apply negb_true_iff in H.
  assert (T : existsb (Z.eqb b) l = true) by (apply existsb_exists; exists b; split; [exact K|apply Z.eqb_refl]). congruence.
Qed.
(** An unlisted opcode, read through any prefixes, leaves memory and FLAGS as they are. *)
Theorem C69_pure E base s s' k : quiet_host E -> flat E base (ar s) -> wf_state s -> at_instruction (ar s) -> steps E s s' ->
  0 <= k -> (forall i, 0 <= i < k -> prefix_byte (ipbyte (ar s) i)) -> ~ prefix_byte (ipbyte (ar s) k) ->
  (~ changes_memory (ipbyte (ar s) k) (ipbyte (ar s) (k + 1)) -> hmem (ar s') = hmem (ar s)) /\
  (~ changes_flags (ipbyte (ar s) k) (ipbyte (ar s) (k + 1)) -> r_flags (ar s') = r_flags (ar s)) /\
  (forall r, 0 <= r < 8 -> ~ changes_register r (ipbyte (ar s) k) (ipbyte (ar s) (k + 1)) -> reg32 r (ar s') = reg32 r (ar s)).
Proof.
  intros Q F W A H Hk Hp Hn. split; [|split].
  - intros N. destruct (C69_memory E base s s' Q F W A H) as [K|K]; [exact K|]. exfalso. apply N. apply opcode2_fun; auto. intros b b2. apply listed_opcode. vm_compute. reflexivity.
  - intros N. destruct (C69_flags E base s s' Q F W A H) as [K|K]; [exact K|]. exfalso. apply N. apply opcode2_fun; auto. intros b b2. apply listed_opcode. vm_compute. reflexivity.
  - intros r Hr N. destruct (C69_registers E base s s' r Q F W A H Hr) as [K|K]; [exact K|]. exfalso. apply N. apply opcode2_fun; auto. intros b b2. apply listed_opcode.
    assert (C : r = 0 \/ r = 1 \/ r = 2 \/ r = 3 \/ r = 4 \/ r = 5 \/ r = 6 \/ r = 7) by lia. destruct C as [->|[->|[->|[->|[->|[->|[->| ->]]]]]]]; vm_compute; reflexivity.
Qed.
(** Case: a prefixed CMP [BX], AX: FLAGS may change (it is on that list), memory and registers may not. *)
Example C69_case : let s := demo [1; 2; 3; 4; 0x100; 6; 7; 8] 2 [] [0x26; 0x66; 0x39; 0x07] in
  quiet_host demo_env /\ flat demo_env HB (ar s) /\ wf_state s /\ at_instruction (ar s) /\ (exists s', steps demo_env s s') /\
  (forall i, 0 <= i < 2 -> prefix_byte (ipbyte (ar s) i)) /\ ~ prefix_byte (ipbyte (ar s) 2) /\
  ~ changes_memory (ipbyte (ar s) 2) (ipbyte (ar s) 3) /\ (forall r, 0 <= r < 8 -> ~ changes_register r (ipbyte (ar s) 2) (ipbyte (ar s) 3)) /\ changes_flags (ipbyte (ar s) 2) (ipbyte (ar s) 3).
Proof.
  cbv zeta. split; [intros h n s; split; [reflexivity|auto]|]. split; [apply demo_flat; reflexivity|]. split; [apply demo_wf_state; reflexivity|].
  split; [split; unfold magic, hle_entry_pc; cbn; lia|]. split.
  { destruct (okb_ex (run_one demo_env (demo [1; 2; 3; 4; 0x100; 6; 7; 8] 2 [] [0x26; 0x66; 0x39; 0x07])) (fun s' => icount s' =? 1)) as (s' & H & _); [vm_compute; reflexivity|]. exists s'. left. exact H. }
  assert (B2 : ipbyte (ar (demo [1; 2; 3; 4; 0x100; 6; 7; 8] 2 [] [0x26; 0x66; 0x39; 0x07])) 2 = 0x39) by (vm_compute; reflexivity).
  assert (B3 : ipbyte (ar (demo [1; 2; 3; 4; 0x100; 6; 7; 8] 2 [] [0x26; 0x66; 0x39; 0x07])) 3 = 0x07) by (vm_compute; reflexivity).
  rewrite B2, B3. split. { intros i Hi. assert (C : i = 0 \/ i = 1) by lia. destruct C as [->| ->]; vm_compute; auto 12. }
  assert (NP : forall l l0F, PTop3.mem_b l 0x39 = false -> ~ listed l l0F 0x39 0x07).
  { intros l l0F N [K|[K _]]; [|discriminate]. apply PTop3.mem_In in K. congruence. }
  split; [cbv; lia|]. split; [apply NP; vm_compute; reflexivity|]. split.
  - intros r Hr. apply NP. assert (C : r = 0 \/ r = 1 \/ r = 2 \/ r = 3 \/ r = 4 \/ r = 5 \/ r = 6 \/ r = 7) by lia. destruct C as [->|[->|[->|[->|[->|[->|[->| ->]]]]]]]; vm_compute; reflexivity.
  - left. apply PTop3.mem_In. vm_compute. reflexivity.
Qed.
Print Assumptions C69_memory. Print Assumptions C69_flags. Print Assumptions C69_segments. Print Assumptions C69_registers. Print Assumptions C69_config. Print Assumptions C69_pure.
