(** Property theorems C70: no hidden state. *)
From Verif Require Import Base Cpu Ops Machine Spec SpecOps SpecOps2 SpecSys SpecRun SpecTop SpecCodes SpecIndep PBase PMem PCodes PIndep Demo.

(** ** C70: what an instruction does depends only on the machine: registers, memory, port history (and the 00 00
    flag) - not on prefixes or scratch values left over from earlier instructions, nor on the instruction counter
    (as long as it does not overflow). *)
Theorem C70_instruction E f s1 s2 : callbacks E f -> same_machine s1 s2 -> icount s1 <> 2147483647 -> icount s2 <> 2147483647 ->
  agree same_machine (run_one E s1) (run_one E s2).
Proof. intros C. exact (run_same E f C s1 s2). Qed.
Theorem C70_call E f fuel s1 s2 : callbacks E f -> polite E -> same_machine s1 s2 -> wf_state s1 -> wf_state s2 -> room (Z.of_nat fuel) s1 -> room (Z.of_nat fuel) s2 ->
  agree same_machine (rme_call E fuel s1) (rme_call E fuel s2).
Proof. intros C P. exact (call_same E f C P fuel s1 s2). Qed.
Theorem C70_call_int E f fuel n s1 s2 : callbacks E f -> polite E -> same_machine s1 s2 -> wf_state s1 -> wf_state s2 -> room (Z.of_nat fuel) s1 -> room (Z.of_nat fuel) s2 ->
  agree same_machine (call_int E fuel n s1) (call_int E fuel n s2).
Proof. intros C P. exact (call_int_same E f C P fuel n s1 s2). Qed.
(** The 00 00 flag can only turn a success into a breakpoint stop, after the same instruction with the same effect. *)
Theorem C70_flag E f s1 s2 : callbacks E f -> polite E -> wf_state s1 -> same_visible s1 s2 -> dbg s1 < 1 -> lastnull s1 = false -> icount s1 <> 2147483647 -> icount s2 <> 2147483647 ->
  agree same_visible (run_one E s1) (run_one E s2) \/ exists t1 t2, run_one E s1 = Ok tt t1 /\ run_one E s2 = Err E_BREAK t2 /\ same_visible t1 t2.
Proof. intros C P. exact (run_flag E f C P s1 s2). Qed.
(** The CPU type only matters to POPF. *)
Theorem C70_cpu_type E f base v s1 s2 : callbacks E f -> (forall h n a, f h n (a_cpu v a) = a_cpu v (f h n a)) -> quiet_host E -> flat E base (ar s1) -> wf_state s1 ->
  same_but_cpu v s1 s2 -> ~ opcode_at (ar s1) (fun b => b = 0x9D) -> icount s1 <> 2147483647 -> icount s2 <> 2147483647 ->
  agree (same_but_cpu v) (run_one E s1) (run_one E s2).
Proof.
  intros C Hf Q F W S N N1 N2. assert (K : forall a b, sim0 true false v a b <-> same_but_cpu v a b). { intros. unfold sim0, same_but_cpu, chg. intuition. }
  apply (agree_weak (sim0 true false v)); [intros; apply K; assumption|]. apply run_indep.
  - intros h n t1 t2 (S1 & S2 & S3). unfold chg in S1. rewrite !C. split; [cbn; rewrite S1; apply Hf|]. cbn. auto.
  - intros h n s. rewrite C. reflexivity.
  - reflexivity.
  - intros _. split; [exact Q|]. split; [exact (ws_bytes _ W)|]. exists base. split; [exact F|]. split; [apply W|exact N].
  - exact N1.
  - exact N2.
  - apply K, S.
Qed.
(** Two runs of one and the same state: the emulator is deterministic up to the host (trivially), and a REP prefix
    left in the decoder by a failed instruction is gone: here the second state carries all the scratch
    an interrupted "REPNE ES: 66 67" would leave. *)
Definition stale (s : st) : st := mkSt (ar s) (mkDec 0 0xF2 true true true 17) (dbg s) (icount s + 12345) (lastnull s).
Example C70_case : let s := demo [1; 2; 3; 4; 0x100; 6; 7; 8] 2 [] [0xA5] in
  callbacks demo_env (fun _ _ a => a) /\ polite demo_env /\ same_machine s (stale s) /\ wf_state s /\ wf_state (stale s) /\ room 5 s /\ room 5 (stale s) /\ s <> stale s /\
  exists t, run_one demo_env (stale s) = Ok tt t /\ reg 16 SI (ar t) = 9 /\ reg 16 CX (ar t) = 2.
Proof.
  cbv zeta. split; [apply demo_callbacks|]. split; [apply demo_polite|]. split; [split; [reflexivity|auto]|].
  assert (W : wf_state (demo [1; 2; 3; 4; 0x100; 6; 7; 8] 2 [] [0xA5])) by (apply demo_wf_state; reflexivity).
  split; [exact W|]. split. { destruct W. constructor; cbn [stale ar dc d_ipoff d_seg d_rep]; auto; lia. }
  split; [unfold room; cbn; lia|]. split; [unfold room; cbn; lia|]. split. { intros K. apply (f_equal icount) in K. cbn in K. lia. }
  destruct (okb_ex (run_one demo_env (stale (demo [1; 2; 3; 4; 0x100; 6; 7; 8] 2 [] [0xA5]))) (fun t => (reg 16 SI (ar t) =? 9) && (reg 16 CX (ar t) =? 2))) as (t & H1 & H2); [vm_compute; reflexivity|].
  apply andb_true_iff in H2. exists t. split; [exact H1|]. lia.
Qed.
(** POPF does depend on it: 8086 and 386 disagree on the high flag bits; an ordinary instruction meets the hypotheses. *)
Definition popf_state (c : Z) : st := let s := demo [1; 2; 3; 4; 0x100; 6; 7; 8] 2 [(0x30100, 0); (0x30101, 0)] [0x9D] in mkSt (a_cpu c (ar s)) (dc s) (dbg s) (icount s) (lastnull s).
Example C70_cpu_case : same_but_cpu 0 (popf_state 2) (popf_state 0) /\
  (exists t, run_one demo_env (popf_state 2) = Ok tt t /\ r_flags (ar t) = 0x2) /\ (exists t, run_one demo_env (popf_state 0) = Ok tt t /\ r_flags (ar t) = 0xF002) /\
  (let s := demo [1; 2; 3; 4; 0x100; 6; 7; 8] 2 [] [0x26; 0x9C] in ~ opcode_at (ar s) (fun b => b = 0x9D) /\ flat demo_env HB (ar s) /\ wf_state s /\ quiet_host demo_env).
Proof.
  split; [split; [reflexivity|auto]|]. split.
  { destruct (okb_ex (run_one demo_env (popf_state 2)) (fun t => r_flags (ar t) =? 2)) as (t & H1 & H2); [vm_compute; reflexivity|]. exists t. split; [exact H1|lia]. }
  split.
  { destruct (okb_ex (run_one demo_env (popf_state 0)) (fun t => r_flags (ar t) =? 0xF002)) as (t & H1 & H2); [vm_compute; reflexivity|]. exists t. split; [exact H1|lia]. }
  cbv zeta. split; [|split; [apply demo_flat; reflexivity|split; [apply demo_wf_state; reflexivity|intros h n s; split; [reflexivity|auto]]]].
  intros (k & Hk & Hp & H). assert (B0 : ipbyte (ar (demo [1; 2; 3; 4; 0x100; 6; 7; 8] 2 [] [0x26; 0x9C])) 0 = 0x26) by (vm_compute; reflexivity).
  assert (B1 : ipbyte (ar (demo [1; 2; 3; 4; 0x100; 6; 7; 8] 2 [] [0x26; 0x9C])) 1 = 0x9C) by (vm_compute; reflexivity).
  destruct (Z.eq_dec k 0) as [->|]; [congruence|]. destruct (Z.eq_dec k 1) as [->|]; [congruence|]. specialize (Hp 1 ltac:(lia)). rewrite B1 in Hp. cbv in Hp. lia.
Qed.
Print Assumptions C70_instruction. Print Assumptions C70_call. Print Assumptions C70_call_int. Print Assumptions C70_flag. Print Assumptions C70_cpu_type.
