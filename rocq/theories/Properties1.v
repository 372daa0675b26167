(** Property theorems C01-C09, C15, C16.  Each is closed by a lemma proved elsewhere; the
    [Example] after it shows a concrete case meeting the hypotheses. *)
From Verif Require Import Base Cpu Alu Ops Machine Spec SpecOps SpecOps2 SpecSys SpecRun SpecTop PBase PMem PRun PFrame PExec PTop2 PTop3 PDebug PSmall PIAlu PIAlu2 PStop Trace Demo.

(** ** C01: a fresh state *)
Theorem C01_fresh_state debug h : let s := create_state debug h in
  (forall n, 0 <= n < 8 -> gpr n (ar s) = 0) /\
  (forall n, 0 <= n < 6 -> sreg n (ar s) = if n =? 1 then 0xF000 else 0) /\
  r_ip (ar s) = 0xFFF0 /\ r_flags (ar s) = 0x0002 /\ cpu (ar s) = 0 /\
  (forall b, mtab (ar s) b = 0) /\ (forall n, hle (ar s) n = 0) /\
  iolog (ar s) = [] /\ dbg s = debug /\ icount s = 0 /\ lastnull s = false /\ (forall x, hmem (ar s) x = h x).
Proof.
  cbv zeta. repeat split; try reflexivity.
  intros n Hn. assert (H : n = 0 \/ n = 1 \/ n = 2 \/ n = 3 \/ n = 4 \/ n = 5) by lia.
  destruct H as [->|[->|[->|[->|[->| ->]]]]]; reflexivity.
Qed.
(** Running it without installing memory reports RME_ERR_BADMEM, which is not the result of a
    normal exit -- in a build in which the NULL check is compiled in. *)
Theorem C01_fresh_run_checked_partial E debug h fuel : null_check E = true ->
  exists s', run_one E (create_state debug h) = Err E_BADMEM s' /\ same (ar s') (ar (create_state debug h)) /\
             rme_call E (S fuel) (create_state debug h) = Err E_BADMEM s'.
Proof.
  intros HE. destruct (run_null E (create_state debug h) HE) as (s' & H1 & H2 & _).
  - unfold at_instruction, magic, hle_entry_pc. cbn. lia.
  - cbn. lia.
  - constructor; cbn; unfold inrange; lia.
  - reflexivity.
  - intros _. unfold pc, lin. cbn. lia.
  - exists s'. split; [exact H1|]. split; [exact H2|]. cbn [rme_call]. rewrite H1. reflexivity.
Qed.
Example C01_checked_build : exists E, null_check E = true.
Proof. exists (mkEnv true false (fun _ _ _ => 0) (fun _ _ s => s)). reflexivity. Qed.
(** The shipped build (NULL check compiled out) dereferences an invalid pointer instead. *)
Theorem C01_fresh_run_shipped_refuted debug h : h 0xFF0 = None ->
  run_one demo_env (create_state debug h) = UB UbDeref.
Proof.
  intros H. apply run_null_shipped; auto.
  - unfold at_instruction, magic, hle_entry_pc. cbn. lia.
  - cbn. lia.
  - constructor; cbn; unfold inrange; lia.
Qed.
Print Assumptions C01_fresh_state. Print Assumptions C01_fresh_run_checked_partial. Print Assumptions C01_fresh_run_shipped_refuted.

(** ** C02: the magic return address *)
Theorem C02_magic_stops E s fuel : r_cs (ar s) = 0xFFFF -> r_ip (ar s) = 0xFFFF ->
  run_one E s = Err E_FCNRET s /\ rme_call E (S fuel) s = Ok tt s.
Proof. intros H1 H2. cbn [rme_call]. unfold run_one. rewrite H1, H2. split; reflexivity. Qed.
Theorem C02_magic_only E s c s' : run_one E s = Err c s' -> c = E_FCNRET ->
  r_cs (ar s) = 0xFFFF /\ r_ip (ar s) = 0xFFFF.
Proof. exact (run_one_codes E s c s'). Qed.
(** RME_Call returns success only at the magic address. *)
Theorem C02_call_success E fuel s s' : rme_call E fuel s = Ok tt s' -> r_cs (ar s') = 0xFFFF /\ r_ip (ar s') = 0xFFFF.
Proof.
  intros H. apply rme_call_ok in H. destruct H as (k & _ & sk & _ & H). pose proof (C02_magic_only E sk _ s' H eq_refl) as [H1 H2].
  destruct (C02_magic_stops E sk 0 H1 H2) as [H3 _]. rewrite H in H3. injection H3 as ->. auto.
Qed.
Definition at_magic : st := mkSt (a_cs 65535 (a_ip 65535 (demo_arch [7] 2 [] []))) dec0 0 0 false.
Example C02_case : run_one demo_env at_magic = Err E_FCNRET at_magic /\ reg 16 0 (ar at_magic) = 7.
Proof. split; reflexivity. Qed.
Print Assumptions C02_magic_stops. Print Assumptions C02_magic_only. Print Assumptions C02_call_success.

(** ** C03: RME_Call iterates RME_RunOne.  [fuel] is only how long we are prepared to watch. *)
Theorem C03_call_returns_0 E fuel s s' : rme_call E fuel s = Ok tt s' <->
  exists k sk, (k < fuel)%nat /\ runs E k s sk /\ run_one E sk = Err E_FCNRET s'.
Proof. rewrite rme_call_ok. split; [intros (k & H & sk & H'); eauto|intros (k & sk & H & H' & H''); eauto 6]. Qed.
Theorem C03_call_returns_error E fuel s c s' : rme_call E fuel s = Err c s' <->
  c <> E_FCNRET /\ exists k sk, (k < fuel)%nat /\ runs E k s sk /\ run_one E sk = Err c s'.
Proof. rewrite rme_call_err. split; [intros (Hc & k & H & sk & H'); eauto 6|intros (Hc & k & sk & H & H' & H''); eauto 8]. Qed.
(** While no RME_RunOne call has failed RME_Call has not returned. *)
Theorem C03_call_still_running E fuel s s' : runs E fuel s s' -> rme_call E fuel s = Fuel.
Proof. intros H. apply rme_call_fuel. eauto. Qed.
(** JMP FFFF:FFFF: one successful instruction, then the return. *)
Example C03_case : exists s', rme_call demo_env 3 (demo [] 2 [] [0xEA; 0xFF; 0xFF; 0xFF; 0xFF]) = Ok tt s' /\ icount s' = 1.
Proof. destruct (okb_ex (rme_call demo_env 3 (demo [] 2 [] [0xEA; 0xFF; 0xFF; 0xFF; 0xFF])) (fun s => icount s =? 1) ltac:(vm_compute; reflexivity)) as (s' & H1 & H2). exists s'. split; [exact H1|lia]. Qed.
Example C03_case_err : exists s', rme_call demo_env 3 (demo [] 2 [] [0xF8; 0xF4]) = Err E_HALT s' /\ icount s' = 2.
Proof. destruct (errb_ex E_HALT (rme_call demo_env 3 (demo [] 2 [] [0xF8; 0xF4])) (fun s => icount s =? 2) ltac:(vm_compute; reflexivity)) as (s' & H1 & H2). exists s'. split; [exact H1|lia]. Qed.
Print Assumptions C03_call_returns_0. Print Assumptions C03_call_returns_error. Print Assumptions C03_call_still_running.

(** ** C04: bounded decoding.  The model gives RME_RunOne fuel for six passes of the opcode loop
    and CX (or 1) passes of a string loop; it is never exhausted, whatever the memory map. *)
Theorem C04_terminates E s : polite E -> wf_state s -> run_one E s <> Fuel.
Proof. exact (run_one_ran E s). Qed.
(** At most four prefixes make a well-formed prefix sequence, ... *)
Theorem C04_four_prefixes pre p : prefixes pre = Some p -> (length pre <= 4)%nat.
Proof. exact (prefixes_four pre p). Qed.
(** ... and a second one of a kind is rejected. *)
Theorem C04_second_rejected E base s pre p b t : fetched E base s pre p (b :: t) -> prefix_byte b -> add_prefix p b = None ->
  stops E s E_UNDEF.
Proof. exact (repeated_prefix_stops E base s pre p b t). Qed.
Example C04_case : fetched demo_env HB (demo [] 2 [] [0x26; 0x66; 0xF3; 0x67; 0x2E; 0x90])
    [0x26; 0x66; 0xF3; 0x67] (mkPfx (Some 0) true true 0xF3) [0x2E; 0x90] /\
  prefix_byte 0x2E /\ add_prefix (mkPfx (Some 0) true true 0xF3) 0x2E = None.
Proof. split; [apply (demo_fetched demo_env [] 2 [] [0x26; 0x66; 0xF3; 0x67]); reflexivity|]. split; [cbn; auto|reflexivity]. Qed.
Print Assumptions C04_terminates. Print Assumptions C04_four_prefixes. Print Assumptions C04_second_rejected.

(** ** C05: undefined opcodes *)
Theorem C05_undefined_opcode E base s pre p bs : fetched E base s pre p bs -> opcode_read bs -> undefined_opcode bs ->
  stops E s E_UNDEF.
Proof. exact (undefined_stops E base s pre p bs). Qed.
Example C05_case : fetched demo_env HB (demo [] 2 [] [0xD6]) [] (mkPfx None false false 0) [0xD6] /\ opcode_read [0xD6] /\ undefined_opcode [0xD6].
Proof.
  split; [apply (demo_fetched demo_env [] 2 [] []); reflexivity|]. split; [|cbn; auto 10].
  split; [cbn; lia|]. split; [lia|]. intros _. split; [lia|reflexivity].
Qed.
Example C05_case_0F : fetched demo_env HB (demo [] 2 [] [0x0F; 0xC8]) [] (mkPfx None false false 0) [0x0F; 0xC8] /\
  opcode_read [0x0F; 0xC8] /\ undefined_opcode [0x0F; 0xC8].
Proof.
  split; [apply (demo_fetched demo_env [] 2 [] []); reflexivity|]. split.
  - split; [cbn; lia|]. split; [lia|]. discriminate.
  - right. split; [reflexivity|]. cbn. lia.
Qed.
Print Assumptions C05_undefined_opcode.

(** ** C06: stop conditions *)
Theorem C06_hlt E base s pre p t : fetched E base s pre p (0xF4 :: t) -> stops E s E_HALT.
Proof. exact (hlt_stops E base s pre p t). Qed.
Theorem C06_padding E base s pre p t : fetched E base s pre p (0xF1 :: t) -> stops E s E_BREAK.
Proof. exact (f1_stops E base s pre p t). Qed.
(** 00 00 is ADD [BX+SI],AL.  It must not overwrite itself. *)
Definition zeros_stay (a : arch) : Prop :=
  let a' := alu_effect 0 8 (RMem (r_ds a) (low 16 (reg 16 3 a + reg 16 6 a))) (reg 8 0 a) a in
  byte a' (pc a) = 0 /\ byte a' (pc a + 1) = 0.
Definition no_prefix : pfx := mkPfx None false false 0.
Theorem C06_zeros E base s : fetched E base s [] no_prefix [0; 0] -> operand_ok no_prefix (ar s) [0; 0] -> zeros_stay (ar s) ->
  exists s', (if lastnull s then run_one E s = Err E_BREAK s' else run_one E s = Ok tt s') /\ lastnull s' = true /\ icount s' = icount s + 1.
Proof. exact (zeros_instr E base s). Qed.
(** Two in a row: the second stops. *)
Theorem C06_zeros_twice E base s s1 : fetched E base s [] no_prefix [0; 0] -> operand_ok no_prefix (ar s) [0; 0] -> zeros_stay (ar s) ->
  lastnull s = false -> run_one E s = Ok tt s1 ->
  fetched E base s1 [] no_prefix [0; 0] -> operand_ok no_prefix (ar s1) [0; 0] -> zeros_stay (ar s1) ->
  exists s2, run_one E s1 = Err E_BREAK s2.
Proof.
  intros F O Z L R F1 O1 Z1. destruct (C06_zeros E base s F O Z) as (s' & R' & L' & _). rewrite L in R'.
  assert (s' = s1) by congruence. subst s'. destruct (C06_zeros E base s1 F1 O1 Z1) as (s2 & R2 & _). rewrite L' in R2. eauto.
Qed.
(** Any other executed instruction clears the memory of a 00 00: what [executes_to] says for an
    instruction whose bytes, read afterwards, are not 00 00. *)
Theorem C06_other_resets E s bs a' : executes_to E s bs a' -> is_null (ar s) a' bs = false ->
  exists s', run_one E s = Ok tt s' /\ lastnull s' = false.
Proof. intros (s' & R & _ & _ & _ & L) H. rewrite H, andb_false_r in R. exists s'. rewrite <- H. auto. Qed.
(* in Demo: BX = 0x300, memory at DS:0x300 zero *)
Example C06_case : let s := demo [5; 0; 0; 0x300] 2 [] [0; 0; 0; 0] in
  fetched demo_env HB s [] no_prefix [0; 0] /\ operand_ok no_prefix (ar s) [0; 0] /\ zeros_stay (ar s) /\
  exists s1, run_one demo_env s = Ok tt s1 /\ exists s2, run_one demo_env s1 = Err E_BREAK s2.
Proof.
  cbv zeta. split; [|split; [|split]].
  - destruct (demo_fetched demo_env [5; 0; 0; 0x300] 2 [] [] no_prefix [0; 0; 0; 0] eq_refl eq_refl) as (R & P & C1 & C2).
    split; [exact R|]. split; [exact P|]. split; [vm_compute; discriminate|]. intros i b H. apply C2. destruct i as [|[|i]]; cbn in *; auto. destruct i; discriminate.
  - split; [|discriminate]. intros _. split; [vm_compute; split; congruence|]. intros _ [?|?]; discriminate.
  - split; vm_compute; reflexivity.
  - destruct (okb_ex (run_one demo_env (demo [5; 0; 0; 0x300] 2 [] [0; 0; 0; 0])) (fun s1 => errb E_BREAK (run_one demo_env s1) (fun _ => true)))
      as (s1 & H1 & H2); [vm_compute; reflexivity|]. apply errb_ex in H2. destruct H2 as (s2 & H2 & _). eauto.
Qed.
Print Assumptions C06_hlt. Print Assumptions C06_padding. Print Assumptions C06_zeros. Print Assumptions C06_zeros_twice. Print Assumptions C06_other_resets.

(** ** C07: instruction accounting, for any memory map *)
Theorem C07_counts_one E s : polite E -> wf_state s ->
  forall s', (run_one E s = Ok tt s' \/ exists c, run_one E s = Err c s') ->
  icount s' = icount s + (if ((r_cs (ar s) =? 0xFFFF) && (r_ip (ar s) =? 0xFFFF)) || ((r_cs (ar s) =? 0xB800) && (r_ip (ar s) <? 256)) then 0 else 1).
Proof. exact (count_one E s). Qed.
Theorem C07_runs E k s s' : polite E -> wf_state s -> runs E k s s' -> icount s <= icount s' <= icount s + Z.of_nat k.
Proof. intros HP W R. apply (runs_general E k HP s s' R W). Qed.
Example C07_case : polite demo_env /\ wf_state (demo [] 2 [] [0xF8]) /\ exists s', run_one demo_env (demo [] 2 [] [0xF8]) = Ok tt s'.
Proof. split; [apply demo_polite|]. split; [apply demo_wf_state; reflexivity|]. 
  destruct (okb_ex (run_one demo_env (demo [] 2 [] [0xF8])) (fun _ => true)) as (s' & H & _); [vm_compute; reflexivity|eauto]. Qed.
Print Assumptions C07_counts_one. Print Assumptions C07_runs.

(** ** C08: the host configuration, for any memory map *)
Theorem C08_run_one E s : polite E -> wf_state s ->
  forall s', (run_one E s = Ok tt s' \/ exists c, run_one E s = Err c s') -> same_config s s'.
Proof. exact (config_one E s). Qed.
Theorem C08_call E fuel s : polite E -> wf_state s ->
  forall s', (rme_call E fuel s = Ok tt s' \/ exists c, rme_call E fuel s = Err c s') -> same_config s s'.
Proof. exact (config_call E fuel s). Qed.
Theorem C08_call_int E fuel n s : polite E -> wf_state s ->
  forall s', (call_int E fuel n s = Ok tt s' \/ exists c, call_int E fuel n s = Err c s') -> same_config s s'.
Proof. exact (config_callint E fuel n s). Qed.
Print Assumptions C08_run_one. Print Assumptions C08_call. Print Assumptions C08_call_int.

(** ** C09: registers and memory bytes stay in range, for any memory map *)
Theorem C09_run_one E s : polite E -> wf_state s ->
  forall s', (run_one E s = Ok tt s' \/ exists c, run_one E s = Err c s') -> wf_state s'.
Proof. exact (wf_one E s). Qed.
Theorem C09_runs E k s s' : polite E -> wf_state s -> runs E k s s' -> wf_state s'.
Proof. intros HP W R. apply (runs_general E k HP s s' R W). Qed.
Theorem C09_fresh debug h : (forall x b, h x = Some b -> 0 <= b < 256) -> wf_state (create_state debug h).
Proof. exact (fresh_wf debug h). Qed.
Print Assumptions C09_run_one. Print Assumptions C09_runs. Print Assumptions C09_fresh.

(** ** C15: the debug level.  True when all of guest memory is mapped contiguously. *)
Definition with_debug (g : Z) (r : out unit) : out unit :=
  match r with Ok x s => Ok x (set_dbg g s) | Err c s => Err c (set_dbg g s) | UB u => UB u | Fuel => Fuel end.
Theorem C15_debug_level_partial E base s g : polite E -> ignores_debug_level E -> wf_state s -> flat E base (ar s) ->
  run_one E (set_dbg g s) = with_debug g (run_one E s).
Proof. exact (run_one_debug E base s g). Qed.
Example C15_case : polite demo_env /\ ignores_debug_level demo_env /\ wf_state (demo [] 2 [] [0x66; 0xB8; 1; 2; 3; 4]) /\
  flat demo_env HB (ar (demo [] 2 [] [0x66; 0xB8; 1; 2; 3; 4])).
Proof. split; [apply demo_polite|]. split; [intros h n g s; reflexivity|]. split; [apply demo_wf_state; reflexivity|]. apply demo_flat; reflexivity. Qed.
(** With a partial map it is false: the dump reads the bytes of MOV AX,imm16 at F000:FFFE.. one by
    one with a 16-bit wrap (F000:0000 for the third), where the fetch had read on at linear 100000. *)
Definition wrap_map (b : Z) : Z := if (b =? 255) || (b =? 256) then 4096 * b else 0.
Definition wrap_state (g : Z) : st :=
  mkSt (mkArch 0 0 0 0 0 0 0xF000 0xFFFE 2 2 wrap_map (fun _ => 0)
          (fun x => if (0xFF000 <=? x) && (x <? 0x101000) then Some (if x =? 0xFFFFE then 0xB8 else 0) else None) []) dec0 g 0 false.
Theorem C15_debug_level_refuted : exists s', run_one demo_env (wrap_state 0) = Ok tt s' /\ run_one demo_env (wrap_state 1) = UB UbDeref.
Proof.
  destruct (okb_ex (run_one demo_env (wrap_state 0)) (fun _ => true)) as (s' & H & _); [vm_compute; reflexivity|].
  exists s'. split; [exact H|]. apply is_ub_eq. vm_compute. reflexivity.
Qed.
Print Assumptions C15_debug_level_partial. Print Assumptions C15_debug_level_refuted.

(** ** C16: the disassembly text buffer.  From any 64-byte buffer, whatever texts are printed
    (None would be an out-of-bounds write). *)
Theorem C16_trace_buffer b ts : length (t_buf b) = 64%nat -> Forall (Forall (fun c => c <> 0)) ts ->
  exists b0 b', debug_reset b = Some b0 /\ debug_prints ts b0 = Some b' /\
    length (t_buf b') = 64%nat /\ (t_len b' <= 64)%nat /\ cstring (t_buf b') = Some (shown (concat ts)).
Proof. exact (trace_buffer b ts). Qed.
Example C16_case : exists b0 b', debug_reset (mkT 5 (repeat 65 64)) = Some b0 /\
  debug_prints [repeat 66 40; repeat 67 40; [68]] b0 = Some b' /\ cstring (t_buf b') = Some (repeat 66 40 ++ repeat 67 22 ++ [36]).
Proof. eexists. eexists. split; [reflexivity|]. split; vm_compute; reflexivity. Qed.
Print Assumptions C16_trace_buffer.
