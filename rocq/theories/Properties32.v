(** Property theorem C86: exactly which instructions are refused. *)
From Coq Require Import String Ascii.
From Verif Require Import Base Cpu Alu Ops Machine Spec SpecOps SpecOps2 SpecSys SpecRun SpecTop SpecStop SpecEa SpecUb SpecCodes PBase PMem PRun PFrame PExec PTop PTop2 PTop3 PStop PStop2 PUb4 PCodes SpecTrace SpecMsgs SpecRefuse PRefuse PRefuse2 Demo Properties1 Properties16 Properties23.
Local Open Scope Z_scope.
Definition np : pfx := mkPfx None false false 0.
Definition p66 : pfx := mkPfx None true false 0.

(** ** C86: on contiguous memory, the list [refused] is complete and right. *)
(** Every instruction of the list is refused, with that code. *)
Theorem C86_refused E base s pre p bs c : polite E -> quiet_host E -> fetched E base s pre p bs -> wf_state s -> whole p (ar s) bs ->
  refused p (ar s) bs c -> exists s1, run_one E s = Err c s1.
Proof. intros P Q. exact (refused_all E base P Q s pre p bs c). Qed.
(** No other instruction is, except for a second 00 00 in a row. *)
Theorem C86_only E base s pre p bs c s1 : polite E -> quiet_host E -> fetched E base s pre p bs -> wf_state s -> whole p (ar s) bs ->
  run_one E s = Err c s1 -> refused p (ar s) bs c \/ (c = E_BREAK /\ lastnull s = true /\ zeros s s1).
Proof. intros P Q. exact (all_refused E base P Q s pre p bs c s1). Qed.
(** Outside that exception: refused with code [c] if and only if listed with code [c]. *)
Theorem C86_exact E base s pre p bs c : polite E -> quiet_host E -> fetched E base s pre p bs -> wf_state s -> whole p (ar s) bs -> lastnull s = false ->
  (exists s1, run_one E s = Err c s1) <-> refused p (ar s) bs c.
Proof.
  intros P Q Hf W Hw Hl. split.
  - intros (s1 & Hr). destruct (C86_only E base s pre p bs c s1 P Q Hf W Hw Hr) as [H|(_ & H & _)]; [exact H|congruence].
  - apply (C86_refused E base s pre p bs c P Q Hf W Hw).
Qed.
(** An instruction is never refused for two reasons with different codes. *)
Theorem C86_one_code E base s pre p bs c c' : polite E -> quiet_host E -> fetched E base s pre p bs -> wf_state s -> whole p (ar s) bs ->
  refused p (ar s) bs c -> refused p (ar s) bs c' -> c = c'.
Proof.
  intros P Q Hf W Hw H1 H2. destruct (C86_refused E base s pre p bs c P Q Hf W Hw H1) as (s1 & R1). destruct (C86_refused E base s pre p bs c' P Q Hf W Hw H2) as (s2 & R2). congruence.
Qed.
(** Together with C46: every instruction is either undefined in C in the way [ub_of] says, or refused as [refused] says, or executed. *)
Theorem C86_verdict E base s pre p bs : polite E -> quiet_host E -> fetched E base s pre p bs -> wf_state s -> 0 <= cpu (ar s) <= 2 ->
  opcode_read bs -> 12 <= blen bs -> ~ at_map_end p (ar s) bs -> whole p (ar s) bs -> lastnull s = false ->
  (exists r, ub_of p (ar s) bs = Some r /\ run_one E s = UB r) \/
  (exists c s1, ub_of p (ar s) bs = None /\ refused p (ar s) bs c /\ run_one E s = Err c s1) \/
  (exists s1, ub_of p (ar s) bs = None /\ (forall c, ~ refused p (ar s) bs c) /\ run_one E s = Ok tt s1).
Proof.
  intros P Q Hf W Hc Ho Hl He Hw Hn. pose proof (C46_exact E base s pre p bs) as U.
  assert (U' : forall r, run_one E s <> UB r -> ub_of p (ar s) bs <> Some r) by (intros r H X; apply H, U; assumption).
  destruct (run_one E s) as [u s1|c s1|r|] eqn:Hr.
  - right. right. exists s1. split; [destruct (ub_of p (ar s) bs) as [r|] eqn:Hu; [exfalso; apply (U' r); [discriminate|reflexivity]|reflexivity]|]. split; [|destruct u; reflexivity].
    intros c H. destruct (C86_refused E base s pre p bs c P Q Hf W Hw H) as (s2 & X). congruence.
  - right. left. exists c, s1. split; [destruct (ub_of p (ar s) bs) as [r|] eqn:Hu; [exfalso; apply (U' r); [discriminate|reflexivity]|reflexivity]|]. split; [|reflexivity].
    apply (C86_exact E base s pre p bs c P Q Hf W Hw Hn). exists s1. exact Hr.
  - left. exists r. split; [|reflexivity]. apply U; auto.
  - exfalso. exact (C04_terminates E s P W Hr).
Qed.
(** Instructions of the list, and what RME_RunOne answers on the demonstration machine. *)
Example C86_case : let case pre p bs c := let s := demo [] 2 [] (pre ++ bs)%list in
    fetched demo_env HB s pre p bs /\ wf_state s /\ whole p (ar s) bs /\ lastnull s = false /\ refused p (ar s) bs c /\ (exists s1, run_one demo_env s = Err c s1) in
  polite demo_env /\ quiet_host demo_env /\
  case [] np [0xF4] E_HALT /\ case [] np [0xF1] E_BREAK /\ case [0x66] p66 [0x66; 0x90] E_UNDEF /\ case [] np [0x0F; 0x05] E_UNDEF /\
  case [] np [0x8D; 0xC0] E_UNDEF /\ case [0x66] p66 [0x8E; 0xD8] E_UNDEF /\ case [] np [0xF7; 0x0E; 0xFE; 0x0F] E_UNDEF /\
  case [] np [0xF7; 0x0E; 0xFF; 0x0F] E_BADMEM /\ case [] np [0xF6; 0x0E; 0xFF; 0x0F] E_UNDEF /\ case [0x66] p66 [0x60] E_UNDEF /\
  case [0x66] p66 [0xC8; 0; 0; 2] E_UNDEF /\ case [0x66] p66 [0x0F; 0xAF; 0xC1] E_BUG /\ case [] np [0xCD; 0x80] E_BADMEM.
Proof.
  cbv zeta. split; [apply demo_polite|]. split; [apply demo_quiet|].
  assert (K : forall pre p bs c, fetched demo_env HB (demo [] 2 [] (pre ++ bs)%list) pre p bs -> wf_state (demo [] 2 [] (pre ++ bs)%list) -> whole p (ar (demo [] 2 [] (pre ++ bs)%list)) bs -> refused p (ar (demo [] 2 [] (pre ++ bs)%list)) bs c ->
    errb c (run_one demo_env (demo [] 2 [] (pre ++ bs)%list)) (fun _ => true) = true ->
    let s := demo [] 2 [] (pre ++ bs)%list in fetched demo_env HB s pre p bs /\ wf_state s /\ whole p (ar s) bs /\ lastnull s = false /\ refused p (ar s) bs c /\ (exists s1, run_one demo_env s = Err c s1)).
  { intros pre p bs c H1 H2 H3 H4 H5. cbv zeta. split; [exact H1|]. split; [exact H2|]. split; [exact H3|]. split; [reflexivity|]. split; [exact H4|]. apply errb_ex in H5. destruct H5 as (s1 & H5 & _). eauto. }
  Ltac opc := right; right; split; [unfold opcode_read, prefix_byte; cbn [In]; split; [lia|]; split; [lia|first [discriminate|split; [lia|reflexivity]]]|]; split; [first [exact I|vm_compute; discriminate]|split; [first [discriminate|intros _; cbn; lia]|discriminate]].
  repeat lazymatch goal with |- (fetched _ _ _ _ _ _ /\ _) /\ _ => split end; (apply K; [apply (demo_fetched demo_env _ 2 _ _); reflexivity|apply demo_wf_state; reflexivity| | |vm_compute; reflexivity]).
  all: try opc.
  - apply rf_halt.
  - left. reflexivity.
  - apply rf_unset.
  - right. left. split; [cbn; tauto|reflexivity].
  - apply rf_again; [cbn; tauto|reflexivity].
  - apply rf_opcode; [unfold opcode_read, prefix_byte; cbn [In]; split; [lia|]; split; [lia|discriminate]|]. right. split; [reflexivity|cbn; lia].
  - apply rf_invalid. reflexivity.
  - apply rf_unsupported. reflexivity.
  - apply rf_group3; [tauto|reflexivity|]. right. exists 1, 0x20FFE, []. split; [reflexivity|]. split; [reflexivity|]. intros _. discriminate.
  - apply (rf_boundary np _ _ [0x0E; 0xFF; 0x0F] 1 0x20FFF []); try reflexivity. discriminate.
  - apply rf_group3; [tauto|reflexivity|]. right. exists 1, 0x20FFF, []. split; [reflexivity|]. split; [reflexivity|]. discriminate.
  - apply rf_stack; [reflexivity|cbn; tauto].
  - apply rf_enter; [reflexivity|cbn; lia].
  - apply rf_imul. reflexivity.
  - apply (rf_vector np _ _ 0x80); [constructor|vm_compute; reflexivity|vm_compute; reflexivity].
Qed.
(** The hypotheses of [C86_verdict] on a NOP, SHL AX,16 and HLT. *)
Example C86_three : let case bs := let b := (bs ++ nops)%list in let s := demo [1] 2 [] b in meets s [] np b /\ quiet_host demo_env /\ whole np (ar s) b /\ lastnull s = false in
  case [0x90] /\ case [0xC1; 0xE0; 16] /\ case [0xF4].
Proof.
  cbv zeta. split; [|split]; (split; [meets (@nil Z); vm_compute; tauto|]; split; [apply demo_quiet|]; split; [|reflexivity]).
  all: right; right; split; [opread|]; split; [first [exact I|vm_compute; discriminate]|split; discriminate].
Qed.
Print Assumptions C86_refused. Print Assumptions C86_only. Print Assumptions C86_exact. Print Assumptions C86_one_code. Print Assumptions C86_verdict.
