(** Property theorem C87: the reference machine is complete up to a list of exceptions. *)
From Coq Require Import String Ascii.
From Verif Require Import Base Cpu Alu Ops Machine Spec SpecOps SpecOps2 SpecSys SpecMul SpecStr SpecRun SpecTop SpecStop SpecEa SpecUb SpecCodes SpecMsgs SpecIsa SpecRefuse SpecOutside PBase PTop PTop2 PEa4 PIsa PProg PStop PRefuse PRefuse2 PWhole2 PWhole5 PTight4 Demo Properties1 Properties16 Properties21 Properties32.
Local Open Scope Z_scope.

(** ** C87: every instruction is a step of the reference machine (SpecIsa.v), or refused (SpecRefuse.v), or on the list of exceptions (SpecOutside.v). *)
Theorem C87_complete E base inp svc s pre p bs : fetched E base s pre p bs -> opcode_read bs -> 12 <= blen bs ->
  (exists i j R, bs = i ++ j /\ isa inp svc p (blen (pre ++ i)) (ar s) i R) \/
  (exists c, refused p (ar s) bs c) \/
  outside p (blen pre) (ar s) bs.
Proof. intros H1 H2 H3. exact (cover E base inp svc s pre p bs H1 H2 H3). Qed.

(** No exception is a step of the reference machine. *)
Theorem C87_exceptions E base inp svc s pre p i j R : fetched E base s pre p (i ++ j) -> outside p (blen pre) (ar s) (i ++ j) ->
  isa inp svc p (blen (pre ++ i)) (ar s) i R -> False.
Proof.
  intros Hf HO HI. refine (outside_isa inp svc p (ar s) (blen pre) (blen (pre ++ i)) (i ++ j) i j R _ eq_refl _ HO HI).
  - eapply code_bytes, Hf.
  - unfold blen. rewrite app_length. lia.
Qed.

(** On the emulator: it ends in a state the reference machine allows, or refuses with the listed code, or the instruction is an exception. *)
Section Emulator.
Context (E : env) (base : Z) (f : Z -> Z -> arch -> arch).
Definition host_ok : Prop := services_ok E base f /\ polite E /\ quiet_host E.
Theorem C87_step s pre p i R : services_ok E base f -> machine E base (ar s) -> fetched E base s pre p i -> lastnull s = false ->
  isa (port_in E) f p (blen (pre ++ i)) (ar s) i R ->
  exists a1 s1, R a1 /\ run_one E s = Ok tt s1 /\ same (ar s1) a1 /\ icount s1 = icount s + 1.
Proof.
  intros [Hcb Hsv] M Hf Hl HI. destruct (isa_lands_g E base f s pre p i R Hcb Hf HI) as (a1 & H1 & s1 & H2 & H3 & H4 & _).
  - intros n. apply (hle_machine E base f Hsv n (ar s) M).
  - intros a1 _. rewrite Hl. reflexivity.
  - exists a1, s1. auto.
Qed.
Theorem C87_emulator s pre p bs : host_ok -> machine E base (ar s) -> wf_state s -> fetched E base s pre p bs -> opcode_read bs -> 12 <= blen bs -> lastnull s = false ->
  (exists i j R a1 s1, bs = i ++ j /\ isa (port_in E) f p (blen (pre ++ i)) (ar s) i R /\
     R a1 /\ run_one E s = Ok tt s1 /\ same (ar s1) a1 /\ icount s1 = icount s + 1) \/
  (exists c s1, refused p (ar s) bs c /\ run_one E s = Err c s1) \/
  outside p (blen pre) (ar s) bs.
Proof.
  intros (Hs & P & Q) M W Hf Ho Hl Hn. destruct (C87_complete E base (port_in E) f s pre p bs Hf Ho Hl) as [(i & j & R & -> & HI)|[(c & Hc)|Hx]]; [left|right; left|right; right; exact Hx].
  - destruct (C87_step s pre p i R Hs M (fetched_prefix _ _ _ _ _ _ _ Hf) Hn HI) as (a1 & s1 & H). exists i, j, R, a1, s1. tauto.
  - destruct (C86_refused E base s pre p bs c P Q Hf W (whole_long p (ar s) bs Ho Hl) Hc) as (s1 & H). eauto.
Qed.
(** The first two cases exclude each other. *)
Theorem C87_disjoint s pre p i j R c : host_ok -> machine E base (ar s) -> wf_state s -> fetched E base s pre p (i ++ j) -> opcode_read (i ++ j) -> 12 <= blen (i ++ j) -> lastnull s = false ->
  isa (port_in E) f p (blen (pre ++ i)) (ar s) i R -> refused p (ar s) (i ++ j) c -> False.
Proof.
  intros (Hs & P & Q) M W Hf Ho Hl Hn HI Hc. destruct (C87_step s pre p i R Hs M (fetched_prefix _ _ _ _ _ _ _ Hf) Hn HI) as (a1 & s1 & _ & H1 & _).
  destruct (C86_refused E base s pre p (i ++ j) c P Q Hf W (whole_long p (ar s) _ Ho Hl) Hc) as (s2 & H2). congruence.
Qed.
(** So the three kinds of instructions are: the refused ones, the exceptions, and exactly the rest are steps of the reference machine. *)
Theorem C87_exact s pre p bs : host_ok -> machine E base (ar s) -> wf_state s -> fetched E base s pre p bs -> opcode_read bs -> 12 <= blen bs -> lastnull s = false ->
  ((exists i j R, bs = i ++ j /\ isa (port_in E) f p (blen (pre ++ i)) (ar s) i R) <->
   (forall c, ~ refused p (ar s) bs c) /\ ~ outside p (blen pre) (ar s) bs).
Proof.
  intros H M W Hf Ho Hl Hn. split.
  - intros (i & j & R & -> & HI). split; [intros c Hc; eapply C87_disjoint; eauto|intros Hx; eapply C87_exceptions; eauto].
  - intros [H1 H2]. destruct (C87_complete E base (port_in E) f s pre p bs Hf Ho Hl) as [K|[(c & Hc)|Hx]]; [exact K|destruct (H1 c Hc)|contradiction].
Qed.
End Emulator.

Definition ten : list Z := [0x90; 0x90; 0x90; 0x90; 0x90; 0x90; 0x90; 0x90; 0x90; 0x90; 0x90].
(** One instruction of each kind: ADD AX,BX; HLT; ENTER 0,1. *)
Example C87_case : let case bs := let s := demo [] 2 [] (bs ++ ten)%list in
    machine demo_env HB (ar s) /\ wf_state s /\ fetched demo_env HB s [] np (bs ++ ten) /\ opcode_read (bs ++ ten) /\ 12 <= blen (bs ++ ten) /\ lastnull s = false in
  host_ok demo_env HB (fun _ _ a => a) /\ case [0x01; 0xD8] /\ case [0xF4] /\ case [0xC8; 0; 0; 1] /\
  (exists R, isa (port_in demo_env) (fun _ _ a => a) np 2 (ar (demo [] 2 [] ([0x01; 0xD8] ++ ten)%list)) [0x01; 0xD8] R) /\
  refused np (ar (demo [] 2 [] ([0xF4] ++ ten)%list)) ([0xF4] ++ ten) E_HALT /\
  outside np 0 (ar (demo [] 2 [] ([0xC8; 0; 0; 1] ++ ten)%list)) ([0xC8; 0; 0; 1] ++ ten).
Proof.
  cbv zeta. split; [split; [apply demo_services|split; [apply demo_polite|exact demo_quiet]]|].
  assert (K : forall bs, demo_ok [] 2 [] (bs ++ ten)%list = true -> let s := demo [] 2 [] (bs ++ ten)%list in
    fetched demo_env HB s [] np (bs ++ ten) -> opcode_read (bs ++ ten) -> 12 <= blen (bs ++ ten) -> lastnull s = false ->
    machine demo_env HB (ar s) /\ wf_state s /\ fetched demo_env HB s [] np (bs ++ ten) /\ opcode_read (bs ++ ten) /\ 12 <= blen (bs ++ ten) /\ lastnull s = false).
  { intros bs H. cbv zeta. intros H1 H2 H3 H4. split; [apply demo_machine, H|]. split; [apply demo_wf_state, H|]. auto. }
  assert (O : forall b t, ~ prefix_byte b -> b <> 241 -> opcode_read (b :: (t ++ ten))) by (intros b t H1 H2; split; [exact H1|]; split; [exact H2|]; destruct t; discriminate).
  split; [apply K; [reflexivity|apply (demo_fetched demo_env _ 2 _ []); reflexivity|apply (O 1 [0xD8]); unfold prefix_byte; cbn [In]; lia|vm_compute; discriminate|reflexivity]|].
  split; [apply K; [reflexivity|apply (demo_fetched demo_env _ 2 _ []); reflexivity|apply (O 0xF4 []); unfold prefix_byte; cbn [In]; lia|vm_compute; discriminate|reflexivity]|].
  split; [apply K; [reflexivity|apply (demo_fetched demo_env _ 2 _ []); reflexivity|apply (O 0xC8 [0; 0; 1]); unfold prefix_byte; cbn [In]; lia|vm_compute; discriminate|reflexivity]|].
  split; [eexists; eapply I_alu; [reflexivity|discriminate|split; [intros H; exfalso; apply H; reflexivity|intros _; exact I]]|]. split; [apply rf_halt|apply out_enter; reflexivity].
Qed.
