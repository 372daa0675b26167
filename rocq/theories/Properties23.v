(** Property theorems C46, C24, C25, C27, C28: exactly when an instruction is undefined in C ([SpecUb]). *)
From Verif Require Import Base Cpu Alu Ops Machine Spec SpecOps SpecOps2 SpecSys SpecRun SpecTop SpecStop SpecEa SpecUb PBase PMem PRun PFrame PTop2 PUb PUb2 PUb3 PUb4 Demo.

Definition np : pfx := mkPfx None false false 0.
Definition p66 : pfx := mkPfx None true false 0.
Definition p67 : pfx := mkPfx None false true 0.
Ltac opread := split; [unfold prefix_byte; cbn [In]; lia|split; [lia|first [discriminate|split; [lia|reflexivity]]]].

(** ** C46: RME_RunOne reaches an undefined operation exactly if [ub_of] says so, and that one: an operand outside the map, SHL by
    exactly the operand width, SHLD or SHRD by more than the width or by 32, IMUL whose operands multiply as unsigned words
    to 2^31 or more, IDIV of the smallest dividend by -1, MOV with segment register 6 or 7; nothing else. *)
Theorem C46_exact E base s pre p bs r : polite E -> fetched E base s pre p bs -> wf_state s -> 0 <= cpu (ar s) <= 2 ->
  opcode_read bs -> 12 <= blen bs -> ~ at_map_end p (ar s) bs ->
  run_one E s = UB r <-> ub_of p (ar s) bs = Some r.
Proof. exact (ub_exact E base s pre p bs r). Qed.
(** A call is undefined exactly if one of its instructions is. *)
Theorem C46_call E fuel : forall s r, rme_call E fuel s = UB r <-> exists k, (k < fuel)%nat /\ exists sk, runs E k s sk /\ run_one E sk = UB r.
Proof.
  induction fuel as [|f IH]; intros s r; cbn [rme_call].
  - split; [discriminate|]. intros (k & Hk & _). lia.
  - destruct (run_one E s) as [[] s1|c s1|u|] eqn:Hr.
    + rewrite IH. split.
      * intros (k & Hk & sk & H1 & H2). exists (S k). split; [lia|]. exists sk. split; [econstructor; eauto|exact H2].
      * intros (k & Hk & sk & H1 & H2). inversion H1; subst; [congruence|]. exists k0. split; [lia|]. exists sk. split; [|exact H2]. congruence.
    + split; [destruct (c =? E_FCNRET); discriminate|]. intros (k & Hk & sk & H1 & H2). inversion H1; subst; congruence.
    + split.
      * intros [= ->]. exists 0%nat. split; [lia|]. exists s. split; [constructor|exact Hr].
      * intros (k & Hk & sk & H1 & H2). inversion H1; subst; congruence.
    + split; [discriminate|]. intros (k & Hk & sk & H1 & H2). inversion H1; subst; congruence.
Qed.

(** The cases one by one, on the demonstration machine; followed by NOPs. *)
Definition nops : list Z := [0x90; 0x90; 0x90; 0x90; 0x90; 0x90; 0x90; 0x90; 0x90; 0x90; 0x90; 0x90].
Definition meets (s : st) (pre : list Z) (p : pfx) (bs : list Z) : Prop :=
  polite demo_env /\ fetched demo_env HB s pre p bs /\ wf_state s /\ 0 <= cpu (ar s) <= 2 /\ opcode_read bs /\ 12 <= blen bs /\ ~ at_map_end p (ar s) bs.
Ltac meets PRE := split; [apply demo_polite|]; split; [apply (demo_fetched demo_env _ 2 _ PRE); reflexivity|]; split; [apply demo_wf_state; reflexivity|];
  split; [cbn; lia|]; split; [opread|]; split; [vm_compute; discriminate|]; unfold at_map_end; cbn [has_modrm app Z.eqb Pos.eqb orb andb Z.leb Z.ltb Z.compare Pos.compare Pos.compare_cont Z.odd].
(** SHL AX,16 and SHL AX,15. *)
Example C46_shl : let bs := [0xC1; 0xE0; 16] ++ nops in let s := demo [1] 2 [] bs in meets s [] np bs /\ ub_of np (ar s) bs = Some UbShift.
Proof. cbv zeta. split; [meets (@nil Z); vm_compute; tauto|vm_compute; reflexivity]. Qed.
Example C46_shl15 : let bs := [0xC1; 0xE0; 15] ++ nops in let s := demo [1] 2 [] bs in meets s [] np bs /\ ub_of np (ar s) bs = None.
Proof. cbv zeta. split; [meets (@nil Z); vm_compute; tauto|vm_compute; reflexivity]. Qed.
(** SHLD EAX,EBX,32 is undefined, SHLD AX,BX,16 is not. *)
Example C46_shld : let bs := [0x0F; 0xA4; 0xD8; 32] ++ nops in let s := demo [1] 2 [] (0x66 :: bs) in meets s [0x66] p66 bs /\ ub_of p66 (ar s) bs = Some UbShift.
Proof. cbv zeta. split; [meets [0x66]; vm_compute; tauto|vm_compute; reflexivity]. Qed.
Example C46_shld16 : let bs := [0x0F; 0xA4; 0xD8; 16] ++ nops in let s := demo [1] 2 [] bs in meets s [] np bs /\ ub_of np (ar s) bs = None.
Proof. cbv zeta. split; [meets (@nil Z); vm_compute; tauto|vm_compute; reflexivity]. Qed.
(** IMUL AX,[BX+SI],-1: undefined for the word 8001h, not for 8000h. *)
Example C46_imul : let bs := [0x6B; 0x00; 0xFF] ++ nops in let s := demo [] 2 [(0x20000, 0x01); (0x20001, 0x80)] bs in meets s [] np bs /\ ub_of np (ar s) bs = Some UbMulOverflow.
Proof. cbv zeta. split; [meets (@nil Z); vm_compute; intros [H _]; discriminate H|vm_compute; reflexivity]. Qed.
Example C46_imul8000 : let bs := [0x6B; 0x00; 0xFF] ++ nops in let s := demo [] 2 [(0x20000, 0x00); (0x20001, 0x80)] bs in meets s [] np bs /\ ub_of np (ar s) bs = None.
Proof. cbv zeta. split; [meets (@nil Z); vm_compute; intros [H _]; discriminate H|vm_compute; reflexivity]. Qed.
(** IDIV ECX of 8000000000000000h by -1; MOV <segment 6>,AX; ADD AL,[EBX] outside the map. *)
Example C46_idiv : let bs := [0xF7; 0xF9] ++ nops in let s := demo [0; 0xFFFFFFFF; 0x80000000] 2 [] (0x66 :: bs) in meets s [0x66] p66 bs /\ ub_of p66 (ar s) bs = Some UbDivOverflow.
Proof. cbv zeta. split; [meets [0x66]; vm_compute; tauto|vm_compute; reflexivity]. Qed.
Example C46_seg6 : let bs := [0x8E; 0xF0] ++ nops in let s := demo [0] 2 [] bs in meets s [] np bs /\ ub_of np (ar s) bs = Some UbSegReg.
Proof. cbv zeta. split; [meets (@nil Z); vm_compute; tauto|vm_compute; reflexivity]. Qed.
Example C46_far : let bs := [0x02; 0x03] ++ nops in let s := demo [0; 0; 0; 0x200000] 2 [] (0x67 :: bs) in meets s [0x67] p67 bs /\ ub_of p67 (ar s) bs = Some UbMapIndex.
Proof. cbv zeta. split; [meets [0x67]; vm_compute; intros [_ H]; discriminate H|vm_compute; reflexivity]. Qed.

(** ** C25: SHLD and SHRD by more than the operand width, or by 32, are undefined, whatever the operands. *)
Theorem C25_count_undefined E base s pre p op t rg o rest : polite E -> fetched E base s pre p (15 :: op :: t) -> wf_state s -> 0 <= cpu (ar s) <= 2 ->
  12 <= blen (15 :: op :: t) -> ~ at_map_end p (ar s) (15 :: op :: t) -> In op [164; 165; 172; 173] -> real_rm p (ar s) t = Some (rg, o, rest) ->
  match o with InMem x => x < map_size | InReg _ => True end ->
  let c := if (op =? 164) || (op =? 172) then imm8 rest else reg 8 CX (ar s) in
  run_one E s = UB UbShift <-> osz p < c \/ 32 <= c.
Proof.
  intros Hpol Hf Hw Hc Hl He Ho Hr Hx. cbv zeta.
  assert (Hor : opcode_read (15 :: op :: t)) by opread.
  rewrite (C46_exact E base s pre p _ UbShift Hpol Hf Hw Hc Hor Hl He). unfold ub_of.
  assert (K : forall b : bool, (if b then Some UbShift else None) = Some UbShift <-> b = true) by (intros [|]; split; congruence).
  cbn [In] in Ho. destruct Ho as [<-|[<-|[<-|[<-|[]]]]].
  all: cbn [has_modrm invalid_form unsupported_form imul_wide no_pointer mem_z existsb Z.eqb Pos.eqb orb andb]; rewrite ?andb_false_r; cbn [orb]; rewrite Hr.
  all: destruct o as [n|x]; [|replace (map_size <=? x) with false by lia]; cbn [operation_ub Z.eqb Pos.eqb orb andb]; rewrite K; lia.
Qed.
Example C25_count_case : let t := [0xD8; 32] ++ nops in let s := demo [1] 2 [] (0x66 :: 0x0F :: 0xA4 :: t) in
  meets s [0x66] p66 (15 :: 164 :: t) /\ real_rm p66 (ar s) t = Some (3, InReg 0, 32 :: nops) /\ imm8 (32 :: nops) = 32.
Proof. cbv zeta. split; [meets [0x66]; vm_compute; tauto|]. split; reflexivity. Qed.

(** ** C28: IDIV is undefined exactly for the smallest dividend and divisor -1 (16- and 32-bit forms), never in the 8-bit form. *)
Theorem C28_idiv_undefined E base s pre p op t o rest : polite E -> fetched E base s pre p (op :: t) -> wf_state s -> 0 <= cpu (ar s) <= 2 ->
  12 <= blen (op :: t) -> ~ at_map_end p (ar s) (op :: t) -> op = 246 \/ op = 247 -> real_rm p (ar s) t = Some (7, o, rest) ->
  match o with InMem x => x < map_size /\ x mod 4096 <> 4095 | InReg _ => True end ->
  run_one E s = UB UbDivOverflow <->
  op = 247 /\ reg (osz p) DX (ar s) * 2 ^ osz p + reg (osz p) AX (ar s) = 2 ^ (2 * osz p - 1) /\ value (osz p) o (ar s) = 2 ^ osz p - 1.
Proof.
  intros Hpol Hf Hw Hc Hl He Ho Hr Hx.
  assert (Hor : opcode_read (op :: t)) by (destruct Ho as [-> | ->]; destruct t as [|b u]; try (unfold blen in Hl; cbn in Hl; lia); opread).
  rewrite (C46_exact E base s pre p _ UbDivOverflow Hpol Hf Hw Hc Hor Hl He). unfold ub_of.
  assert (K : forall b : bool, (if b then Some UbDivOverflow else None) = Some UbDivOverflow <-> b = true) by (intros [|]; split; congruence).
  destruct Ho as [-> | ->].
  - split; [|intros [H _]; discriminate H]. intros H. exfalso. revert H.
    cbn [has_modrm invalid_form unsupported_form imul_wide no_pointer mem_z existsb Z.eqb Pos.eqb orb andb Z.leb Z.ltb Z.compare Pos.compare Pos.compare_cont Z.odd]; rewrite ?andb_false_r; cbn [orb andb]; rewrite Hr.
    destruct o as [n|x]; [|replace (map_size <=? x) with false by lia]; cbn [operation_ub Z.eqb Pos.eqb orb andb Z.leb Z.compare Pos.compare Pos.compare_cont]; discriminate.
  - cbn [has_modrm invalid_form unsupported_form imul_wide no_pointer mem_z existsb Z.eqb Pos.eqb orb andb Z.leb Z.ltb Z.compare Pos.compare Pos.compare_cont Z.odd]; rewrite ?andb_false_r; cbn [orb andb]; rewrite Hr.
    destruct o as [n|x]; [|replace (map_size <=? x) with false by lia; replace (x mod 4096 =? 4095) with false by lia; cbn [andb]];
      cbn [operation_ub Z.eqb Pos.eqb orb andb Z.leb Z.compare Pos.compare Pos.compare_cont Z.odd]; rewrite K; rewrite andb_true_iff, !Z.eqb_eq; tauto.
Qed.
Example C28_undefined_case : let t := 0xF9 :: nops in let s := demo [0; 0xFFFFFFFF; 0x80000000] 2 [] (0x66 :: 0xF7 :: t) in
  meets s [0x66] p66 (247 :: t) /\ real_rm p66 (ar s) t = Some (7, InReg 1, nops) /\ reg 32 DX (ar s) * 2 ^ 32 + reg 32 AX (ar s) = 2 ^ 63 /\ value 32 (InReg 1) (ar s) = 2 ^ 32 - 1.
Proof. cbv zeta. split; [meets [0x66]; vm_compute; tauto|]. split; [reflexivity|]. split; vm_compute; reflexivity. Qed.
Print Assumptions C46_exact. Print Assumptions C46_call. Print Assumptions C25_count_undefined. Print Assumptions C28_idiv_undefined.
