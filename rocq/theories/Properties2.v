(** Property theorems C10-C14. *)
From Verif Require Import Base Cpu Alu Ops Machine Spec SpecOps SpecOps2 SpecSys SpecRun SpecTop PBase PMem PRun PFrame PExec PTop2 PSmall PSmall2 PAlg PIMov PStep PIJump Demo.

(** ** C10: writes stay in mapped blocks -- up to the three bytes a multi-byte store may spill. *)
Theorem C10_writes_confined_partial E s : polite E -> wf_state s ->
  forall s', (run_one E s = Ok tt s' \/ exists c, run_one E s = Err c s') ->
  forall x, hmem (ar s') x <> hmem (ar s) x -> near_block (mtab (ar s)) x.
Proof. intros HP W s' H. exact (ge_mem _ _ (effect_one E s HP W s' H)). Qed.
(** With the usual contiguous map: inside the 1 MiB + 64 KiB region (and three bytes). *)
Theorem C10_writes_confined_flat_partial E base s : polite E -> wf_state s -> flat E base (ar s) ->
  forall s', (run_one E s = Ok tt s' \/ exists c, run_one E s = Err c s') ->
  forall x, hmem (ar s') x <> hmem (ar s) x -> base <= x < base + 0x110000 + 3.
Proof.
  intros HP W F s' H x Hx. destruct (C10_writes_confined_partial E s HP W s' H x Hx) as (b & Hb & Hr).
  rewrite (fl_tab _ _ _ F b Hb) in Hr. lia.
Qed.
(** The full claim is false: MOV [0FFE],EAX with blocks that are not adjacent in host memory. *)
Definition gap_map (b : Z) : Z := 4096 + 8192 * b.
Definition gap_state : st :=
  mkSt (mkArch 0x11223344 0 0x2000 0 0 0 0x1000 0x100 2 2 gap_map (fun _ => 0)
          (fun x => Some (assoc (blist (4096 + 8192 * 16 + 256) [0x66; 0x89; 0x06; 0xFE; 0x0F]) x)) []) dec0 0 0 false.
Theorem C10_writes_confined_refuted : exists s' x,
  polite demo_env /\ wf_state gap_state /\ run_one demo_env gap_state = Ok tt s' /\
  hmem (ar s') x <> hmem (ar gap_state) x /\ ~ in_block (mtab (ar gap_state)) x.
Proof.
  destruct (okb_ex (run_one demo_env gap_state) (fun s' => match hmem (ar s') (4096 + 8192 * 32 + 4096) with Some b => b =? 0x22 | None => false end))
    as (s' & H1 & H2); [vm_compute; reflexivity|]. exists s', (4096 + 8192 * 32 + 4096).
  split; [apply demo_polite|]. split; [|split; [exact H1|split]].
  - constructor; cbn [gap_state ar dc dec0 d_ipoff d_seg d_rep]; try lia.
    + constructor; cbn; unfold inrange; lia.
    + intros x b H. apply PIJump.some_inj in H. rewrite <- H. apply assoc_range. reflexivity.
  - destruct (hmem (ar s') _) as [b|]; [|discriminate]. apply Z.eqb_eq in H2. subst b. vm_compute. discriminate.
  - intros (b & Hb & Hr). cbn [gap_state ar mtab] in Hr. unfold gap_map in Hr. lia.
Qed.
Print Assumptions C10_writes_confined_partial. Print Assumptions C10_writes_confined_flat_partial. Print Assumptions C10_writes_confined_refuted.

(** ** C11: NULL map entries, in a build in which the NULL check is compiled in. *)
(** Block number of a linear address; NULL means "no block installed". *)
Definition unmapped (E : env) (a : arch) (x : Z) : Prop :=
  mtab a (x / 4096) = 0 /\ (zero_null_ok E = true -> x / 4096 <> 0).
Theorem C11_fetch_checked_partial E s : null_check E = true -> at_instruction (ar s) -> icount s <> 2147483647 -> wf_regs (ar s) ->
  unmapped E (ar s) (lin (r_cs (ar s)) (r_ip (ar s))) -> stops E s E_BADMEM.
Proof. intros HE A C W [U1 U2]. exact (run_null E s HE A C W U1 U2). Qed.
(** Every memory access of every instruction goes through these two (segment and offset are 16-bit). *)
Theorem C11_read_checked_partial E s w seg ofs : null_check E = true -> inrange 16 seg -> inrange 16 ofs ->
  unmapped E (ar s) (lin seg ofs) -> rd E w seg ofs s = Err E_BADMEM s.
Proof. exact (rd_null E s w seg ofs). Qed.
Theorem C11_write_checked_partial E s w seg ofs v : null_check E = true -> inrange 16 seg -> inrange 16 ofs ->
  unmapped E (ar s) (lin seg ofs) -> wr E w seg ofs v s = Err E_BADMEM s.
Proof. exact (wr_null E s w seg ofs v). Qed.
Definition checked_env : env := mkEnv true false (fun _ _ p => p * 3 + 7) (fun _ _ s => s).
Example C11_case : let s := create_state 0 (fun _ => None) in
  null_check checked_env = true /\ at_instruction (ar s) /\ wf_regs (ar s) /\ unmapped checked_env (ar s) (lin (r_cs (ar s)) (r_ip (ar s))).
Proof.
  cbv zeta. split; [reflexivity|]. split; [unfold at_instruction, magic, hle_entry_pc; cbn; lia|].
  split; [constructor; cbn; unfold inrange; lia|]. split; [reflexivity|discriminate].
Qed.
(** In the shipped build the check is not compiled in: PUSH AX with an unmapped stack block goes
    through the NULL pointer. *)
Definition null_stack (E : env) : st :=
  mkSt (mkArch (pack [0; 0; 0; 0; 0x100]) 0x3000 0 0 0 0 0x1000 0x100 2 2 (fun b => if b =? 16 then 4096 else 0) (fun _ => 0)
          (fun x => if (4096 <=? x) && (x <? 8192) then Some (if x =? 4096 + 256 then 0x50 else 0) else None) []) dec0 0 0 false.
Theorem C11_null_refuted : run_one demo_env (null_stack demo_env) = UB UbDeref.
Proof. apply is_ub_eq. vm_compute. reflexivity. Qed.
(** ... while the checked build reports RME_ERR_BADMEM. *)
Example C11_null_checked : exists s', run_one checked_env (null_stack checked_env) = Err E_BADMEM s'.
Proof. destruct (errb_ex E_BADMEM (run_one checked_env (null_stack checked_env)) (fun _ => true)) as (s' & H & _); [vm_compute; reflexivity|eauto]. Qed.
Print Assumptions C11_fetch_checked_partial. Print Assumptions C11_read_checked_partial. Print Assumptions C11_write_checked_partial. Print Assumptions C11_null_refuted.

(** ** C12: one flat address space.  A store through seg1:ofs1 followed by a load through any
    seg2:ofs2 with the same linear address. *)
Theorem C12_store_load E base s w seg1 ofs1 seg2 ofs2 v : flat E base (ar s) -> width w ->
  inrange 16 seg1 -> inrange 16 ofs1 -> inrange 16 seg2 -> inrange 16 ofs2 -> inrange w v ->
  16 * seg1 + ofs1 = 16 * seg2 + ofs2 ->
  exists s', wr E w seg1 ofs1 v s = Ok tt s' /\ rd E w seg2 ofs2 s' = Ok v s'.
Proof. exact (store_load E base s w seg1 ofs1 seg2 ofs2 v). Qed.
(** Every other byte keeps its value; the bytes stored are the little-endian digits of v. *)
Theorem C12_store_bytes E base s w seg1 ofs1 seg2 ofs2 v : flat E base (ar s) -> width w ->
  inrange 16 seg1 -> inrange 16 ofs1 -> inrange 16 seg2 -> inrange 16 ofs2 ->
  let i := (16 * seg2 + ofs2) - (16 * seg1 + ofs1) in
  exists s' b, wr E w seg1 ofs1 v s = Ok tt s' /\ rd E 8 seg2 ofs2 s = Ok b s /\
    rd E 8 seg2 ofs2 s' = Ok (if (0 <=? i) && (i <? w / 8) then (v / 256 ^ i) mod 256 else b) s'.
Proof. exact (store_bytes_rd E base s w seg1 ofs1 seg2 ofs2 v). Qed.
(** Words are little-endian. *)
Theorem C12_little_endian E base s seg ofs : flat E base (ar s) -> inrange 16 seg -> inrange 16 ofs -> ofs + 3 < 65536 ->
  exists b0 b1 b2 b3,
    rd E 8 seg ofs s = Ok b0 s /\ rd E 8 seg (ofs + 1) s = Ok b1 s /\ rd E 8 seg (ofs + 2) s = Ok b2 s /\ rd E 8 seg (ofs + 3) s = Ok b3 s /\
    rd E 16 seg ofs s = Ok (b0 + 256 * b1) s /\ rd E 32 seg ofs s = Ok (b0 + 256 * b1 + 65536 * b2 + 16777216 * b3) s.
Proof. exact (little_endian E base s seg ofs). Qed.
(** The same end to end: MOV [o1],A? executed in s and MOV A?,[o2] in any later state with the same memory. *)
Theorem C12_mov_store_load E base s1 s2 pre1 p1 pre2 p2 o1 h1 o2 h2 (wide : bool) s1' :
  fetched E base s1 pre1 p1 [if wide then 0xA3 else 0xA2; o1; h1] -> p_as p1 = false ->
  fetched E base s2 pre2 p2 [if wide then 0xA1 else 0xA0; o2; h2] -> p_as p2 = false ->
  osz p1 = osz p2 -> run_one E s1 = Ok tt s1' -> (forall x, 0 <= x < 0x110000 -> byte (ar s2) x = byte (ar s1') x) ->
  lin (sreg (data_sreg p1) (ar s1)) (o1 + 256 * h1) = lin (sreg (data_sreg p2) (ar s2)) (o2 + 256 * h2) ->
  let w := if wide then osz p1 else 8 in
  executes E s2 (pre2 ++ [if wide then 0xA1 else 0xA0; o2; h2]) (with_reg w 0 (reg w 0 (ar s1)) (ar s2)).
Proof. exact (mov_store_load E base s1 s2 pre1 p1 pre2 p2 o1 h1 o2 h2 wide s1'). Qed.
Example C12_case : flat demo_env HB (ar (demo [] 2 [] [])) /\ 16 * 0x1234 + 0x0005 = 16 * 0x1000 + 0x2345.
Proof. split; [apply demo_flat; reflexivity|reflexivity]. Qed.
Print Assumptions C12_store_load. Print Assumptions C12_store_bytes. Print Assumptions C12_little_endian. Print Assumptions C12_mov_store_load.

(** ** C13: sub-registers, observed through MOV reg,imm.  Register codes 4..7 with 8-bit operands
    are bits 8..15 of the 32-bit registers 0..3; otherwise code n is the low bits of register n. *)
Definition in_register (w n : Z) : Z := if (w =? 8) && (4 <=? n) then n - 4 else n.
Definition at_bit (w n : Z) : Z := if (w =? 8) && (4 <=? n) then 8 else 0.
Theorem C13_mov_imm E base s pre p bs w n v : fetched E base s pre p bs -> 0 <= n < 8 ->
  (exists t, bs = (0xB0 + n) :: t /\ w = 8 /\ imm 8 t = Some v) \/ (exists t, bs = (0xB8 + n) :: t /\ w = osz p /\ imm w t = Some v) ->
  exists s', run_one E s = Ok tt s' /\
    (forall m, 0 <= m < 8 ->
       if m =? in_register w n then bits_replaced (gpr m (ar s')) (gpr m (ar s)) v (at_bit w n) w
       else gpr m (ar s') = gpr m (ar s)) /\
    same (ar s') (a_gprs (gprs (ar s')) (next (pre ++ bs) (ar s) (ar s))).
Proof. exact (mov_imm_bits E base s pre p bs w n v). Qed.
Example C13_case : fetched demo_env HB (demo [0x11223344] 2 [] [0xB4; 0x99]) [] (mkPfx None false false 0) [0xB4; 0x99] /\
  exists s', run_one demo_env (demo [0x11223344] 2 [] [0xB4; 0x99]) = Ok tt s' /\ gpr 0 (ar s') = 0x11229944.
Proof.
  split; [apply (demo_fetched demo_env [0x11223344] 2 [] []); reflexivity|].
  destruct (okb_ex (run_one demo_env (demo [0x11223344] 2 [] [0xB4; 0x99])) (fun s => gpr 0 (ar s) =? 0x11229944)) as (s' & H1 & H2); [vm_compute; reflexivity|].
  exists s'. split; [exact H1|lia].
Qed.
Print Assumptions C13_mov_imm.

(** ** C14: 16-bit effective addresses.  [parse_rm] gives segment and offset of each form. *)
(** LEA computes the offset of every form, ... *)
Theorem C14_lea_offset E base s pre p t rg sg o : fetched E base s pre p (0x8D :: t) -> p_os p = false -> p_as p = false ->
  parse_rm p (ar s) t = Some (rg, RMem sg o, []) -> executes E s (pre ++ 0x8D :: t) (with_reg 16 rg o (ar s)).
Proof. exact (lea16 E base s pre p t rg sg o). Qed.
(** ... and a byte load or store uses that segment and offset, as long as the sum of base, index and
    displacement stays within 0..65535 (and [BP+SI]/[BP+DI] are not used without displacement). *)
Theorem C14_load_partial E base s pre p t rg sg o : fetched E base s pre p (0x8A :: t) ->
  parse_rm p (ar s) t = Some (rg, RMem sg o, []) -> ea_supported p (ar s) t ->
  executes E s (pre ++ 0x8A :: t) (with_reg 8 rg (byte (ar s) (16 * sg + o)) (ar s)).
Proof. exact (ea_load E base s pre p t rg sg o). Qed.
Theorem C14_store_partial E base s pre p t rg sg o : fetched E base s pre p (0x88 :: t) ->
  parse_rm p (ar s) t = Some (rg, RMem sg o, []) -> ea_supported p (ar s) t ->
  executes E s (pre ++ 0x88 :: t) (with_mem 8 (16 * sg + o) (reg 8 rg (ar s)) (ar s)).
Proof. exact (ea_store E base s pre p t rg sg o). Qed.
Example C14_case : let s := demo [0; 0; 0; 0x10; 0; 0x20; 0x30] 2 [(0x3000 * 16 + 0x4F, 0x77)] [0x8A; 0x4A; 0xFF] in
  fetched demo_env HB s [] (mkPfx None false false 0) [0x8A; 0x4A; 0xFF] /\
  parse_rm (mkPfx None false false 0) (ar s) [0x4A; 0xFF] = Some (1, RMem 0x3000 0x4F, []) /\
  ea_supported (mkPfx None false false 0) (ar s) [0x4A; 0xFF].
Proof.
  cbv zeta. split; [apply (demo_fetched demo_env _ 2 _ []); reflexivity|]. split; [vm_compute; reflexivity|].
  intros _. split; [vm_compute; split; congruence|]. intros H. vm_compute in H. discriminate.
Qed.
(** Without these restrictions the claim is false. *)
(** MOV AL,[9000h] reads linear DS*16 + 9000h - 10000h. *)
Theorem C14_direct_refuted : let s := demo [] 2 [(0x2000 * 16 + 0x9000, 0x55); (0x2000 * 16 + 0x9000 - 0x10000, 0x66)] [0x8A; 0x06; 0x00; 0x90] in
  parse_rm (mkPfx None false false 0) (ar s) [0x06; 0x00; 0x90] = Some (0, RMem 0x2000 0x9000, []) /\
  byte (ar s) (16 * 0x2000 + 0x9000) = 0x55 /\
  exists s', run_one demo_env s = Ok tt s' /\ reg 8 0 (ar s') = 0x66.
Proof.
  cbv zeta. split; [vm_compute; reflexivity|]. split; [vm_compute; reflexivity|].
  match goal with |- exists s', ?r = _ /\ _ => destruct (okb_ex r (fun s => reg 8 0 (ar s) =? 0x66)) as (s' & H1 & H2); [vm_compute; reflexivity|] end.
  exists s'. split; [exact H1|lia].
Qed.
(** MOV AL,[BX+SI] with BX=FFFF, SI=2 reads offset 10001h, not 1. *)
Theorem C14_wrap_refuted : let s := demo [0; 0; 0; 0xFFFF; 0; 0; 2] 2 [(0x2000 * 16 + 1, 0x55); (0x2000 * 16 + 0x10001, 0x66)] [0x8A; 0x00] in
  parse_rm (mkPfx None false false 0) (ar s) [0x00] = Some (0, RMem 0x2000 1, []) /\
  byte (ar s) (16 * 0x2000 + 1) = 0x55 /\
  exists s', run_one demo_env s = Ok tt s' /\ reg 8 0 (ar s') = 0x66.
Proof.
  cbv zeta. split; [vm_compute; reflexivity|]. split; [vm_compute; reflexivity|].
  match goal with |- exists s', ?r = _ /\ _ => destruct (okb_ex r (fun s => reg 8 0 (ar s) =? 0x66)) as (s' & H1 & H2); [vm_compute; reflexivity|] end.
  exists s'. split; [exact H1|lia].
Qed.
(** MOV AL,[BP+SI] uses DS. *)
Theorem C14_bp_segment_refuted : let s := demo [0; 0; 0; 0; 0; 0x10; 2] 2 [(0x3000 * 16 + 0x12, 0x55); (0x2000 * 16 + 0x12, 0x66)] [0x8A; 0x02] in
  parse_rm (mkPfx None false false 0) (ar s) [0x02] = Some (0, RMem 0x3000 0x12, []) /\
  byte (ar s) (16 * 0x3000 + 0x12) = 0x55 /\
  exists s', run_one demo_env s = Ok tt s' /\ reg 8 0 (ar s') = 0x66.
Proof.
  cbv zeta. split; [vm_compute; reflexivity|]. split; [vm_compute; reflexivity|].
  match goal with |- exists s', ?r = _ /\ _ => destruct (okb_ex r (fun s => reg 8 0 (ar s) =? 0x66)) as (s' & H1 & H2); [vm_compute; reflexivity|] end.
  exists s'. split; [exact H1|lia].
Qed.
Print Assumptions C14_lea_offset. Print Assumptions C14_load_partial. Print Assumptions C14_store_partial.
Print Assumptions C14_direct_refuted. Print Assumptions C14_wrap_refuted. Print Assumptions C14_bp_segment_refuted.
