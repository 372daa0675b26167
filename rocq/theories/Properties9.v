(** Property theorems C41-C44: data movement, conversions, port I/O, stack frames. *)
From Verif Require Import Base Cpu Alu Ops Machine Spec SpecOps SpecOps2 SpecSys SpecStr SpecRun SpecTop PBase PMem PRun PFrame PAlu PExec PStep PFlags PSmall PSmall2 PSmall3 PSmall4 PIAlu PIAlu2 PAlg PIMov PIStack PIJump PIInt PIMisc PIBcd PIStr PTop2 PTop3 PSmall6 PSmall7 PSmall8 Demo.

Definition np : pfx := mkPfx None false false 0.
Definition p66 : pfx := mkPfx None true false 0.
Ltac witness t := match goal with |- exists s', ?r = _ /\ _ => destruct (okb_ex r t) as (s' & H1 & H2); [vm_compute; reflexivity|]; exists s'; split; [exact H1|] end.
Ltac regform := split; [intros H; exfalso; apply H; reflexivity|intros; first [exact I|discriminate]].
Ltac zc := cbn [Z.leb Z.compare Pos.compare Pos.compare_cont CompOpp andb orb Z.eqb Pos.eqb negb Z.ltb].
Ltac movx := eapply mov_instr; [eassumption|unfold step_mov; zc|assumption].

(** ** C41.  MOV r/m,r (88, 89) and r,r/m (8A, 8B): the operand is copied and nothing else changes. *)
Section C41.
Context (E : env) (base : Z) (s : st) (pre : list Z) (p : pfx) (t : list Z) (wide : bool).
Let w := if wide then osz p else 8.
Theorem C41_mov_store rg r : let bs := (if wide then 0x89 else 0x88) :: t in
  fetched E base s pre p bs -> parse_rm p (ar s) t = Some (rg, r, []) -> operand_ok p (ar s) bs ->
  executes E s (pre ++ bs) (wr_rm w r (reg w rg (ar s)) (ar s)).
Proof. unfold w. clear w. cbv zeta. intros Hf Hp Ho. destruct wide; movx; rewrite Hp; reflexivity. Qed.
Theorem C41_mov_load rg r : let bs := (if wide then 0x8B else 0x8A) :: t in
  fetched E base s pre p bs -> parse_rm p (ar s) t = Some (rg, r, []) -> operand_ok p (ar s) bs ->
  executes E s (pre ++ bs) (with_reg w rg (rd_rm w r (ar s)) (ar s)).
Proof. unfold w. clear w. cbv zeta. intros Hf Hp Ho. destruct wide; movx; rewrite Hp; reflexivity. Qed.
(** MOV r/m,imm (C6, C7) and MOV r,imm (B0+r, B8+r). *)
Theorem C41_mov_imm r t' i : let bs := (if wide then 0xC7 else 0xC6) :: t in
  fetched E base s pre p bs -> parse_rm p (ar s) t = Some (0, r, t') -> imm w t' = Some i -> operand_ok p (ar s) bs ->
  executes E s (pre ++ bs) (wr_rm w r i (ar s)).
Proof. unfold w. clear w. cbv zeta. intros Hf Hp Hi Ho. destruct wide; movx; rewrite Hp; cbn [Z.eqb]; rewrite Hi; reflexivity. Qed.
Theorem C41_mov_reg_imm rg i : let bs := ((if wide then 0xB8 else 0xB0) + rg) :: t in 0 <= rg < 8 ->
  fetched E base s pre p bs -> imm w t = Some i -> executes E s (pre ++ bs) (with_reg w rg i (ar s)).
Proof.
  unfold w. clear w. cbv zeta. intros Hr Hf Hi. eapply mov_instr; [exact Hf| |].
  - unfold step_mov. destruct wide; repeat match goal with |- context [?a + rg =? ?b] => replace (a + rg =? b) with false by lia end.
    + replace ((176 <=? 184 + rg) && (184 + rg <=? 183)) with false by lia. replace ((184 <=? 184 + rg) && (184 + rg <=? 191)) with true by lia. rewrite Hi. cbn [after]. do 3 f_equal. lia.
    + replace ((176 <=? 176 + rg) && (176 + rg <=? 183)) with true by lia. rewrite Hi. cbn [after]. do 3 f_equal. lia.
  - clear Hf. assert (rg = 0 \/ rg = 1 \/ rg = 2 \/ rg = 3 \/ rg = 4 \/ rg = 5 \/ rg = 6 \/ rg = 7) as K by lia.
    destruct wide, K as [->|[->|[->|[->|[->|[->|[->| ->]]]]]]]; exact I.
Qed.
(** MOV AL/AX/EAX,[o] (A0, A1) and back (A2, A3). *)
Theorem C41_mov_moffs_load o : let bs := (if wide then 0xA1 else 0xA0) :: t in
  fetched E base s pre p bs -> imm (asz p) t = Some o -> o < 65536 ->
  executes E s (pre ++ bs) (with_reg w AX (mem w (ar s) (lin (sreg (data_sreg p) (ar s)) o)) (ar s)).
Proof. unfold w. clear w. cbv zeta. intros Hf Hi Ho. apply Z.ltb_lt in Ho. destruct wide; (eapply mov_instr; [exact Hf|unfold step_mov; zc; rewrite Hi; cbn [after]; rewrite Ho; reflexivity|exact I]). Qed.
Theorem C41_mov_moffs_store o : let bs := (if wide then 0xA3 else 0xA2) :: t in
  fetched E base s pre p bs -> imm (asz p) t = Some o -> o < 65536 ->
  executes E s (pre ++ bs) (with_mem w (lin (sreg (data_sreg p) (ar s)) o) (reg w AX (ar s)) (ar s)).
Proof. unfold w. clear w. cbv zeta. intros Hf Hi Ho. apply Z.ltb_lt in Ho. destruct wide; (eapply mov_instr; [exact Hf|unfold step_mov; zc; rewrite Hi; cbn [after]; rewrite Ho; reflexivity|exact I]). Qed.
(** XCHG r/m,r (86, 87): afterwards each operand holds what the other held. *)
Theorem C41_xchg rg r : let bs := (if wide then 0x87 else 0x86) :: t in
  fetched E base s pre p bs -> parse_rm p (ar s) t = Some (rg, r, []) -> operand_ok p (ar s) bs ->
  exists a', executes E s (pre ++ bs) a' /\ a' = wr_rm w r (reg w rg (ar s)) (with_reg w rg (rd_rm w r (ar s)) (ar s)) /\
    rd_rm w r a' = reg w rg (ar s) /\ reg w rg a' = rd_rm w r (ar s).
Proof.
  intros bs Hf Hp Ho. exists (wr_rm w r (reg w rg (ar s)) (with_reg w rg (rd_rm w r (ar s)) (ar s))). pose proof Hf as ([F W _ _] & _).
  assert (Hw : width w) by (apply moffs_w).
  destruct (instr_ctx _ _ _ _ _ _ _ Hf) as (_ & _ & Hpx & C & _).
  destruct (parse_rm_ok _ _ _ _ _ _ W Hp) as [Hok Hrg].
  assert (Hv : inrange w (rd_rm w r (ar s))) by (eapply (rd_rm_range E base); eauto).
  assert (Hg : inrange w (reg w rg (ar s))) by (apply reg_range; auto).
  split; [unfold bs, w in *; clear w; destruct wide; movx; rewrite Hp; reflexivity|]. split; [reflexivity|]. split.
  - eapply (rd_wr_same E base); eauto. auto with flat.
  - destruct r as [n|sg o]; cbn [wr_rm rd_rm rm_ok] in *.
    + destruct (Z.eq_dec rg n) as [->|Hne]; [apply reg_same; auto|].
      rewrite reg_other; [apply reg_same; auto| | | | | |]; auto. unfold rpos. destruct Hw as [->|[->| ->]]; cbn [Z.eqb Pos.eqb]; repeat match goal with |- context [?a <? 4] => destruct (Z.ltb_spec a 4) end; lia.
    + rewrite wmem_reg. apply reg_same; auto.
Qed.
End C41.

Section C41b.
Context (E : env) (base : Z) (s : st) (pre : list Z) (p : pfx) (t : list Z).
(** MOV r/m,Sreg (8C) and Sreg,r/m (8E); segment registers 0..5 are ES CS SS DS FS GS.  The last two encodings
    do not exist; 8E to CS is not allowed on an x86 (the emulator performs it). *)
Theorem C41_mov_from_sreg rg r : let bs := 0x8C :: t in fetched E base s pre p bs -> p_os p = false ->
  parse_rm p (ar s) t = Some (rg, r, []) -> rg <= 5 -> operand_ok p (ar s) bs ->
  executes E s (pre ++ bs) (wr_rm 16 r (sreg rg (ar s)) (ar s)).
Proof. cbv zeta. intros Hf Hs Hp Hr Ho. movx. rewrite Hp, Hs. replace (5 <? rg) with false by lia. reflexivity. Qed.
Theorem C41_mov_to_sreg rg r : let bs := 0x8E :: t in fetched E base s pre p bs -> p_os p = false ->
  parse_rm p (ar s) t = Some (rg, r, []) -> rg <= 5 -> rg <> 1 -> operand_ok p (ar s) bs ->
  executes E s (pre ++ bs) (with_sreg rg (rd_rm 16 r (ar s)) (ar s)).
Proof. cbv zeta. intros Hf Hs Hp Hr H1 Ho. movx. rewrite Hp, Hs. replace (5 <? rg) with false by lia. replace (rg =? 1) with false by lia. reflexivity. Qed.
(** XCHG AX,r (90+r). *)
Theorem C41_xchg_ax n : let bs := [0x90 + n] in let w := osz p in fetched E base s pre p bs -> 0 <= n < 8 ->
  executes E s (pre ++ bs) (with_reg w n (reg w AX (ar s)) (with_reg w AX (reg w n (ar s)) (ar s))).
Proof.
  cbv zeta. intros Hf Hn. eapply mov_instr; [exact Hf| |].
  - unfold step_mov. repeat match goal with |- context [?a + n =? ?b] => replace (a + n =? b) with false by lia end.
    replace ((176 <=? 144 + n) && (144 + n <=? 183)) with false by lia. replace ((184 <=? 144 + n) && (144 + n <=? 191)) with false by lia.
    replace ((144 <=? 144 + n) && (144 + n <=? 151)) with true by lia. cbn [ifrest]. replace (144 + n - 144) with n by lia. reflexivity.
  - clear Hf. assert (n = 0 \/ n = 1 \/ n = 2 \/ n = 3 \/ n = 4 \/ n = 5 \/ n = 6 \/ n = 7) as K by lia.
    destruct K as [->|[->|[->|[->|[->|[->|[->| ->]]]]]]]; exact I.
Qed.
(** MOVZX r,r/m8 (0F B6) and r,r/m16 (0F B7): the value is less than 2^8 (2^16), the register gets it unchanged. *)
Theorem C41_movzx (wd : bool) rg r : let bs := 0x0F :: (if wd then 0xB7 else 0xB6) :: t in let sw := if wd then 16 else 8 in
  fetched E base s pre p bs -> parse_rm p (ar s) t = Some (rg, r, []) -> operand_ok p (ar s) bs ->
  executes E s (pre ++ bs) (with_reg (osz p) rg (rd_rm sw r (ar s)) (ar s)).
Proof. cbv zeta. intros Hf Hp Ho. destruct wd; movx; rewrite Hp; reflexivity. Qed.
(** XLAT (D7): the byte at segment:(BX+AL), EBX with prefix 67. *)
Theorem C41_xlat : let bs := [0xD7] in let o := (reg (asz p) BX (ar s) + reg 8 AX (ar s)) mod 2 ^ asz p in fetched E base s pre p bs -> o < 65536 ->
  executes E s (pre ++ bs) (with_reg 8 AX (mem 8 (ar s) (lin (sreg (data_sreg p) (ar s)) o)) (ar s)).
Proof.
  cbv zeta. intros Hf Ho. apply Z.ltb_lt in Ho. eapply mov_instr; [exact Hf| |exact I].
  unfold step_mov. zc. unfold low. rewrite Ho. reflexivity.
Qed.
(** LEA r,[m] (8D): the effective offset, truncated or zero-extended to the operand size. *)
Theorem C41_lea rg o : let bs := 0x8D :: t in fetched E base s pre p bs ->
  lea_offset p (ar s) t = Some (rg, o) -> lea_supported p (ar s) t ->
  executes E s (pre ++ bs) (with_reg (osz p) rg (o mod 2 ^ osz p) (ar s)).
Proof. cbv zeta. intros Hf Hp Hs. eapply lea_instr; eauto. Qed.
(** LES, LDS, LSS, LFS, LGS: offset (16 or 32 bits), then segment, from memory. *)
Inductive load_far : list Z -> Z -> Prop :=
| lf_es : load_far (0xC4 :: t) 0 | lf_ds : load_far (0xC5 :: t) 3
| lf_ss : load_far (0x0F :: 0xB2 :: t) 2 | lf_fs : load_far (0x0F :: 0xB4 :: t) 4 | lf_gs : load_far (0x0F :: 0xB5 :: t) 5.
Theorem C41_load_far bs sr rg sg o : fetched E base s pre p bs -> load_far bs sr ->
  parse_rm p (ar s) t = Some (rg, RMem sg o, []) -> operand_ok p (ar s) bs -> let w := osz p in
  executes E s (pre ++ bs) (with_sreg sr (mem 16 (ar s) (lin sg ((o + w / 8) mod 65536))) (with_reg w rg (mem w (ar s) (lin sg o)) (ar s))).
Proof. intros Hf Hl Hp Ho. cbv zeta. destruct Hl; movx; rewrite Hp; reflexivity. Qed.
End C41b.

(** MOV [BX+2],CX; XCHG [BX],AL; MOVZX EAX,CH; LES DI,[BX]. *)
Ltac memok := split; [intros _; split; [vm_compute; split; congruence|intros _ H; exfalso; vm_compute in H; lia]|]; intros _; vm_compute; congruence.
Example C41_case : let bs := [0x89; 0x4F; 2] in let s := demo [0; 0x1234; 0; 0x40] 2 [] bs in
  fetched demo_env HB s [] np bs /\ parse_rm np (ar s) [0x4F; 2] = Some (CX, RMem 0x2000 0x42, []) /\ operand_ok np (ar s) bs.
Proof. cbv zeta. split; [apply (demo_fetched demo_env _ 2 _ []); reflexivity|]. split; [vm_compute; reflexivity|]. memok. Qed.
Example C41_case2 : let bs := [0x86; 0x07] in let s := demo [0x55; 0x1234; 0; 0x40] 2 [] bs in
  fetched demo_env HB s [] np bs /\ parse_rm np (ar s) [0x07] = Some (AX, RMem 0x2000 0x40, []) /\ operand_ok np (ar s) bs.
Proof. cbv zeta. split; [apply (demo_fetched demo_env _ 2 _ []); reflexivity|]. split; [vm_compute; reflexivity|]. memok. Qed.
Example C41_case3 : let bs := [0x0F; 0xB6; 0xC5] in let s := demo [0x55555555; 0x8234; 0; 0x40] 2 [] (0x66 :: bs) in
  fetched demo_env HB s [0x66] p66 bs /\ parse_rm p66 (ar s) [0xC5] = Some (AX, RReg 5, []) /\ operand_ok p66 (ar s) bs.
Proof. cbv zeta. split; [apply (demo_fetched demo_env _ 2 _ [0x66]); reflexivity|]. split; [vm_compute; reflexivity|]. regform. Qed.
Example C41_case4 : let bs := [0xC4; 0x3F] in let s := demo [0; 0; 0; 0x40] 2 [(0x20040, 1); (0x20043, 0x70)] bs in
  fetched demo_env HB s [] np bs /\ load_far [0x3F] bs 0 /\ parse_rm np (ar s) [0x3F] = Some (DI, RMem 0x2000 0x40, []) /\ operand_ok np (ar s) bs.
Proof. cbv zeta. split; [apply (demo_fetched demo_env _ 2 _ []); reflexivity|]. split; [constructor|]. split; [vm_compute; reflexivity|]. memok. Qed.
Example C41_case5 : let bs := [0xA1; 0x34; 0x12] in fetched demo_env HB (demo [] 2 [] bs) [] np bs /\ imm 16 [0x34; 0x12] = Some 0x1234.
Proof. cbv zeta. split; [apply (demo_fetched demo_env _ 2 _ []); reflexivity|]. reflexivity. Qed.
(** LEA EAX,[EBX+ECX*4] (66 67 8D 04 8B). *)
Example C41_case_lea : let bs := [0x8D; 0x04; 0x8B] in let q := mkPfx None true true 0 in let s := demo [0; 0x30000; 0; 0x12345678] 2 [] ([0x66; 0x67] ++ bs) in
  fetched demo_env HB s [0x66; 0x67] q bs /\ lea_offset q (ar s) [0x04; 0x8B] = Some (0, 0x12405678) /\ lea_supported q (ar s) [0x04; 0x8B].
Proof. cbv zeta. split; [apply (demo_fetched demo_env _ 2 _ [0x66; 0x67]); reflexivity|]. split; [vm_compute; reflexivity|]. split; [intros _; split; [reflexivity|intros H; vm_compute in H; discriminate]|intros _ H; vm_compute in H; congruence]. Qed.
Example C41_case6 : let bs := [0x8E; 0xC0] in let s := demo [0x7000] 2 [] bs in fetched demo_env HB s [] np bs /\ parse_rm np (ar s) [0xC0] = Some (0, RReg AX, []) /\ operand_ok np (ar s) bs.
Proof. cbv zeta. split; [apply (demo_fetched demo_env _ 2 _ []); reflexivity|]. split; [vm_compute; reflexivity|]. regform. Qed.
Print Assumptions C41_mov_store. Print Assumptions C41_mov_load. Print Assumptions C41_mov_imm. Print Assumptions C41_mov_reg_imm. Print Assumptions C41_mov_moffs_load.
Print Assumptions C41_mov_moffs_store. Print Assumptions C41_xchg. Print Assumptions C41_mov_from_sreg. Print Assumptions C41_mov_to_sreg. Print Assumptions C41_xchg_ax.
Print Assumptions C41_movzx. Print Assumptions C41_xlat. Print Assumptions C41_lea. Print Assumptions C41_load_far.
(** ** C42. *)
Ltac miscx := eapply misc_instr; [eassumption|unfold step_misc; zc|first [exact I|assumption]].
Theorem C42_cbw E base s pre p : fetched E base s pre p [0x98] -> p_os p = false ->
  executes E s (pre ++ [0x98]) (with_reg 16 AX (signed 8 (reg 8 AX (ar s)) mod 65536) (ar s)).
Proof. intros Hf Ho. miscx. rewrite Ho. reflexivity. Qed.
(** CWD, CDQ (99): DX:AX (EDX:EAX) is AX (EAX) sign-extended. *)
Theorem C42_cwd E base s pre p : fetched E base s pre p [0x99] -> let w := osz p in
  exists hi, executes E s (pre ++ [0x99]) (with_reg w DX hi (ar s)) /\ inrange w hi /\
    signed (2 * w) (reg w AX (ar s) + 2 ^ w * hi) = signed w (reg w AX (ar s)).
Proof.
  intros Hf. cbv zeta. exists (if top (osz p) (reg (osz p) 0 (ar s)) then 2 ^ osz p - 1 else 0). split; [miscx; reflexivity|].
  assert (Hw : osz p = 16 \/ osz p = 32) by (unfold osz; destruct (p_os p); auto).
  assert (Hr : inrange (osz p) (reg (osz p) 0 (ar s))) by (apply reg_range; [unfold width; lia|lia]).
  unfold signed, inrange, top in *. destruct Hw as [Hw|Hw]; rewrite Hw in *; cbn [Z.mul Z.sub Z.pow Z.pow_pos Pos.iter Z.add Pos.mul Z.opp Pos.add] in *;
    change (2 ^ 16) with 65536 in *; change (2 ^ 32) with 4294967296 in *; change (2 ^ (16 - 1)) with 32768 in *; change (2 ^ (32 - 1)) with 2147483648 in *;
    change (2 ^ (2 * 16)) with 4294967296 in *; change (2 ^ (2 * 32)) with 18446744073709551616 in *; change (2 ^ (2 * 16 - 1)) with 2147483648 in *; change (2 ^ (2 * 32 - 1)) with 9223372036854775808 in *.
  all: split; [destruct (_ <=? _); lia|].
  all: repeat match goal with |- context [?a <=? ?b] => destruct (Z.leb_spec a b) | |- context [?a <? ?b] => destruct (Z.ltb_spec a b) end; lia.
Qed.

(** CMC CLC STC CLI STI CLD STD: the flag and its new value. *)
Definition flag_op (op f : Z) : option (Z * bool) :=
  match op with
  | 0xF5 => Some (CF, negb (flag CF f)) | 0xF8 => Some (CF, false) | 0xF9 => Some (CF, true)
  | 0xFA => Some (IF_, false) | 0xFB => Some (IF_, true) | 0xFC => Some (DF, false) | 0xFD => Some (DF, true)
  | _ => None
  end.
Theorem C42_flag_ops E base s pre p op j v : fetched E base s pre p [op] -> flag_op op (r_flags (ar s)) = Some (j, v) ->
  exists f, executes E s (pre ++ [op]) (a_flags f (ar s)) /\ flag j f = v /\ other_flags [j] (r_flags (ar s)) f.
Proof.
  intros Hf Ho. exists (put j v (r_flags (ar s))).
  assert (Hj : 0 <= j) by (unfold flag_op in Ho; destruct op as [|q|q]; try discriminate; repeat (destruct q as [q|q|]; try discriminate); injection Ho as <- <-; lia).
  split; [|split; [rewrite flag_put by lia; rewrite Z.eqb_refl; reflexivity|intros i Hi Hn; rewrite flag_put by lia; replace (i =? j) with false by (cbn [In] in Hn; lia); reflexivity]].
  unfold flag_op in Ho. assert (K : In op [0xF5; 0xF8; 0xF9; 0xFA; 0xFB; 0xFC; 0xFD]) by (destruct op as [|q|q]; try discriminate; repeat (destruct q as [q|q|]; try discriminate); cbn [In]; auto 10).
  cbn [In] in K. destruct K as [<-|[<-|[<-|[<-|[<-|[<-|[<-|[]]]]]]]]; injection Ho as <- <-; miscx; reflexivity.
Qed.
(** LAHF (9F): AH gets the low byte of FLAGS.  SAHF (9E): SF ZF AF PF CF from AH (register 4 at width 8). *)
Theorem C42_lahf E base s pre p : fetched E base s pre p [0x9F] -> executes E s (pre ++ [0x9F]) (with_reg 8 4 (r_flags (ar s) mod 256) (ar s)).
Proof. intros Hf. miscx. reflexivity. Qed.
Theorem C42_sahf E base s pre p : fetched E base s pre p [0x9E] -> exists f, executes E s (pre ++ [0x9E]) (a_flags f (ar s)) /\
  (forall j, In j [CF; PF; AF; ZF; SF] -> flag j f = Z.testbit (reg 8 4 (ar s)) j) /\ other_flags [CF; PF; AF; ZF; SF] (r_flags (ar s)) f.
Proof.
  intros Hf. eexists. split; [miscx; reflexivity|]. split.
  - intros j Hj. cbn [In] in Hj. destruct Hj as [<-|[<-|[<-|[<-|[<-|[]]]]]]; rewrite !flag_put by lia; reflexivity.
  - intros j Hj Hn. cbn [In] in Hn. rewrite !flag_put by lia. repeat match goal with |- context [?a =? ?b] => replace (a =? b) with false by lia end. reflexivity.
Qed.
(** BSF r16,r/m16 (0F BC): the lowest set bit i, or ZF. *)
Theorem C42_bsf E base s pre p t rg r : let bs := 0x0F :: 0xBC :: t in fetched E base s pre p bs -> p_os p = false ->
  parse_rm p (ar s) t = Some (rg, r, []) -> operand_ok p (ar s) bs -> let v := rd_rm 16 r (ar s) in
  (v = 0 /\ exists f, executes E s (pre ++ bs) (a_flags f (ar s)) /\ flag ZF f = true /\ other_flags [ZF] (r_flags (ar s)) f) \/
  (v <> 0 /\ exists i f, executes E s (pre ++ bs) (a_flags f (with_reg 16 rg i (ar s))) /\ flag ZF f = false /\ other_flags [ZF] (r_flags (ar s)) f /\
     0 <= i < 16 /\ Z.testbit v i = true /\ forall j, 0 <= j < i -> Z.testbit v j = false).
Proof.
  cbv zeta. intros Hf Ho Hp Hop. pose proof Hf as ([F W _ _] & _). destruct (parse_rm_ok _ _ _ _ _ _ W Hp) as [Hok Hrg].
  assert (Hr : inrange 16 (rd_rm 16 r (ar s))) by (apply (rd_rm_range E base); auto with width). unfold inrange in Hr.
  assert (Hfl : forall b, flag ZF (put ZF b (r_flags (ar s))) = b /\ other_flags [ZF] (r_flags (ar s)) (put ZF b (r_flags (ar s)))).
  { intros b. split; [rewrite flag_put by lia; reflexivity|]. intros j Hj Hn. cbn [In] in Hn. rewrite flag_put by lia. replace (j =? 6) with false by lia. reflexivity. }
  pose proof (misc_instr E base s pre p (0x0F :: 0xBC :: t)) as X. unfold step_misc in X. rewrite Ho, Hp in X.
  destruct (lowest_bit (rd_rm 16 r (ar s))) as [i|] eqn:Hl.
  - right. unfold lowest_bit in Hl. apply find_first in Hl. destruct Hl as (Hi & Ht & Hlt).
    split; [intros E0; rewrite E0, Z.testbit_0_l in Ht; discriminate|]. exists i, (put ZF false (r_flags (ar s))). split.
    { eapply X; [exact Hf|reflexivity|exact Hop]. }
    destruct (Hfl false). split; [assumption|]. split; [assumption|]. split; [lia|]. split; [exact Ht|]. intros j Hj. apply Hlt. lia.
  - left. unfold lowest_bit in Hl. split.
    { apply Z.bits_inj'. intros j Hj. rewrite Z.testbit_0_l. destruct (Z.lt_ge_cases j 16); [apply (find_nothing _ _ _ Hl); lia|].
      rewrite <- (Z.mod_small (rd_rm 16 r (ar s)) (2 ^ 16)) by exact Hr. apply Z.mod_pow2_bits_high. lia. }
    exists (put ZF true (r_flags (ar s))). split; [eapply X; [exact Hf|reflexivity|exact Hop]|]. apply Hfl.
Qed.
Example C42_case : let bs := [0x0F; 0xBC; 0xC3] in let s := demo [0; 0; 0; 0xA0] 2 [] bs in
  fetched demo_env HB s [] np bs /\ parse_rm np (ar s) [0xC3] = Some (AX, RReg BX, []) /\ operand_ok np (ar s) bs /\ rd_rm 16 (RReg BX) (ar s) = 0xA0.
Proof. cbv zeta. split; [apply (demo_fetched demo_env _ 2 _ []); reflexivity|]. split; [vm_compute; reflexivity|]. split; [regform|]. vm_compute. reflexivity. Qed.
Example C42_case2 : fetched demo_env HB (demo [0x8080] 0xFD7 [] [0x98]) [] np [0x98] /\ fetched demo_env HB (demo [0x8080] 0xFD7 [] [0x66; 0x99]) [0x66] p66 [0x99] /\
  fetched demo_env HB (demo [0x8080] 0xFD7 [] [0xF5]) [] np [0xF5] /\ flag_op 0xF5 0xFD7 = Some (CF, false) /\ fetched demo_env HB (demo [0x8080] 0xFD7 [] [0x9E]) [] np [0x9E].
Proof.
  split; [apply (demo_fetched demo_env _ 0xFD7 _ []); reflexivity|]. split; [apply (demo_fetched demo_env _ 0xFD7 _ [0x66]); reflexivity|].
  split; [apply (demo_fetched demo_env _ 0xFD7 _ []); reflexivity|]. split; [reflexivity|]. apply (demo_fetched demo_env _ 0xFD7 _ []); reflexivity.
Qed.
Print Assumptions C42_cbw. Print Assumptions C42_cwd. Print Assumptions C42_flag_ops. Print Assumptions C42_lahf. Print Assumptions C42_sahf. Print Assumptions C42_bsf.

(** ** C43.  IN and OUT: the bytes, access width, and port. *)
Inductive io_bytes (p : pfx) (a : arch) : list Z -> bool -> Z -> Z -> Prop :=
| in_imm8 n : io_bytes p a [0xE4; n] true 8 n | in_imm n : io_bytes p a [0xE5; n] true (osz p) n
| in_dx8 : io_bytes p a [0xEC] true 8 (reg 16 DX a) | in_dx : io_bytes p a [0xED] true (osz p) (reg 16 DX a)
| out_imm8 n : io_bytes p a [0xE6; n] false 8 n | out_imm n : io_bytes p a [0xE7; n] false (osz p) n
| out_dx8 : io_bytes p a [0xEE] false 8 (reg 16 DX a) | out_dx : io_bytes p a [0xEF] false (osz p) (reg 16 DX a).
(** The log of port accesses gets exactly one more entry; IN puts what the port delivered in AL/AX/EAX. *)
Theorem C43_in E base s pre p bs w port : fetched E base s pre p bs -> io_bytes p (ar s) bs true w port ->
  let v := port_in E (iolog (ar s)) w port mod 2 ^ w in
  executes E s (pre ++ bs) (with_reg w AX v (a_iolog (iolog (ar s) ++ [IoIn w port v]) (ar s))).
Proof. intros Hf Hb. cbv zeta. inversion Hb; subst; (eapply io_instr; [exact Hf|reflexivity]). Qed.
Theorem C43_out E base s pre p bs w port : fetched E base s pre p bs -> io_bytes p (ar s) bs false w port ->
  executes E s (pre ++ bs) (a_iolog (iolog (ar s) ++ [IoOut w port (reg w AX (ar s))]) (ar s)).
Proof. intros Hf Hb. inversion Hb; subst; (eapply io_instr; [exact Hf|reflexivity]). Qed.
(** REP OUTS writes the CX elements in memory order. *)
Theorem C43_rep_outs E base s pre p bs w : fetched E base s pre p bs -> decode_str p bs = Some (S_OUTS, w) -> p_rep p <> 0 ->
  let a := ar s in let n := reg 16 CX a in
  executes E s (pre ++ bs)
    (with_reg 16 SI (moved w n (reg 16 SI a) a) (with_reg 16 CX 0
      (a_iolog (iolog a ++ map (fun k => IoOut w (reg 16 DX a) (mem w a (src_elem (sreg (data_sreg p) a) w a k))) (seq 0 (Z.to_nat n))) a))).
Proof.
  intros Hf Hd Hr. cbv zeta. pose proof (reg_range 16 1 (ar s) ltac:(auto with width) ltac:(lia)) as Hc. unfold inrange in Hc.
  pose proof (str_rep_instr E base s pre p bs S_OUTS w Hf Hd Hr eq_refl) as X.
  unfold str_rep, advance, run_elems in X. cbn [uses_di uses_si] in X. rewrite Z2Nat.id, Z.sub_diag in X by lia. change (low 16 0) with 0 in X.
  rewrite <- moved_at in X by lia.
  assert (HE : forall n, elems (port_in E) S_OUTS w (sreg (data_sreg p) (ar s)) (reg 16 6 (ar s)) (r_es (ar s)) (reg 16 7 (ar s)) (stride w (r_flags (ar s))) n (ar s) =
    a_iolog (iolog (ar s) ++ map (fun k => IoOut w (reg 16 2 (ar s)) (mem w (ar s) (src_elem (sreg (data_sreg p) (ar s)) w (ar s) k))) (seq 0 n)) (ar s)).
  { induction n as [|n IH]; [cbn [elems seq map]; rewrite app_nil_r; destruct (ar s); reflexivity|].
    cbn [elems elem]. rewrite IH, seq_S, map_app. cbn [map Nat.add]. rewrite src_at, mem_io. cbn [a_iolog iolog]. rewrite <- app_assoc. reflexivity. }
  rewrite HE in X. exact X.
Qed.
(** No other instruction performs port I/O (callbacks may), and the log only grows. *)
Theorem C43_no_other_io E base s pre p bs s' : polite E -> fetched E base s pre p bs -> wf_state s -> 0 <= cpu (ar s) <= 2 -> opcode_read bs -> ~ undefined_opcode bs ->
  ~ may_io bs -> ~ may_callback bs -> run_one E s = Ok tt s' \/ (exists c, run_one E s = Err c s') -> iolog (ar s') = iolog (ar s).
Proof.
  intros Hp Hf W Hc Ho Hu Hi Hcb Hr. pose proof (instr_general E base s pre p bs Hp Hf W Hc Ho Hu) as X.
  destruct Hr as [Hr|[c Hr]]; rewrite Hr in X; destruct X as [[_ _ X] _]; apply X; assumption.
Qed.
Theorem C43_log_grows E s s' : polite E -> wf_state s -> run_one E s = Ok tt s' \/ (exists c, run_one E s = Err c s') -> exists l, iolog (ar s') = iolog (ar s) ++ l.
Proof.
  intros Hp W Hr. pose proof (run_one_general E Hp s W) as X. destruct Hr as [Hr|[c Hr]]; rewrite Hr in X; destruct X as [X _]; apply X.
Qed.

Example C43_case : fetched demo_env HB (demo [0x1234; 0; 0x3F8] 2 [] [0x66; 0xEF]) [0x66] p66 [0xEF] /\
  io_bytes p66 (ar (demo [0x1234; 0; 0x3F8] 2 [] [0x66; 0xEF])) [0xEF] false 32 0x3F8 /\
  fetched demo_env HB (demo [] 2 [] [0xE4; 0x60]) [] np [0xE4; 0x60] /\ io_bytes np (ar (demo [] 2 [] [0xE4; 0x60])) [0xE4; 0x60] true 8 0x60.
Proof.
  split; [apply (demo_fetched demo_env _ 2 _ [0x66]); reflexivity|]. split; [exact (out_dx p66 _)|]. split; [apply (demo_fetched demo_env _ 2 _ []); reflexivity|constructor].
Qed.
Example C43_case2 : fetched demo_env HB (demo [0; 0x300; 0x3F8] 2 [] [0xF3; 0x6E]) [0xF3] (mkPfx None false false 0xF3) [0x6E] /\
  decode_str (mkPfx None false false 0xF3) [0x6E] = Some (S_OUTS, 8).
Proof. split; [apply (demo_fetched demo_env _ 2 _ [0xF3]); reflexivity|reflexivity]. Qed.
Example C43_case3 : let s := demo [] 2 [] [0x01; 0xC0] in
  polite demo_env /\ fetched demo_env HB s [] np [0x01; 0xC0] /\ wf_state s /\ 0 <= cpu (ar s) <= 2 /\ opcode_read [0x01; 0xC0] /\ ~ undefined_opcode [0x01; 0xC0] /\
  ~ may_io [0x01; 0xC0] /\ ~ may_callback [0x01; 0xC0] /\ exists s', run_one demo_env s = Ok tt s' /\ True.
Proof.
  cbv zeta. split; [apply demo_polite|]. split; [apply (demo_fetched demo_env _ 2 _ []); reflexivity|]. split; [apply demo_wf_state; reflexivity|].
  split; [cbn; lia|]. split; [|split; [|split; [|split]]].
  - split; [unfold prefix_byte; cbn [In]; lia|]. split; [lia|discriminate].
  - unfold undefined_opcode, undefined1. cbn [In]. lia.
  - unfold may_io, io1. cbn [In]. lia.
  - unfold may_callback. cbn [In]. lia.
  - witness (fun _ : st => true). exact I.
Qed.
Print Assumptions C43_in. Print Assumptions C43_out. Print Assumptions C43_rep_outs. Print Assumptions C43_no_other_io. Print Assumptions C43_log_grows.

(** ** C44.  ENTER size,level (C8), as in the manual ([enter]), except at level 1 ... *)
Theorem C44_enter_partial E base s pre p b0 b1 lv : let bs := [0xC8; b0; b1; lv] in fetched E base s pre p bs -> p_os p = false -> lv mod 32 <> 1 ->
  executes E s (pre ++ bs) (enter (b0 + 256 * b1) (lv mod 32) (ar s)).
Proof.
  cbv zeta. intros Hf Ho Hl. eapply (stack_instr E base s pre p [0xC8; b0; b1; lv] (K_Enter (b0 + 256 * b1) (lv mod 32))); [exact Hf| |exact I|discriminate|].
  - unfold decode_stack. cbn [push_seg_op pop_seg_op]. rewrite Ho. reflexivity.
  - intros size [= _ H]. contradiction.
Qed.
(** ... where the new frame pointer is not pushed: the effect is that of level 0. *)
Theorem C44_enter_level1 E base s pre p b0 b1 lv : let bs := [0xC8; b0; b1; lv] in fetched E base s pre p bs -> p_os p = false -> lv mod 32 = 1 ->
  executes E s (pre ++ bs) (enter (b0 + 256 * b1) 0 (ar s)).
Proof. cbv zeta. apply enter1_instr. Qed.
(** LEAVE (C9) after ENTER of any size and level gives back BP and SP, whatever happened in between
    to other registers and memory, as long as BP and the word it points to are as ENTER left them. *)
Theorem C44_leave E base s1 pre1 p1 b0 b1 lv s1' base2 s2 pre2 p2 :
  fetched E base s1 pre1 p1 [0xC8; b0; b1; lv] -> p_os p1 = false -> run_one E s1 = Ok tt s1' ->
  fetched E base2 s2 pre2 p2 [0xC9] -> p_os p2 = false -> r_ss (ar s2) = r_ss (ar s1') -> reg 16 BP (ar s2) = reg 16 BP (ar s1') ->
  (let x := lin (r_ss (ar s1')) (reg 16 BP (ar s1')) in mem 16 (ar s2) x = mem 16 (ar s1') x) ->
  executes E s2 (pre2 ++ [0xC9]) (with_reg 16 BP (reg 16 BP (ar s1)) (with_reg 16 SP (reg 16 SP (ar s1)) (ar s2))).
Proof.
  cbv zeta. intros Hf1 Ho1 R1 Hf2 Ho2 Hss Hbp Hm. pose proof Hf1 as ([F1 W1 _ _] & _). pose proof Hf2 as ([F2 W2 _ _] & _).
  assert (X : exists level, 0 <= level < 32 /\ executes E s1 (pre1 ++ [0xC8; b0; b1; lv]) (enter (b0 + 256 * b1) level (ar s1))).
  { destruct (Z.eq_dec (lv mod 32) 1) as [H|H]; [exists 0; split; [lia|apply (C44_enter_level1 E base s1 pre1 p1 b0 b1 lv); assumption]|].
    exists (lv mod 32). split; [apply Z.mod_pos_bound; lia|apply (C44_enter_partial E base s1 pre1 p1 b0 b1 lv); assumption]. }
  destruct X as (level & Hl & X). pose proof (executes_run _ _ _ _ _ X R1) as S. clear X.
  destruct (enter_frame E base (b0 + 256 * b1) level (ar s1) F1 W1 Hl) as (Ess & Ebp & Em).
  revert S Ess Ebp Em. generalize (enter (b0 + 256 * b1) level (ar s1)). intros a S Ess Ebp Em.
  assert (Pss : r_ss (ar s1') = r_ss (ar s1)) by (destruct S as [? ? ? ? ? ? ? ? ? ? ? ? ?]; unfold next in *; cbn in *; congruence).
  assert (Pbp : reg 16 BP (ar s1') = low 16 (reg 16 SP (ar s1) - 2)) by (rewrite (same_reg _ _ 16 5 S); exact Ebp).
  assert (Pm : mem 16 (ar s1') (lin (r_ss (ar s1)) (low 16 (reg 16 SP (ar s1) - 2))) = reg 16 BP (ar s1)) by (rewrite (same_mem _ _ _ _ S); rewrite <- Em; apply mem_ip).
  rewrite Pss, Pbp in *. rewrite Pm in Hm.
  eapply executes_same.
  { eapply (stack_instr E base2 s2 pre2 p2 [0xC9] K_Leave); [exact Hf2| |exact I|discriminate|discriminate].
    unfold decode_stack. cbn [push_seg_op pop_seg_op]. rewrite Ho2. reflexivity. }
  cbn [stack_effect]. unfold leave, pop_into, top16, drop. rewrite Hbp.
  set (q := low 16 (reg 16 4 (ar s1) - 2)) in *. assert (Hq : inrange 16 q) by (apply low_range; auto with width).
  rewrite mem_wreg. rewrite (reg_same 16 4 q (ar s2)) by (auto with width; lia).
  replace (r_ss (with_reg 16 4 q (ar s2))) with (r_ss (ar s1)) by (rewrite with_reg_setf by (auto with width; lia); symmetry; exact Hss).
  rewrite Hm. rewrite wreg_twice by (auto with width; try lia; apply low_range; auto with width).
  replace (low 16 (q + 2)) with (reg 16 4 (ar s1)); [apply same_refl|].
  unfold q, low. rewrite Zplus_mod_idemp_l. replace (reg 16 4 (ar s1) - 2 + 2) with (reg 16 4 (ar s1)) by lia. symmetry. apply Z.mod_small, reg_range; [auto with width|lia].
Qed.
(** ENTER 4,3 with a frame at the top of the stack segment, and LEAVE. *)
Example C44_case : let s1 := demo [0; 0; 0; 0; 4; 0x100] 2 (blist 0x300FC [0x11; 0x22; 0x33; 0x44]) [0xC8; 4; 0; 3] in
  let s2 := demo [7; 7; 7; 7; 7; 2] 2 [(0x30002, 0); (0x30003, 1)] [0xC9] in
  fetched demo_env HB s1 [] np [0xC8; 4; 0; 3] /\
  (exists s1', run_one demo_env s1 = Ok tt s1' /\ reg 16 SP (ar s1') = 0xFFF8 /\ mem 16 (ar s1') 0x3FFFC = 2 /\ mem 16 (ar s1') 0x30000 = 0x4433 /\
     r_ss (ar s2) = r_ss (ar s1') /\ reg 16 BP (ar s2) = reg 16 BP (ar s1') /\
     (let x := lin (r_ss (ar s1')) (reg 16 BP (ar s1')) in mem 16 (ar s2) x = mem 16 (ar s1') x)) /\
  fetched demo_env HB s2 [] np [0xC9].
Proof.
  cbv zeta. split; [apply (demo_fetched demo_env _ 2 _ []); reflexivity|]. split; [|apply (demo_fetched demo_env _ 2 _ []); reflexivity].
  witness (fun s => (r_ss (ar s) =? 0x3000) && (reg 16 SP (ar s) =? 0xFFF8) && (reg 16 BP (ar s) =? 2) && (mem 16 (ar s) 0x3FFFC =? 2) && (mem 16 (ar s) 0x30000 =? 0x4433) && (mem 16 (ar s) 0x30002 =? 0x100)).
  rewrite !andb_true_iff, !Z.eqb_eq in H2. destruct H2 as (((((K1 & K2) & K3) & K4) & K5) & K6).
  split; [exact K2|]. split; [exact K4|]. split; [exact K5|]. split; [rewrite K1; reflexivity|]. split; [rewrite K3; vm_compute; reflexivity|].
  rewrite K1, K3. change (lin 0x3000 2) with 0x30002. rewrite K6. vm_compute. reflexivity.
Qed.
(** At level 1 the manual pushes the frame pointer and so leaves SP two lower than the emulator does. *)
Theorem C44_level1_refuted : let s := demo [0; 0; 0; 0; 0x100] 2 [] [0xC8; 0; 0; 1] in
  fetched demo_env HB s [] np [0xC8; 0; 0; 1] /\ reg 16 SP (enter 0 1 (ar s)) = 0xFC /\
  exists s', run_one demo_env s = Ok tt s' /\ reg 16 SP (ar s') = 0xFE.
Proof.
  cbv zeta. split; [apply (demo_fetched demo_env _ 2 _ []); reflexivity|]. split; [vm_compute; reflexivity|].
  witness (fun s => reg 16 SP (ar s) =? 0xFE). apply Z.eqb_eq, H2.
Qed.
Print Assumptions C44_enter_partial. Print Assumptions C44_enter_level1. Print Assumptions C44_leave. Print Assumptions C44_level1_refuted.
