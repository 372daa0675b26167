(** Property theorems C39, C40: string instructions. *)
From Verif Require Import Base Cpu Alu Ops Machine Spec SpecOps SpecOps2 SpecSys SpecStr SpecRun SpecTop PBase PMem PRun PFrame PAlu PExec PStep PFlags PSmall PSmall2 PSmall3 PSmall4 PIAlu PIAlu2 PAlg PIMov PIStack PIJump PIInt PIStr PSmall6 PSmall7 PSmall8 Demo.

Definition np : pfx := mkPfx None false false 0.
Definition f3 : pfx := mkPfx None false false 0xF3.
Definition f2 : pfx := mkPfx None false false 0xF2.

(** ** C39.  [elems]: the elements one after the other, which also describes overlapping copies. *)
Theorem C39_once E base s pre p bs o w : fetched E base s pre p bs -> decode_str p bs = Some (o, w) -> p_rep p = 0 ->
  executes E s (pre ++ bs) (str_once (port_in E) p o w (ar s)).
Proof. apply str_once_instr. Qed.
Theorem C39_rep E base s pre p bs o w : fetched E base s pre p bs -> decode_str p bs = Some (o, w) -> p_rep p <> 0 -> compares o = false ->
  executes E s (pre ++ bs) (str_rep (port_in E) p o w (Z.to_nat (reg 16 CX (ar s))) (ar s)).
Proof. apply str_rep_instr. Qed.
(** REP STOS: n = CX elements get AL/AX/EAX, all other memory is unchanged, DI moves, CX = 0. *)
Theorem C39_fill E base s pre p bs w : fetched E base s pre p bs -> decode_str p bs = Some (S_STOS, w) -> p_rep p <> 0 ->
  let n := reg 16 CX (ar s) in
  exists m, executes E s (pre ++ bs) (with_reg 16 DI (moved w n (reg 16 DI (ar s)) (ar s)) (with_reg 16 CX 0 m)) /\ only_memory m (ar s) /\
    (forall k, Z.of_nat k < n -> mem w m (dst_elem w (ar s) k) = reg w AX (ar s)) /\
    (forall x, 0 <= x < 1114112 -> (forall k, Z.of_nat k < n -> ~ dst_elem w (ar s) k <= x < dst_elem w (ar s) k + w / 8) -> byte m x = byte (ar s) x).
Proof.
  intros Hf Hd Hr. cbv zeta. pose proof Hf as ([F W _ _] & Hpre & _). pose proof (prefixes_ok _ _ Hpre) as Hp.
  destruct (decode_str_ok _ _ _ _ Hd) as (_ & Hw & _).
  pose proof (reg_range 16 1 (ar s) ltac:(auto with width) ltac:(lia)) as Hc. unfold inrange in Hc.
  pose proof (str_rep_instr E base s pre p bs S_STOS w Hf Hd Hr eq_refl) as X.
  unfold str_rep, advance, run_elems in X. cbn [uses_di uses_si] in X. rewrite Z2Nat.id, Z.sub_diag in X by lia. change (low 16 0) with 0 in X.
  rewrite <- moved_at in X by lia. eexists. split; [exact X|]. split; [apply only_memory_elems; auto|].
  assert (Hsg : inrange 16 (sreg (data_sreg p) (ar s))) by (apply sreg_range, W).
  split.
  - intros k Hk. rewrite dst_at. eapply elems_stos; eauto using stride_or; [apply W|lia].
  - intros x Hx Hn. eapply elems_byte; eauto; [apply W|]. intros k Hk. rewrite <- dst_at. apply Hn. lia.
Qed.
(** REP MOVS when no element is overwritten before it is read and the destination does not wrap onto itself. *)
Theorem C39_copy E base s pre p bs w : fetched E base s pre p bs -> decode_str p bs = Some (S_MOVS, w) -> p_rep p <> 0 ->
  let n := reg 16 CX (ar s) in let src := src_elem (sreg (data_sreg p) (ar s)) w (ar s) in let dst := dst_elem w (ar s) in
  n * (w / 8) <= 65536 ->
  (forall i k, (i < k)%nat -> Z.of_nat k < n -> src k + w / 8 <= dst i \/ dst i + w / 8 <= src k) ->
  exists m, executes E s (pre ++ bs) (with_reg 16 SI (moved w n (reg 16 SI (ar s)) (ar s)) (with_reg 16 DI (moved w n (reg 16 DI (ar s)) (ar s)) (with_reg 16 CX 0 m))) /\ only_memory m (ar s) /\
    (forall k, Z.of_nat k < n -> mem w m (dst k) = mem w (ar s) (src k)) /\
    (forall x, 0 <= x < 1114112 -> (forall k, Z.of_nat k < n -> ~ dst k <= x < dst k + w / 8) -> byte m x = byte (ar s) x).
Proof.
  intros Hf Hd Hr. cbv zeta. intros Hn Hdis. pose proof Hf as ([F W _ _] & Hpre & _). pose proof (prefixes_ok _ _ Hpre) as Hp.
  destruct (decode_str_ok _ _ _ _ Hd) as (_ & Hw & _).
  pose proof (reg_range 16 1 (ar s) ltac:(auto with width) ltac:(lia)) as Hc. unfold inrange in Hc.
  pose proof (str_rep_instr E base s pre p bs S_MOVS w Hf Hd Hr eq_refl) as X.
  unfold str_rep, advance, run_elems in X. cbn [uses_di uses_si] in X. rewrite Z2Nat.id, Z.sub_diag in X by lia. change (low 16 0) with 0 in X.
  rewrite <- !moved_at in X by lia. eexists. split; [exact X|]. split; [apply only_memory_elems; auto|].
  assert (Hsg : inrange 16 (sreg (data_sreg p) (ar s))) by (apply sreg_range, W).
  split.
  - intros k Hk. rewrite dst_at, src_at.
    eapply (elems_movs E base (port_in E) w _ _ _ _ (stride w (r_flags (ar s))) (Z.to_nat (reg 16 1 (ar s))) (ar s)); auto using stride_or; try apply W; try lia.
    intros i j Hij. cbv zeta. rewrite <- src_at, <- dst_at. apply Hdis; lia.
  - intros x Hx Hk. eapply elems_byte; eauto; [apply W|]. intros k Hkn. rewrite <- dst_at. apply Hk. lia.
Qed.
(** With CX = 0 a repeated string instruction does nothing. *)
Theorem C39_zero_count E base s pre p bs o w : fetched E base s pre p bs -> decode_str p bs = Some (o, w) -> p_rep p <> 0 -> reg 16 CX (ar s) = 0 ->
  executes E s (pre ++ bs) (ar s).
Proof.
  intros Hf Hd Hr Hc. assert (X : executes E s (pre ++ bs) (str_rep (port_in E) p o w 0 (ar s))).
  { destruct (compares o) eqn:Ho.
    - destruct (str_scan_instr E base s pre p bs o w Hf Hd Hr Ho) as (n & Hs & X). destruct Hs as [_ [Hs|[Hs _]]]; [|lia]. replace n with 0%nat in X by lia. exact X.
    - pose proof (str_rep_instr E base s pre p bs o w Hf Hd Hr Ho) as X. rewrite Hc in X. exact X. }
  eapply executes_same; [exact X|]. unfold str_rep, advance, run_elems, elems. rewrite Hc. change (low 16 (0 - Z.of_nat 0)) with 0.
  assert (K : forall x d, inrange 16 x -> at_k x d 0 = x) by (intros x d Hx; unfold at_k, low; rewrite Z.add_0_r, Z.mod_small by exact Hx; reflexivity).
  assert (R : forall n, 0 <= n < 8 -> inrange 16 (reg 16 n (ar s))) by (intros; apply reg_range; auto with width).
  rewrite !K by (apply R; lia). pose proof (wreg_id 16 1 (ar s) ltac:(auto with width) ltac:(lia)) as Q. rewrite Hc in Q. rewrite Q.
  destruct (uses_di o), (uses_si o); rewrite ?wreg_id by (auto with width; lia); apply same_refl.
Qed.

(** REP STOSW of 40000 words (more than the segment holds) with AX = 0xABCD; REP MOVSB of 5 bytes. *)
Example C39_case : let s := demo [0xABCD; 40000; 0; 0; 0; 0; 0; 0x10] 2 [] [0xF3; 0xAB] in
  fetched demo_env HB s [0xF3] f3 [0xAB] /\ decode_str f3 [0xAB] = Some (S_STOS, 16) /\ p_rep f3 <> 0 /\ reg 16 CX (ar s) = 40000.
Proof. cbv zeta. split; [apply (demo_fetched demo_env _ 2 _ [0xF3]); reflexivity|]. split; [reflexivity|]. split; [discriminate|]. vm_compute. reflexivity. Qed.
Example C39_case2 : let s := demo [0; 5; 0; 0; 0; 0; 0x20; 0x10] 2 [] [0xF3; 0xA4] in
  fetched demo_env HB s [0xF3] f3 [0xA4] /\ decode_str f3 [0xA4] = Some (S_MOVS, 8) /\ reg 16 CX (ar s) * (8 / 8) <= 65536 /\
  (forall i k, (i < k)%nat -> Z.of_nat k < reg 16 CX (ar s) -> src_elem (sreg (data_sreg f3) (ar s)) 8 (ar s) k + 8 / 8 <= dst_elem 8 (ar s) i \/ dst_elem 8 (ar s) i + 8 / 8 <= src_elem (sreg (data_sreg f3) (ar s)) 8 (ar s) k).
Proof.
  cbv zeta. split; [apply (demo_fetched demo_env _ 2 _ [0xF3]); reflexivity|]. split; [reflexivity|]. split; [vm_compute; discriminate|].
  intros i k Hi Hk. left. unfold src_elem, dst_elem, lin.
  change (reg 16 1 (ar (demo [0; 5; 0; 0; 0; 0; 0x20; 0x10] 2 [] [0xF3; 0xA4]))) with 5 in Hk.
  change (reg 16 6 (ar (demo [0; 5; 0; 0; 0; 0; 0x20; 0x10] 2 [] [0xF3; 0xA4]))) with 0x20.
  change (reg 16 7 (ar (demo [0; 5; 0; 0; 0; 0; 0x20; 0x10] 2 [] [0xF3; 0xA4]))) with 0x10.
  cbn [demo ar demo_arch r_flags r_es r_ds sreg data_sreg f3 p_seg]. change (flag 10 2) with false. change (8 / 8) with 1. cbn iota. rewrite !Z.mod_small by lia. lia.
Qed.
Print Assumptions C39_once. Print Assumptions C39_rep. Print Assumptions C39_fill. Print Assumptions C39_copy. Print Assumptions C39_zero_count.

(** ** C40.  Repeated CMPS and SCAS: x k, y k are the values element k compares. *)
Lemma cmp_flags w x y f : width w -> arith_flags w ((x - y) mod 2 ^ w) (x <? y) (x mod 16 <? y mod 16) (signed_overflow w (signed w x - signed w y)) f (snd (spec_sub w x y 0 f)).
Proof.
  intros Hw. unfold spec_sub. cbn [snd]. replace (x - y - 0) with (x - y) by lia. rewrite !Z.add_0_r, Z.sub_0_r.
  apply put6_flags; [pose proof (width_pos w Hw); lia|]. apply low_range; auto.
Qed.
Lemma arith_flags_trans w v c af of_ f f1 f2 : arith_flags w v c af of_ f1 f2 -> other_flags [CF; PF; AF; ZF; SF; OF] f f1 -> arith_flags w v c af of_ f f2.
Proof. intros (A & B & C & D & X) O. split; [exact A|]. split; [exact B|]. split; [exact C|]. split; [exact D|]. intros j Hj Hn. rewrite X, O by auto. reflexivity. Qed.
Lemma mem_fl w f a x : mem w (a_flags f a) x = mem w a x.
Proof. unfold mem. generalize (Z.to_nat (w / 8)). intros n. revert x. induction n as [|n IH]; intros x; cbn [peek]; [reflexivity|]. rewrite IH. reflexivity. Qed.
Theorem C40_scan E base s pre p bs o w : fetched E base s pre p bs -> decode_str p bs = Some (o, w) -> p_rep p <> 0 -> o = S_CMPS \/ o = S_SCAS ->
  let a := ar s in let cx := reg 16 CX a in
  let x k := match o with S_CMPS => mem w a (src_elem (sreg (data_sreg p) a) w a k) | _ => reg w AX a end in
  let y k := mem w a (dst_elem w a k) in
  exists n f, Z.of_nat n <= cx /\
    (forall k, (S k < n)%nat -> (x k =? y k) = (p_rep p =? 0xF3)) /\
    (Z.of_nat n < cx -> exists k, n = S k /\ (x k =? y k) = negb (p_rep p =? 0xF3)) /\
    executes E s (pre ++ bs)
      (let a1 := with_reg 16 DI (moved w (Z.of_nat n) (reg 16 DI a) a) (with_reg 16 CX (cx - Z.of_nat n) (a_flags f a)) in
       match o with S_CMPS => with_reg 16 SI (moved w (Z.of_nat n) (reg 16 SI a) a) a1 | _ => a1 end) /\
    (n = 0%nat -> f = r_flags a) /\
    (forall k, n = S k -> arith_flags w ((x k - y k) mod 2 ^ w) (x k <? y k) (x k mod 16 <? y k mod 16) (signed_overflow w (signed w (x k) - signed w (y k))) (r_flags a) f).
Proof.
  intros Hf Hd Hr Ho. cbv zeta. pose proof Hf as ([F W _ _] & Hpre & _).
  destruct (decode_str_ok _ _ _ _ Hd) as (_ & Hw & _).
  assert (Hc : compares o = true) by (destruct Ho as [->| ->]; reflexivity).
  destruct (str_scan_instr E base s pre p bs o w Hf Hd Hr Hc) as (n & [Hs1 Hs2] & X).
  pose proof (reg_range 16 1 (ar s) ltac:(auto with width) ltac:(lia)) as Hcx. unfold inrange in Hcx.
  assert (Hncx : Z.of_nat n <= reg 16 1 (ar s)) by (destruct Hs2 as [|[]]; lia).
  unfold str_rep, advance, run_elems in X. assert (Hlow : low 16 (reg 16 1 (ar s) - Z.of_nat n) = reg 16 1 (ar s) - Z.of_nat n) by (apply Z.mod_small; lia). rewrite Hlow in X.
  assert (Hg : forall k, goes_on p o w k (ar s) = Bool.eqb (match o with S_CMPS => mem w (ar s) (src_elem (sreg (data_sreg p) (ar s)) w (ar s) k) | _ => reg w 0 (ar s) end =? mem w (ar s) (dst_elem w (ar s) k)) (p_rep p =? 0xF3)).
  { intros k. unfold goes_on, elem_equal. rewrite src_at, dst_at. destruct Ho as [->| ->]; reflexivity. }
  set (xs := fun k => match o with S_CMPS => mem w (ar s) (src_elem (sreg (data_sreg p) (ar s)) w (ar s) k) | _ => reg w 0 (ar s) end) in *.
  set (ys := fun k => mem w (ar s) (dst_elem w (ar s) k)) in *.
  assert (HF : forall m, exists f, elems (port_in E) o w (sreg (data_sreg p) (ar s)) (reg 16 6 (ar s)) (r_es (ar s)) (reg 16 7 (ar s)) (stride w (r_flags (ar s))) m (ar s) = a_flags f (ar s) /\
     (m = 0%nat -> f = r_flags (ar s)) /\ other_flags [CF; PF; AF; ZF; SF; OF] (r_flags (ar s)) f /\
     (forall k, m = S k -> arith_flags w ((xs k - ys k) mod 2 ^ w) (xs k <? ys k) (xs k mod 16 <? ys k mod 16) (signed_overflow w (signed w (xs k) - signed w (ys k))) (r_flags (ar s)) f)).
  { induction m as [|m (f & IH & _ & I2 & _)].
    - exists (r_flags (ar s)). split; [symmetry; apply a_flags_self|]. split; [reflexivity|]. split; [intros j _ _; reflexivity|discriminate].
    - cbn [elems]. rewrite IH. exists (snd (spec_sub w (xs m) (ys m) 0 f)). pose proof (cmp_flags w (xs m) (ys m) f Hw) as C. split.
      { unfold xs, ys. rewrite src_at, dst_at. destruct Ho as [->| ->]; cbn [elem]; rewrite !mem_fl; reflexivity. }
      split; [discriminate|]. pose proof (arith_flags_trans _ _ _ _ _ _ _ _ C I2) as C2. split; [apply C2|]. intros k [= <-]. exact C2. }
  destruct (HF n) as (f & Hel & H0 & _ & Hk). rewrite Hel in X.
  exists n, f. split; [exact Hncx|]. split.
  { intros k Hkn. specialize (Hs1 k Hkn). rewrite Hg in Hs1. apply Bool.eqb_prop in Hs1. exact Hs1. }
  split.
  { intros Hlt. destruct Hs2 as [|(_ & k & -> & Hs2)]; [lia|]. exists k. split; [reflexivity|]. rewrite Hg in Hs2. destruct (_ =? _) in Hs2 |- *; destruct (p_rep p =? 0xF3); cbn in Hs2 |- *; congruence. }
  split; [|split; [exact H0|exact Hk]].
  rewrite !moved_at, !Nat2Z.id by lia. destruct Ho as [->| ->]; exact X.
Qed.
(** REPNE SCASB of at most 5 bytes; REPE CMPSB. *)
Example C40_case : let s := demo [0x41; 5; 0; 0; 0; 0; 0; 0x10] 2 [(0x40012, 0x41)] [0xF2; 0xAE] in
  fetched demo_env HB s [0xF2] f2 [0xAE] /\ decode_str f2 [0xAE] = Some (S_SCAS, 8) /\ p_rep f2 <> 0 /\
  okb (run_one demo_env s) (fun s' => (reg 16 DI (ar s') =? 0x13) && (reg 16 CX (ar s') =? 2) && flag ZF (r_flags (ar s'))) = true.
Proof. cbv zeta. split; [apply (demo_fetched demo_env _ 2 _ [0xF2]); reflexivity|]. split; [reflexivity|]. split; [discriminate|]. vm_compute. reflexivity. Qed.
Example C40_case2 : let s := demo [0x41; 5; 0; 0; 0; 0; 0x20; 0x10] 2 [(0x40012, 0x41)] [0xF3; 0xA6] in
  fetched demo_env HB s [0xF3] f3 [0xA6] /\ decode_str f3 [0xA6] = Some (S_CMPS, 8).
Proof. cbv zeta. split; [apply (demo_fetched demo_env _ 2 _ [0xF3]); reflexivity|]. reflexivity. Qed.
Print Assumptions C40_scan.
