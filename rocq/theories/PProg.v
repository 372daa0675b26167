(** Proofs about guest programs, on the reference machine. *)
From Verif Require Import Base Cpu Alu Ops Machine Spec SpecOps SpecOps2 SpecSys SpecMul SpecBcd SpecDbl SpecStr SpecStr2 SpecRun SpecTop SpecIsa SpecProg PBase PMem PRun PFrame PAlu PExec PStep PFlags PIAlu PIAlu2 PIUn PIMov PIStack PIJump PIInt PIBcd PAlg PSmall6 PIsa.

(** A part of a program. *)
Definition at_prog (a0 : arch) (prog : list Z) (a : arch) : Prop :=
  r_cs a = r_cs a0 /\ forall i b, nth_error prog i = Some b -> byte a (pc a0 + Z.of_nat i) = b.
Lemma code_part a0 prog a i b bs : at_prog a0 prog a -> r_ip a0 + blen prog <= 65536 -> r_ip a = r_ip a0 + Z.of_nat i ->
  firstn (length (b :: bs)) (skipn i prog) = b :: bs -> code a (b :: bs).
Proof.
  intros [Hc Hb] Hl Hi Hp.
  assert (Hlen : (i + length (b :: bs) <= length prog)%nat).
  { pose proof (f_equal (@length Z) Hp) as Q. rewrite firstn_length, skipn_length in Q. cbn [length] in *. lia. }
  split; [unfold blen in *; lia|].
  intros j c Hj. rewrite <- Hp in Hj.
  assert (Q : nth_error prog (i + j) = Some c).
  { rewrite <- (firstn_skipn i prog). rewrite nth_error_app2 by (rewrite firstn_length; lia).
    rewrite firstn_length. replace (i + j - Nat.min i (length prog))%nat with j by lia.
    rewrite <- Hj. rewrite <- (firstn_skipn (length (b :: bs)) (skipn i prog)) at 1. rewrite nth_error_app1; [reflexivity|].
    apply nth_error_Some. congruence. }
  apply Hb in Q. rewrite <- Q. f_equal. unfold pc, lin. rewrite Hc. lia.
Qed.
Lemma not_null a a1 b bs : code a (b :: bs) -> b <> 0 -> byte a1 (pc a) = byte a (pc a) -> is_null a a1 (b :: bs) = false.
Proof.
  intros [_ Hc] Hb He. specialize (Hc 0%nat b eq_refl). rewrite Z.add_0_r in Hc. unfold is_null. rewrite He, Hc.
  replace (b =? 0) with false by lia. rewrite andb_false_r. reflexivity.
Qed.

(** ** Steps *)
Section Reach.
Context (E : env) (base : Z) (f : Z -> Z -> arch -> arch).
Hypothesis Hsv : forall h n a, machine E base a -> machine E base (f h n a).
Notation reach := (reaches (port_in E) f).
Notation M := (machine E base).
Lemma reach_set n P a bs R : M a -> normal_pc a -> code a bs -> isa (port_in E) f (mkPfx None false false 0) (blen bs) a bs R ->
  (forall a1, R a1 -> is_null a a1 bs = false) ->
  (forall a1 a2, R a1 -> same a2 a1 -> M a2 -> reach n P a2) -> reach (S n) P a.
Proof.
  intros HM Hn Hc HI HN HK. cbn [reaches]. left. exists [], (mkPfx None false false 0), bs, R. cbn [app].
  split; [exact Hn|]. split; [reflexivity|]. split; [exact Hc|]. split; [exact HI|]. intros a1 H1. split; [apply HN, H1|].
  intros a2 S. apply (HK a1 a2 H1 S). eapply machine_same; [exact S|].
  apply (isa_machine E base f a [] (mkPfx None false false 0) bs R a1); auto.
Qed.
Lemma reach_one n P a bs a1 : M a -> normal_pc a -> code a bs -> isa (port_in E) f (mkPfx None false false 0) (blen bs) a bs (eq a1) ->
  is_null a a1 bs = false -> (forall a2, same a2 a1 -> M a2 -> reach n P a2) -> reach (S n) P a.
Proof.
  intros HM Hn Hc HI HN HK. apply (reach_set n P a bs (eq a1)); auto; [intros ? <-; exact HN|intros ? a2 <-; apply HK].
Qed.
End Reach.

(** ** Numbers *)
Lemma number_snoc n : forall x a, number (S n) x a = number n x a + 65536 ^ Z.of_nat n * mem 16 a (x + 2 * Z.of_nat n).
Proof.
  induction n as [|n IH]; intros x a.
  - cbn [number]. replace (x + 2 * Z.of_nat 0) with x by lia. change (65536 ^ Z.of_nat 0) with 1. lia.
  - change (number (S (S n)) x a) with (mem 16 a x + 65536 * number (S n) (x + 2) a). rewrite IH.
    change (number (S n) x a) with (mem 16 a x + 65536 * number n (x + 2) a).
    replace (x + 2 + 2 * Z.of_nat n) with (x + 2 * Z.of_nat (S n)) by lia.
    replace (65536 ^ Z.of_nat (S n)) with (65536 * 65536 ^ Z.of_nat n) by (rewrite Nat2Z.inj_succ, Z.pow_succ_r by lia; reflexivity). ring.
Qed.
Lemma number_ext n : forall x a b, (forall y, x <= y < x + 2 * Z.of_nat n -> byte a y = byte b y) -> number n x a = number n x b.
Proof.
  induction n as [|n IH]; intros x a b H; [reflexivity|]. cbn [number]. rewrite (IH (x + 2) a b) by (intros; apply H; lia).
  f_equal. unfold mem. change (Z.to_nat (16 / 8)) with 2%nat. cbn [peek]. rewrite !H by lia. reflexivity.
Qed.

(** ** Multi-word addition and subtraction *)
Section Words.
Context (E : env) (base : Z) (f : Z -> Z -> arch -> arch).
Hypothesis Hsv : forall h n a, machine E base a -> machine E base (f h n a).
Notation reach := (reaches (port_in E) f).
Notation M := (machine E base).
Context (sub : bool) (a0 : arch) (n : nat).
Definition wprog : list Z := if sub then sub_words else add_words.
Definition sg : Z := if sub then -1 else 1.
Notation ds := (r_ds a0). Notation si := (reg 16 SI a0). Notation di := (reg 16 DI a0).
Hypothesis Hip : r_ip a0 + blen wprog <= 65536.
Hypothesis Hcs : r_cs a0 <> 0xB800 \/ 256 <= r_ip a0.
Hypothesis Hw0 : wf_regs a0.
Hypothesis Hsi : Z.even si = true. Hypothesis Hdi : Z.even di = true.
Hypothesis Lsi : si + 2 * Z.of_nat n <= 65536. Hypothesis Ldi : di + 2 * Z.of_nat n <= 65536.
Hypothesis Hov : di <= si \/ si + 2 * Z.of_nat n <= di.
Hypothesis Hcd : lin ds di + 2 * Z.of_nat n <= pc a0 \/ pc a0 + blen wprog <= lin ds di.

(** At instruction offset i, with the given CX, SI, DI. *)
Record st_at (i cx s d : Z) (a : arch) : Prop := mkAt {
  at_m : M a; at_p : at_prog a0 wprog a; at_l : leaves a0 a; at_ip : r_ip a = r_ip a0 + i;
  at_cx : reg 16 CX a = cx; at_si : reg 16 SI a = s; at_di : reg 16 DI a = d
}.
Lemma wlen : blen wprog = 11. Proof. unfold wprog. destruct sub; reflexivity. Qed.
Lemma at_normal i cx s d a : st_at i cx s d a -> 0 <= i < 10 -> normal_pc a.
Proof.
  intros [_ _ L I _ _ _] Hi. rewrite wlen in Hip. pose proof (lv_cs _ _ L) as C. pose proof (wf_ip _ Hw0) as W. unfold inrange in W. unfold normal_pc. lia.
Qed.
Lemma ip_after i k : 0 <= i -> 0 <= k -> i + k < 11 -> low 16 (r_ip a0 + i + k) = r_ip a0 + (i + k).
Proof. intros. rewrite wlen in Hip. pose proof (wf_ip _ Hw0) as W. unfold inrange in W. unfold low. change (2 ^ 16) with 65536. rewrite Z.mod_small; lia. Qed.
Notation np := (mkPfx None false false 0).
Definition keeps_mem (a b : arch) : Prop := forall x, 0 <= x < 1114112 -> byte b x = byte a x.
Lemma prog_keep a b : r_cs b = r_cs a -> (forall x, 0 <= x < 1114112 -> pc a0 <= x < pc a0 + 11 -> byte b x = byte a x) -> at_prog a0 wprog a -> at_prog a0 wprog b.
Proof.
  intros Hc Hb [C P]. split; [congruence|]. intros i v Hi. rewrite Hb; [apply P, Hi| |];
  (assert (Q : (i < length wprog)%nat) by (apply nth_error_Some; congruence)); pose proof wlen as L; unfold blen in L, Hip;
  pose proof (wf_cs _ Hw0) as W1; pose proof (wf_ip _ Hw0) as W2; unfold inrange in W1, W2; change (2 ^ 16) with 65536 in *; unfold pc, lin in *; lia.
Qed.
Lemma even_end o sgm : Z.even o = true -> lin sgm o mod 4096 <> 4095.
Proof.
  intros H Q. apply Zeven_bool_iff in H. apply Zeven_ex_iff in H. destruct H as [k ->]. unfold lin in Q.
  pose proof (Z.div_mod (16 * sgm + 2 * k) 4096 ltac:(lia)). lia.
Qed.
(** Updates that keep the program, the segment registers and DX BX SP BP. *)
Definition mild (a b : arch) : Prop := leaves a b /\ forall x, 0 <= x < 1114112 -> pc a0 <= x < pc a0 + 11 -> byte b x = byte a x.
Lemma leaves_trans x y z : leaves x y -> leaves y z -> leaves x z.
Proof. intros [A1 A2 A3 A4 A5 A6 A7] [B1 B2 B3 B4 B5 B6 B7]. constructor; try congruence. intros m Hm. rewrite B7, A7 by auto. reflexivity. Qed.
Lemma mild_reg m v a b : mild a b -> m = 0 \/ m = 1 \/ m = 6 \/ m = 7 -> inrange 16 v -> mild a (with_reg 16 m v b).
Proof.
  intros [[] Hb] Hm Hv. split.
  - constructor; rewrite ?wreg_cs, ?wreg_ds, ?wreg_es, ?wreg_ss, ?wreg_fs, ?wreg_gs; auto.
    intros j Hj. rewrite reg_other; auto with width; try lia. unfold rpos. cbn [Z.eqb Pos.eqb]. lia.
  - intros x H1 H2. rewrite <- Hb by auto. unfold byte, host. rewrite wreg_hmem, wreg_mtab. reflexivity.
Qed.
Lemma mild_refl a : mild a a.
Proof. split; [constructor|]; reflexivity. Qed.
Lemma mild_fl g a b : mild a b -> mild a (a_flags g b).
Proof. intros [[] Hb]. split; [constructor; auto|exact Hb]. Qed.
Lemma mild_mem x v a b : flat E base b -> mild a b -> inmem 16 x -> x + 2 <= pc a0 \/ pc a0 + 11 <= x -> mild a (with_mem 16 x v b).
Proof.
  intros F [[] Hb] Hx Hd. split.
  - constructor; rewrite ?wmem_cs, ?wmem_ds, ?wmem_es, ?wmem_ss, ?wmem_fs, ?wmem_gs; auto.
  - intros y H1 H2. rewrite (byte_wmem E base) by (try exact F; auto with width).
    replace ((x <=? y) && (y <? x + 16 / 8)) with false by (change (16 / 8) with 2; lia). auto.
Qed.
Lemma at_next i len cx s d cx' s' d' a a1 a2 : st_at i cx s d a -> mild a a1 -> M a2 -> same a2 (a_ip (low 16 (r_ip a + len)) a1) ->
  0 <= i -> 0 <= len -> i + len < 11 -> reg 16 CX a1 = cx' -> reg 16 SI a1 = s' -> reg 16 DI a1 = d' -> st_at (i + len) cx' s' d' a2.
Proof.
  intros [HM HP HL HI _ _ _] [L B] M2 S Hi Hl Hb Hc Hs Hd.
  assert (L2 : leaves a1 a2).
  { constructor; rewrite ?(sm_cs _ _ S), ?(sm_ds _ _ S), ?(sm_es _ _ S), ?(sm_ss _ _ S), ?(sm_fs _ _ S), ?(sm_gs _ _ S); try reflexivity.
    intros m Hm. apply (same_reg _ _ 32 m S). }
  constructor; auto.
  - apply (prog_keep a); [|intros x H1 H2; rewrite (same_byte _ _ x S); apply (B x H1 H2)|exact HP].
    rewrite (lv_cs _ _ L2). apply L.
  - eauto using leaves_trans.
  - rewrite (sm_ip _ _ S). cbn [a_ip r_ip]. rewrite HI. apply ip_after; auto.
  - rewrite (same_reg _ _ 16 1 S). exact Hc.
  - rewrite (same_reg _ _ 16 6 S). exact Hs.
  - rewrite (same_reg _ _ 16 7 S). exact Hd.
Qed.
(** mov ax, [si] *)
Lemma w_mov k P cx s d a : st_at 1 cx s d a -> Z.even s = true ->
  (forall a2, st_at 3 cx s d a2 -> keeps_mem a a2 -> reg 16 AX a2 = mem 16 a (lin ds s) -> r_flags a2 = r_flags a -> reach k P a2) -> reach (S k) P a.
Proof.
  intros A He HK. pose proof A as [HM HP HL HI Hc Hs Hd].
  assert (C : code a [0x8B; 0x04]) by (apply (code_part a0 wprog a 1 0x8B [0x04] HP Hip HI); unfold wprog; destruct sub; reflexivity).
  assert (Rs : inrange 16 s) by (rewrite <- Hs; apply reg_range; [auto with width|lia]).
  assert (L0 : low 16 (s + 0) = s) by (unfold inrange in Rs; unfold low; rewrite Z.add_0_r; apply Z.mod_small, Rs).
  set (v := mem 16 a (lin ds s)).
  assert (Hv : inrange 16 v).
  { apply (mem_range E base); [apply HM|auto with width| |]; pose proof (wf_ds _ Hw0) as W; unfold inrange, lin in *; change (2 ^ 16) with 65536 in *; change (16 / 8) with 2; lia. }
  assert (St : step_mov np a [0x8B; 0x04] = Some (with_reg 16 0 v a)).
  { transitivity (Some (with_reg 16 0 (mem 16 a (lin (r_ds a) (low 16 (reg 16 6 a + 0)))) a)); [reflexivity|].
    rewrite Hs, (lv_ds _ _ HL), L0. reflexivity. }
  assert (Ok : operand_ok np a [0x8B; 0x04]).
  { change (operand_ok np a [0x8B; 0x04]) with (ea_supported np a [0x04] /\ (true = true -> not_block_end 16 (RMem (r_ds a) (low 16 (reg 16 6 a + 0))))).
    split; [|intros _ _; rewrite Hs, L0; apply even_end, He].
    intros _. change (0 <= reg 16 6 a + 0 < 65536 /\ (0 = 0 -> 4 = 2 \/ 4 = 3 -> @None Z = None -> r_ss a = r_ds a)).
    split; [rewrite Hs; unfold inrange in Rs; change (2 ^ 16) with 65536 in Rs; lia|intros _ [H|H]; discriminate]. }
  assert (B : forall x, byte (a_ip (fallthrough 2 a) (with_reg 16 0 v a)) x = byte a x) by (intros x; unfold byte, host; cbn [a_ip hmem mtab]; rewrite wreg_hmem, wreg_mtab; reflexivity).
  apply (reach_one E base f Hsv k P a [0x8B; 0x04] _ HM (at_normal _ _ _ _ _ A ltac:(lia)) C (I_mov _ _ _ _ _ _ _ St Ok)).
  { apply not_null; [exact C|discriminate|apply B]. }
  intros a2 S M2. apply HK.
  - apply (at_next 1 2 cx s d cx s d a (with_reg 16 0 v a)); auto; try lia; [apply mild_reg; auto using mild_refl| | |]; rewrite reg16_other by (auto; lia); assumption.
  - intros x Hx. rewrite (same_byte _ _ x S). apply B.
  - rewrite (same_reg _ _ 16 0 S). change (reg 16 0 (a_ip ?i ?b)) with (reg 16 0 b). apply reg_same; auto with width. lia.
  - rewrite (sm_flags _ _ S). cbn [a_ip r_flags]. apply wreg_flags.
Qed.
(** adc [di], ax / sbb [di], ax *)
Definition word_op (x y c v c' : Z) : Prop := inrange 16 v /\ (c' = 0 \/ c' = 1) /\ x + sg * (y + c) = v + sg * 65536 * c'.
Lemma w_alu k P cx s d a : st_at 3 cx s d a -> Z.even d = true -> lin ds d + 2 <= pc a0 \/ pc a0 + 11 <= lin ds d ->
  (forall a2, st_at 5 cx s d a2 -> (forall x, 0 <= x < 1114112 -> ~ lin ds d <= x < lin ds d + 2 -> byte a2 x = byte a x) ->
     word_op (mem 16 a (lin ds d)) (reg 16 AX a) (b2z (flag CF (r_flags a))) (mem 16 a2 (lin ds d)) (b2z (flag CF (r_flags a2))) -> reach k P a2) -> reach (S k) P a.
Proof.
  intros A He Hcd' HK. pose proof A as [HM HP HL HI Hc Hs Hd].
  set (op := if sub then 0x19 else 0x11). set (kk := if sub then 3 else 2).
  assert (C : code a [op; 0x05]) by (apply (code_part a0 wprog a 3 op [0x05] HP Hip HI); unfold wprog, op; destruct sub; reflexivity).
  assert (Rd : inrange 16 d) by (rewrite <- Hd; apply reg_range; [auto with width|lia]).
  assert (L0 : low 16 (d + 0) = d) by (unfold inrange in Rd; unfold low; rewrite Z.add_0_r; apply Z.mod_small, Rd).
  assert (Hin : inmem 16 (lin ds d)) by (apply inmem_lin; [auto with width|apply Hw0|exact Rd]).
  assert (Dec : decode_alu np a [op; 0x05] = Some (kk, 16, RMem ds d, reg 16 0 a)).
  { transitivity (Some (kk, 16, RMem (r_ds a) (low 16 (reg 16 7 a + 0)), reg 16 0 a)); [unfold op, kk; destruct sub; reflexivity|].
    rewrite Hd, (lv_ds _ _ HL), L0. reflexivity. }
  assert (Ok : operand_ok np a [op; 0x05]).
  { assert (Q : operand_ok np a [op; 0x05] = (ea_supported np a [0x05] /\ (true = true -> not_block_end 16 (RMem (r_ds a) (low 16 (reg 16 7 a + 0)))))) by (unfold op; destruct sub; reflexivity).
    rewrite Q. split; [|intros _ _; rewrite Hd, L0; apply even_end, He].
    intros _. change (0 <= reg 16 7 a + 0 < 65536 /\ (0 = 0 -> 5 = 2 \/ 5 = 3 -> @None Z = None -> r_ss a = r_ds a)).
    split; [rewrite Hd; unfold inrange in Rd; change (2 ^ 16) with 65536 in Rd; lia|intros _ [H|H]; discriminate]. }
  set (x0 := mem 16 a (lin ds d)) in *. set (y0 := reg 16 0 a) in *. set (c := b2z (flag CF (r_flags a))) in *.
  assert (Hx : inrange 16 x0) by (apply (mem_range E base); [apply HM|auto with width|apply Hin|apply Hin]).
  assert (Hy : inrange 16 y0) by (apply reg_range; [auto with width|lia]).
  assert (Hcc : c = 0 \/ c = 1) by (unfold c; destruct (flag CF (r_flags a)); auto).
  assert (fin : forall v g a1 a2, a1 = a_ip (fallthrough 2 a) (with_mem 16 (lin ds d) v (a_flags g a)) -> word_op x0 y0 c v (b2z (flag CF g)) -> same a2 a1 -> M a2 -> reach k P a2).
  { intros v g a1 a2 -> Hop S M2. pose proof Hop as (Rv & _). apply HK.
    - apply (at_next 3 2 cx s d cx s d a (with_mem 16 (lin ds d) v (a_flags g a))); auto; try lia.
      apply mild_mem; auto; [apply flat_flags, HM|apply mild_fl, mild_refl].
    - intros x H1 H2. rewrite (same_byte _ _ x S). change (byte (a_ip ?i ?b) x) with (byte b x). rewrite (byte_wmem E base) by (auto with width; apply flat_flags, HM).
      replace ((lin ds d <=? x) && (x <? lin ds d + 16 / 8)) with false by (change (16 / 8) with 2; lia). reflexivity.
    - rewrite (same_mem _ _ 16 _ S), (sm_flags _ _ S). change (mem 16 (a_ip ?i ?b) ?x) with (mem 16 b x). cbn [a_ip r_flags]. rewrite wmem_flags.
      rewrite (mem_same E base) by (auto with width; apply flat_flags, HM). exact Hop. }
  assert (nn : forall v g, is_null a (a_ip (fallthrough 2 a) (with_mem 16 (lin ds d) v (a_flags g a))) [op; 0x05] = false).
  { intros v g. apply not_null; [exact C|unfold op; destruct sub; discriminate|].
    change (byte (a_ip ?i ?b) ?x) with (byte b x).
    assert (Hpc : pc a = pc a0 + 3) by (unfold pc, lin; rewrite (lv_cs _ _ HL), HI; lia).
    assert (Rp : 0 <= pc a < 1114112).
    { rewrite Hpc. pose proof wlen as Wl. rewrite Wl in Hip. pose proof (wf_cs _ Hw0) as W1; pose proof (wf_ip _ Hw0) as W2; unfold inrange in W1, W2; change (2 ^ 16) with 65536 in *. unfold pc, lin. lia. }
    rewrite (byte_wmem E base) by (auto with width; apply flat_flags, HM).
    replace ((lin ds d <=? pc a) && (pc a <? lin ds d + 16 / 8)) with false by (change (16 / 8) with 2; lia). reflexivity. }
  assert (sub = true \/ sub = false) as [Hsub|Hsub] by (destruct sub; auto); unfold op, kk in Dec, Ok, C, nn; unfold word_op, sg in fin; rewrite Hsub in Dec, Ok, C, nn, fin.
  - eapply (reach_set E base f Hsv k P a [0x19; 0x05] _ HM (at_normal _ _ _ _ _ A ltac:(lia)) C (I_sbb _ _ _ _ _ _ _ _ _ Dec Ok eq_refl)).
    + intros a1 (af & o & _ & _ & ->). apply nn.
    + intros a1 a2 (af & o & _ & _ & ->). apply (fin _ _ _ _ eq_refl). cbn [rd_rm]. fold x0 c. rewrite put6_CF.
      split; [apply low_range; auto with width|]. split; [destruct (x0 <? y0 + c); auto|].
      unfold low, inrange in *. change (2 ^ 16) with 65536 in *. destruct (x0 <? y0 + c) eqn:Q; cbn [b2z]; lia.
  - eapply (reach_one E base f Hsv k P a [0x11; 0x05] _ HM (at_normal _ _ _ _ _ A ltac:(lia)) C (I_alu _ _ _ _ _ _ _ _ _ _ Dec ltac:(discriminate) Ok)).
    + apply nn.
    + intros a2. apply (fin _ _ _ _ eq_refl). cbn [rd_rm]. fold x0 c. rewrite put6_CF.
      split; [apply low_range; auto with width|]. split; [destruct (2 ^ 16 <=? x0 + y0 + c); auto|].
      unfold low, inrange in *. change (2 ^ 16) with 65536 in *. destruct (65536 <=? x0 + y0 + c) eqn:Q; cbn [b2z]; lia.
Qed.
(** clc *)
Lemma w_clc k P cx s d a : st_at 0 cx s d a ->
  (forall a2, st_at 1 cx s d a2 -> keeps_mem a a2 -> flag CF (r_flags a2) = false -> reach k P a2) -> reach (S k) P a.
Proof.
  intros A HK. pose proof A as [HM HP HL HI Hc Hs Hd].
  assert (C : code a [0xF8]) by (apply (code_part a0 wprog a 0 0xF8 [] HP Hip HI); unfold wprog; destruct sub; reflexivity).
  assert (St : step_misc np a [0xF8] = Some (a_flags (put CF false (r_flags a)) a)) by reflexivity.
  apply (reach_one E base f Hsv k P a [0xF8] _ HM (at_normal _ _ _ _ _ A ltac:(lia)) C (I_misc _ _ _ _ _ _ _ St I)).
  { apply not_null; [exact C|discriminate|reflexivity]. }
  intros a2 S M2. apply HK.
  - apply (at_next 0 1 cx s d cx s d a (a_flags (put CF false (r_flags a)) a)); auto; try lia. apply mild_fl, mild_refl.
  - intros x Hx. rewrite (same_byte _ _ x S). reflexivity.
  - rewrite (sm_flags _ _ S). cbn [a_ip a_flags r_flags]. rewrite flag_put by lia. reflexivity.
Qed.
Lemma put_szp_CF w v g : flag CF (put_szp w v g) = flag CF g.
Proof. unfold put_szp. rewrite !flag_put by lia. reflexivity. Qed.
(** inc si, inc di *)
Lemma w_inc_si k P i cx s d a : st_at i cx s d a -> i = 5 \/ i = 6 ->
  (forall a2, st_at (i + 1) cx (low 16 (s + 1)) d a2 -> keeps_mem a a2 -> flag CF (r_flags a2) = flag CF (r_flags a) -> reach k P a2) -> reach (S k) P a.
Proof.
  intros A Hi HK. pose proof A as [HM HP HL HI Hc Hs Hd].
  assert (C : code a [0x46]).
  { destruct Hi as [-> | ->]; [apply (code_part a0 wprog a 5 0x46 [] HP Hip HI)|apply (code_part a0 wprog a 6 0x46 [] HP Hip HI)]; unfold wprog; destruct sub; reflexivity. }
  assert (De : decode_unary np a [0x46] = Some (U_INC, 16, RReg 6)) by reflexivity.
  assert (Rv : inrange 16 (low 16 (s + 1))) by (apply low_range; auto with width).
  assert (Ef : exists g, unary_effect U_INC 16 (RReg 6) a = with_reg 16 6 (low 16 (s + 1)) (a_flags g a) /\ flag CF g = flag CF (r_flags a)).
  { unfold unary_effect. cbn [spec_unary rd_rm wr_rm]. unfold spec_inc. rewrite Hs. eexists. split; [reflexivity|].
    rewrite !flag_put by lia. apply put_szp_CF. }
  destruct Ef as (g & Ef & Hg). pose proof (I_unary (port_in E) f np (blen [0x46]) a [0x46] U_INC 16 (RReg 6) De ltac:(discriminate) I) as HIs.
  rewrite Ef in HIs.
  apply (reach_one E base f Hsv k P a [0x46] _ HM (at_normal _ _ _ _ _ A ltac:(lia)) C HIs).
  { apply not_null; [exact C|discriminate|]. unfold byte, host. cbn [a_ip hmem mtab]. rewrite wreg_hmem, wreg_mtab. reflexivity. }
  intros a2 S M2. apply HK.
  - apply (at_next i 1 cx s d cx (low 16 (s + 1)) d a (with_reg 16 6 (low 16 (s + 1)) (a_flags g a))); auto; try lia.
    + apply mild_reg; auto. apply mild_fl, mild_refl.
    + rewrite reg16_other by (auto; lia). exact Hc.
    + apply reg_same; auto with width. lia.
    + rewrite reg16_other by (auto; lia). exact Hd.
  - intros x Hx. rewrite (same_byte _ _ x S). unfold byte, host. cbn [a_ip hmem mtab]. rewrite wreg_hmem, wreg_mtab. reflexivity.
  - rewrite (sm_flags _ _ S). cbn [a_ip r_flags]. rewrite wreg_flags. exact Hg.
Qed.
Lemma w_inc_di k P i cx s d a : st_at i cx s d a -> i = 7 \/ i = 8 ->
  (forall a2, st_at (i + 1) cx s (low 16 (d + 1)) a2 -> keeps_mem a a2 -> flag CF (r_flags a2) = flag CF (r_flags a) -> reach k P a2) -> reach (S k) P a.
Proof.
  intros A Hi HK. pose proof A as [HM HP HL HI Hc Hs Hd].
  assert (C : code a [0x47]).
  { destruct Hi as [-> | ->]; [apply (code_part a0 wprog a 7 0x47 [] HP Hip HI)|apply (code_part a0 wprog a 8 0x47 [] HP Hip HI)]; unfold wprog; destruct sub; reflexivity. }
  assert (De : decode_unary np a [0x47] = Some (U_INC, 16, RReg 7)) by reflexivity.
  assert (Rv : inrange 16 (low 16 (d + 1))) by (apply low_range; auto with width).
  assert (Ef : exists g, unary_effect U_INC 16 (RReg 7) a = with_reg 16 7 (low 16 (d + 1)) (a_flags g a) /\ flag CF g = flag CF (r_flags a)).
  { unfold unary_effect. cbn [spec_unary rd_rm wr_rm]. unfold spec_inc. rewrite Hd. eexists. split; [reflexivity|].
    rewrite !flag_put by lia. apply put_szp_CF. }
  destruct Ef as (g & Ef & Hg). pose proof (I_unary (port_in E) f np (blen [0x47]) a [0x47] U_INC 16 (RReg 7) De ltac:(discriminate) I) as HIs.
  rewrite Ef in HIs.
  apply (reach_one E base f Hsv k P a [0x47] _ HM (at_normal _ _ _ _ _ A ltac:(lia)) C HIs).
  { apply not_null; [exact C|discriminate|]. unfold byte, host. cbn [a_ip hmem mtab]. rewrite wreg_hmem, wreg_mtab. reflexivity. }
  intros a2 S M2. apply HK.
  - apply (at_next i 1 cx s d cx s (low 16 (d + 1)) a (with_reg 16 7 (low 16 (d + 1)) (a_flags g a))); auto; try lia.
    + apply mild_reg; auto. apply mild_fl, mild_refl.
    + rewrite reg16_other by (auto; lia). exact Hc.
    + rewrite reg16_other by (auto; lia). exact Hs.
    + apply reg_same; auto with width. lia.
  - intros x Hx. rewrite (same_byte _ _ x S). unfold byte, host. cbn [a_ip hmem mtab]. rewrite wreg_hmem, wreg_mtab. reflexivity.
  - rewrite (sm_flags _ _ S). cbn [a_ip r_flags]. rewrite wreg_flags. exact Hg.
Qed.
(** loop *)
Lemma w_loop k P cx s d a : st_at 9 cx s d a -> 1 <= cx ->
  (1 < cx -> forall a2, st_at 1 (cx - 1) s d a2 -> keeps_mem a a2 -> r_flags a2 = r_flags a -> reach k P a2) ->
  (cx = 1 -> forall a2, M a2 -> leaves a0 a2 -> r_ip a2 = low 16 (r_ip a0 + 11) -> reg 16 CX a2 = 0 -> reg 16 SI a2 = s -> reg 16 DI a2 = d ->
     keeps_mem a a2 -> r_flags a2 = r_flags a -> reach k P a2) -> reach (S k) P a.
Proof.
  intros A Hp HK HF. pose proof A as [HM HP HL HI Hc Hs Hd].
  assert (C : code a [0xE2; 0xF6]) by (apply (code_part a0 wprog a 9 0xE2 [0xF6] HP Hip HI); unfold wprog; destruct sub; reflexivity).
  assert (Rc : inrange 16 cx) by (rewrite <- Hc; apply reg_range; [auto with width|lia]).
  assert (Lc : low 16 (cx - 1) = cx - 1) by (unfold inrange in Rc; unfold low; apply Z.mod_small; lia).
  assert (Rc' : inrange 16 (cx - 1)) by (rewrite <- Lc; apply low_range; auto with width).
  set (a1 := a_ip (if negb (cx - 1 =? 0) && true then low 16 (r_ip a + 2 + -10) else fallthrough 2 a) (with_reg 16 1 (cx - 1) a)).
  assert (St : step_jump np 2 a [0xE2; 0xF6] = Some a1).
  { transitivity (Some (branch (negb (low 16 (reg 16 CX a - 1) =? 0) && true) 2 (-10) a (with_reg 16 CX (low 16 (reg 16 CX a - 1)) a))); [reflexivity|].
    rewrite Hc, Lc. reflexivity. }
  assert (B : forall x, byte a1 x = byte a x) by (intros x; unfold a1, byte, host; cbn [a_ip hmem mtab]; rewrite wreg_hmem, wreg_mtab; reflexivity).
  assert (Mi : mild a (with_reg 16 1 (cx - 1) a)) by (apply mild_reg; auto using mild_refl).
  assert (L1 : leaves a0 a1) by (apply (leaves_trans _ a); [exact HL|]; destruct Mi as [[] _]; constructor; auto).
  assert (Wi : 0 <= r_ip a0 <= 65525) by (rewrite wlen in Hip; pose proof (wf_ip _ Hw0) as W; unfold inrange in W; lia).
  apply (reach_one E base f Hsv k P a [0xE2; 0xF6] _ HM (at_normal _ _ _ _ _ A ltac:(lia)) C (I_jump _ _ _ _ _ _ _ St I)).
  { apply not_null; [exact C|discriminate|apply B]. }
  intros a2 S M2.
  assert (K2 : keeps_mem a a2) by (intros x Hx; rewrite (same_byte _ _ x S); apply B).
  assert (L2 : leaves a0 a2).
  { apply (leaves_trans _ a1); [exact L1|]. constructor; rewrite ?(sm_cs _ _ S), ?(sm_ds _ _ S), ?(sm_es _ _ S), ?(sm_ss _ _ S), ?(sm_fs _ _ S), ?(sm_gs _ _ S); try reflexivity.
    intros m Hm. apply (same_reg _ _ 32 m S). }
  assert (Fl : r_flags a2 = r_flags a) by (rewrite (sm_flags _ _ S); apply wreg_flags).
  assert (Rcx : reg 16 1 a2 = cx - 1) by (rewrite (same_reg _ _ 16 1 S); apply reg_same; auto with width; lia).
  assert (Rsi : reg 16 6 a2 = s) by (rewrite (same_reg _ _ 16 6 S); change (reg 16 6 a1) with (reg 16 6 (with_reg 16 1 (cx - 1) a)); rewrite reg16_other by (auto; lia); exact Hs).
  assert (Rdi : reg 16 7 a2 = d) by (rewrite (same_reg _ _ 16 7 S); change (reg 16 7 a1) with (reg 16 7 (with_reg 16 1 (cx - 1) a)); rewrite reg16_other by (auto; lia); exact Hd).
  destruct (Z.eq_dec cx 1) as [->|Hne].
  - apply (HF eq_refl); auto. rewrite (sm_ip _ _ S). unfold a1. cbn [a_ip r_ip]. cbn [Z.sub Z.eqb Pos.eqb negb andb].
    change (1 - 1 =? 0) with true. cbn [negb andb]. unfold fallthrough. rewrite HI. f_equal. lia.
  - apply HK; auto; [lia|]. constructor; auto.
    + apply (prog_keep a); [|intros x H1 H2; apply K2; auto|exact HP]. rewrite (lv_cs _ _ L2), <- (lv_cs _ _ HL). reflexivity.
    + rewrite (sm_ip _ _ S). unfold a1. cbn [a_ip r_ip]. replace (cx - 1 =? 0) with false by lia. cbn [negb andb]. rewrite HI.
      unfold low. change (2 ^ 16) with 65536. rewrite Z.mod_small; lia.
Qed.

(** ** The whole routine *)
Notation xs := (lin ds si). Notation xd := (lin ds di).
Definition inv (i : nat) (a : arch) : Prop :=
  st_at 1 (Z.of_nat n - Z.of_nat i) (si + 2 * Z.of_nat i) (di + 2 * Z.of_nat i) a /\
  number i xd a + sg * 65536 ^ Z.of_nat i * b2z (flag CF (r_flags a)) = number i xd a0 + sg * number i xs a0 /\
  forall x, 0 <= x < 1114112 -> ~ xd <= x < xd + 2 * Z.of_nat i -> byte a x = byte a0 x.
Definition done (a : arch) : Prop :=
  number n xd a + sg * 65536 ^ Z.of_nat n * b2z (flag CF (r_flags a)) = number n xd a0 + sg * number n xs a0 /\
  (forall x, 0 <= x < 1114112 -> ~ xd <= x < xd + 2 * Z.of_nat n -> byte a x = byte a0 x) /\
  reg 16 CX a = 0 /\ reg 16 SI a = low 16 (si + 2 * Z.of_nat n) /\ reg 16 DI a = low 16 (di + 2 * Z.of_nat n) /\
  r_ip a = low 16 (r_ip a0 + 11) /\ leaves a0 a.
Lemma even_plus2 x i : Z.even x = true -> Z.even (x + 2 * i) = true.
Proof. intros H. rewrite Z.even_add_mul_2. exact H. Qed.
Lemma mem16_ext a b x : byte a x = byte b x -> byte a (x + 1) = byte b (x + 1) -> mem 16 a x = mem 16 b x.
Proof. intros H1 H2. unfold mem. change (Z.to_nat (16 / 8)) with 2%nat. cbn [peek]. rewrite H1, H2. reflexivity. Qed.
Lemma low2 v : low 16 (low 16 (v + 1) + 1) = low 16 (v + 2).
Proof. unfold low. change (2 ^ 16) with 65536. rewrite Zplus_mod_idemp_l. f_equal. lia. Qed.
Lemma words_from j : forall i a, (i + j = n)%nat -> (0 < j)%nat -> inv i a -> reach (7 * j) done a.
Proof.
  induction j as [|j IH]; intros i a Hij Hj (A & Hn & Hb); [lia|].
  set (zi := Z.of_nat i) in *. assert (Hzi : 0 <= zi /\ zi + 1 <= Z.of_nat n) by lia.
  pose proof (wf_ds _ Hw0) as Wd. assert (Rsi : inrange 16 si) by (apply reg_range; [auto with width|lia]). assert (Rdi : inrange 16 di) by (apply reg_range; [auto with width|lia]).
  unfold inrange in Wd, Rsi, Rdi. change (2 ^ 16) with 65536 in *.
  assert (Ls : lin ds (si + 2 * zi) = xs + 2 * zi) by (unfold lin; lia). assert (Ld : lin ds (di + 2 * zi) = xd + 2 * zi) by (unfold lin; lia).
  assert (Hsd : xs = 16 * ds + si /\ xd = 16 * ds + di) by (unfold lin; lia).
  replace (7 * S j)%nat with (S (S (S (S (S (S (S (7 * j)))))))) by lia.
  apply (w_mov _ _ _ _ _ _ A); [apply even_plus2, Hsi|]. intros b1 A1 K1 X1 F1.
  apply (w_alu _ _ _ _ _ _ A1); [apply even_plus2, Hdi|rewrite Ld, wlen in *; lia|]. intros b2 A2 K2 W2.
  rewrite Ls in X1. rewrite Ld in K2, W2. rewrite X1, F1 in W2.
  apply (w_inc_si _ _ _ _ _ _ _ A2); [auto|]. intros b3 A3 K3 F3.
  apply (w_inc_si _ _ _ _ _ _ _ A3); [auto|]. intros b4 A4 K4 F4.
  apply (w_inc_di _ _ _ _ _ _ _ A4); [auto|]. intros b5 A5 K5 F5.
  apply (w_inc_di _ _ _ _ _ _ _ A5); [auto|]. intros b6 A6 K6 F6.
  rewrite !low2 in A6. change (7 + 1 + 1) with 9 in A6. cbn [Z.add Pos.add Pos.succ Pos.add_carry] in A6.
  (* the word *)
  assert (K62 : forall x, 0 <= x < 1114112 -> byte b6 x = byte b2 x) by (intros x Hx; rewrite K6, K5, K4, K3 by auto; reflexivity).
  assert (F62 : flag CF (r_flags b6) = flag CF (r_flags b2)) by congruence.
  assert (Eb1 : mem 16 b1 (xd + 2 * zi) = mem 16 a (xd + 2 * zi)) by (apply mem16_ext; apply K1; lia).
  assert (Ea : mem 16 a (xd + 2 * zi) = mem 16 a0 (xd + 2 * zi)) by (apply mem16_ext; apply Hb; lia).
  assert (Es : mem 16 a (xs + 2 * zi) = mem 16 a0 (xs + 2 * zi)) by (apply mem16_ext; apply Hb; lia).
  rewrite Eb1, Ea, Es in W2. destruct W2 as (_ & _ & W2).
  assert (post : forall b7, keeps_mem b6 b7 -> r_flags b7 = r_flags b6 ->
    number (S i) xd b7 + sg * 65536 ^ Z.of_nat (S i) * b2z (flag CF (r_flags b7)) = number (S i) xd a0 + sg * number (S i) xs a0 /\
    forall x, 0 <= x < 1114112 -> ~ xd <= x < xd + 2 * Z.of_nat (S i) -> byte b7 x = byte a0 x).
  { intros b7 K7 F7. split.
    - rewrite !number_snoc. fold zi. rewrite F7, F62.
      rewrite (number_ext i xd b7 a) by (intros y Hy; fold zi in Hy; rewrite K7, K62, K2, K1 by lia; reflexivity).
      rewrite (mem16_ext b7 b2 (xd + 2 * zi)) by (rewrite K7, K62 by lia; reflexivity).
      replace (65536 ^ Z.of_nat (S i)) with (65536 * 65536 ^ zi) by (rewrite Nat2Z.inj_succ, Z.pow_succ_r by lia; reflexivity).
      fold zi in Hn. revert Hn W2. generalize (65536 ^ zi) (number i xd a) (number i xd a0) (number i xs a0) (mem 16 a0 (xd + 2 * zi)) (mem 16 a0 (xs + 2 * zi)) (mem 16 b2 (xd + 2 * zi)) (b2z (flag CF (r_flags a))) (b2z (flag CF (r_flags b2))) sg.
      intros p q1 q2 q3 x y v c c' g H1 H2. 
      replace (q1 + p * v + g * (65536 * p) * c') with (q1 + p * (v + g * 65536 * c')) by ring. rewrite <- H2.
      replace (q1 + p * (x + g * (y + c))) with (q1 + g * p * c + p * x + g * p * y) by ring. rewrite H1. ring.
    - intros x Hx Ho. rewrite K7, K62 by auto. rewrite K2, K1 by (auto; lia). apply Hb; lia. }
  assert (E9 : reach (S (7 * j)) done b6); [|exact E9].
  apply (w_loop _ _ _ _ _ _ A6); [lia| |].
  - intros Hgt b7 A7 K7 F7. destruct (post b7 K7 F7) as (Q1 & Q2). apply (IH (S i)); [lia|lia|]. split; [|split; assumption].
    replace (Z.of_nat n - Z.of_nat (S i)) with (Z.of_nat n - zi - 1) by lia.
    replace (si + 2 * Z.of_nat (S i)) with (low 16 (si + 2 * zi + 2)) by (unfold low; change (2 ^ 16) with 65536; rewrite Z.mod_small; lia).
    replace (di + 2 * Z.of_nat (S i)) with (low 16 (di + 2 * zi + 2)) by (unfold low; change (2 ^ 16) with 65536; rewrite Z.mod_small; lia).
    exact A7.
  - intros Hlast b7 M7 L7 I7 C7 S7 D7 K7 F7. destruct (post b7 K7 F7) as (Q1 & Q2).
    assert (Hin : S i = n) by lia. assert (j = 0)%nat as -> by lia. cbn [Nat.mul reaches]. rewrite Hin in Q1, Q2. unfold done.
    split; [exact Q1|]. split; [exact Q2|]. split; [exact C7|].
    rewrite S7, D7. split; [f_equal; lia|]. split; [f_equal; lia|]. split; assumption.
Qed.
Lemma words_reach a : (0 < n)%nat -> st_at 0 (Z.of_nat n) si di a -> (forall x, 0 <= x < 1114112 -> byte a x = byte a0 x) -> reach (1 + 7 * n) done a.
Proof.
  intros Hn A Hb. change (1 + 7 * n)%nat with (S (7 * n)). apply (w_clc _ _ _ _ _ _ A). intros a2 A2 K2 F2.
  apply (words_from n 0); [lia|exact Hn|]. unfold inv. change (Z.of_nat 0) with 0. rewrite !Z.mul_0_r, !Z.add_0_r, Z.sub_0_r.
  split; [exact A2|]. split; [rewrite F2; cbn [number b2z]; lia|]. intros x Hx _. rewrite K2, Hb by auto. reflexivity.
Qed.
End Words.

(** The routine on the emulator. *)
Lemma words_run E base f (sub : bool) n s : callbacks E f -> (forall h k a, machine E base a -> machine E base (f h k a)) ->
  machine E base (ar s) -> 0 <= icount s -> icount s + 1 + 7 * Z.of_nat n <= 2147483647 -> words_ready (wprog sub) n (ar s) ->
  exists s', runs E (1 + 7 * n) s s' /\ machine E base (ar s') /\ words_done (wprog sub) n (ar s) (ar s') /\
    let xd := lin (r_ds (ar s)) (reg 16 DI (ar s)) in let xs := lin (r_ds (ar s)) (reg 16 SI (ar s)) in
    number n xd (ar s') + sg sub * 65536 ^ Z.of_nat n * b2z (flag CF (r_flags (ar s'))) = number n xd (ar s) + sg sub * number n xs (ar s).
Proof.
  intros Hcb Hsv M H0 Hi [[C1 C2] Hn Hcx Hp Es Ed [L1 L2] Ha Hpr]. cbv zeta. set (a := ar s) in *.
  assert (R : reaches (port_in E) f (1 + 7 * n) (done sub a n) a).
  { apply (words_reach E base f Hsv sub a n); auto; try apply M.
    constructor; auto; [split; [reflexivity|exact C2]|constructor; reflexivity|lia]. }
  destruct (program_runs E base f Hcb Hsv (1 + 7 * n) _ s M H0 ltac:(lia) R) as (s' & Hr & (D1 & D2 & D3 & D4 & D5 & D6 & D7) & M' & _).
  exists s'. split; [exact Hr|]. split; [exact M'|]. split; [|exact D1]. constructor; auto. rewrite wlen. exact D6.
Qed.
