(** The emulator implements the reference machine of SpecIsa.v. *)
From Verif Require Import Base Cpu Alu Ops Machine Spec SpecOps SpecOps2 SpecSys SpecMul SpecBcd SpecDbl SpecStr SpecStr2 SpecRun SpecTop SpecIsa PBase PMem PRun PFrame PAlu PExec PStep PFlags PIAlu PIAlu2 PIUn PIMul PIDbl PIMisc PIBcd PIMov PIStack PIJump PIInt PIStr PIStr2 PAlg PKeep PTop PTop2 PSmall PSmall6.

(** ** One instruction *)
Section Step.
Context (E : env) (base : Z) (f : Z -> Z -> arch -> arch).
Lemma scan67_unique p o w n m a : scan_stops67 p o w n a -> scan_stops67 p o w m a -> n = m.
Proof.
  intros [A1 A2] [B1 B2]. destruct (Nat.lt_trichotomy n m) as [H|[H|H]]; [|exact H|].
  - destruct A2 as [A2|(A2 & k & -> & A3)]; [destruct B2 as [|[]]; lia|].
    exfalso. apply A3, B1. lia.
  - destruct B2 as [B2|(B2 & k & -> & B3)]; [destruct A2 as [|[]]; lia|].
    exfalso. apply B3, A1. lia.
Qed.
(** The result of RME_RunOne: state a1, one more instruction, and no 00 00 stop. *)
Definition lands (s : st) (a1 : arch) : Prop :=
  exists s', run_one E s = Ok tt s' /\ same (ar s') a1 /\ icount s' = icount s + 1 /\ dbg s' = dbg s.
Lemma lands_to s bs a1 : executes_to E s bs a1 -> lastnull s && is_null (ar s) a1 bs = false -> lands s a1.
Proof. intros (s' & H & S & I & D & _) N. rewrite N in H. exists s'. auto. Qed.
Lemma lands_fault s : faults E s -> lands s (enter_int 0 (r_ip (ar s)) (ar s)).
Proof. intros (s' & H & S & I & D & _). exists s'. auto. Qed.
Lemma isa_lands_g s pre p bs R : callbacks E f -> fetched E base s pre p bs -> isa (port_in E) f p (blen (pre ++ bs)) (ar s) bs R ->
  (forall n, flat E base (hle_effect f n (ar s))) ->
  (forall a1, R a1 -> lastnull s && is_null (ar s) a1 (pre ++ bs) = false) -> exists a1, R a1 /\ lands s a1.
Proof.
  intros Hcb Hf HI Hsv HN.
  assert (det : forall a', executes_to E s (pre ++ bs) a' -> R = eq a' -> exists a1, R a1 /\ lands s a1).
  { intros a' X ->. exists a'. split; [reflexivity|]. eapply lands_to; [exact X|]. apply HN. reflexivity. }
  destruct HI.
  - eapply det; [eapply (alu_instr E base); eauto|reflexivity].
  - pose proof (alu_instr E base s pre p bs _ _ _ _ Hf H H0) as X.
    eexists. split; [|eapply lands_to; [exact X|apply HN]];
    (unfold alu_effect, alu_result, emu_sbb; cbn [Z.eqb orb]; rewrite H1, xorb_false_l; do 2 eexists; split; [|split; [|reflexivity]]);
    set (c := b2z (flag CF (r_flags (ar s)))); assert (c = 0 \/ c = 1) as Hc by (unfold c; destruct (flag CF (r_flags (ar s))); auto);
    unfold sbb_af_wrong, sbb_of_wrong; intros Q;
    match goal with |- xorb ?b _ = _ => replace b with false; [apply xorb_false_l|] end; lia.
  - eapply det; [eapply (unary_instr E base); eauto|reflexivity].
  - pose proof (unary_instr E base s pre p bs _ _ _ Hf H H0) as X.
    eexists. split; [|eapply lands_to; [exact X|apply HN]];
    (unfold unary_effect, spec_unary, emu_neg; eexists; split; [|reflexivity]); intros Q; lia.
  - destruct (shift_instr E base s pre p bs _ _ _ _ Hf H H0 H1) as (o & Ho & X).
    eexists. split; [|eapply lands_to; [exact X|apply HN]]; (exists o; split; [exact Ho|reflexivity]).
  - eapply det; [eapply (dbl_instr E base); eauto|reflexivity].
  - eapply det; [eapply (mul_instr E base); eauto|reflexivity].
  - eapply det; [eapply (imul_instr E base); eauto|reflexivity].
  - assert (Hr : x * y < 2 ^ 31) by lia.
    destruct (imul2_instr E base s pre p bs _ _ _ Hf H H0 H1 Hr) as (c & X & Hc).
    rewrite (Hc H2 H3 H4) in X. eapply det; [exact X|reflexivity].
  - eapply det; [eapply (div_fits_instr E base); eauto|reflexivity].
  - eexists. split; [reflexivity|]. apply lands_fault. eapply (div_fault_instr E base); eauto.
  - eapply det; [eapply (idiv_fits_instr E base); eauto|reflexivity].
  - eexists. split; [reflexivity|]. apply lands_fault. eapply (idiv_fault_instr E base); eauto.
  - eapply det; [eapply (bcd_instr E base); eauto|reflexivity].
  - subst bs. eexists. split; [reflexivity|]. apply lands_fault. eapply (aam_zero E base); eauto.
  - eapply det; [eapply (mov_instr E base); eauto|reflexivity].
  - subst bs. eapply det; [eapply (lea_instr E base); eauto|reflexivity].
  - eapply det; [eapply (stack_instr E base); eauto|reflexivity].
  - eapply det; [eapply (misc_instr E base); eauto|reflexivity].
  - eapply det; [eapply (io_instr E base); eauto|reflexivity].
  - eapply det; [eapply (str_once_instr E base); eauto|reflexivity].
  - eapply det; [eapply (str_rep_instr E base); eauto|reflexivity].
  - destruct (str_scan_instr E base s pre p bs _ _ Hf H H0 H1) as (m & Hm & X).
    rewrite (scan_unique _ _ _ _ _ _ H2 Hm) in *. eapply det; [exact X|reflexivity].
  - eapply det; [eapply (str_once67_instr E base); eauto|reflexivity].
  - subst n. eapply det; [eapply (str_rep67_instr E base); eauto|reflexivity].
  - destruct (str_scan67_instr E base s pre p bs _ _ Hf H H0 H1 H2 H3) as (m & Hm & X).
    rewrite (scan67_unique _ _ _ _ _ _ H4 Hm) in *. eapply det; [exact X|reflexivity].
  - eapply det; [eapply (jump_instr E base); eauto|reflexivity].
  - eapply det; [eapply (int_instr E base); eauto|reflexivity].
  - subst bs. eapply det; [eapply (into_clear_instr E base); eauto|reflexivity].
  - eapply det; [eapply (int_hle_instr E base); eauto|reflexivity].
Qed.
Lemma isa_lands s pre p bs R : callbacks E f -> fetched E base s pre p bs -> isa (port_in E) f p (blen (pre ++ bs)) (ar s) bs R ->
  (forall n, flat E base (hle_effect f n (ar s))) ->
  (forall a1, R a1 -> is_null (ar s) a1 (pre ++ bs) = false) -> exists a1, R a1 /\ lands s a1.
Proof. intros H1 H2 H3 H4 H5. eapply isa_lands_g; eauto. intros a1 H. rewrite (H5 a1 H). apply andb_false_r. Qed.
End Step.

(** ** The machine invariant is kept *)
Section Keep.
Context (E : env) (base : Z).
Definition still (E : env) : env := mkEnv (null_check E) (zero_null_ok E) (port_in E) (fun _ _ s => s).
Lemma still_polite : polite (still E).
Proof. intros h n s W. cbn [still callback]. split; [apply effect_refl, W|auto]. Qed.
Lemma still_callbacks : callbacks (still E) (fun _ _ a => a).
Proof. intros h n s. destruct s; reflexivity. Qed.
Lemma still_flat a : flat E base a <-> flat (still E) base a.
Proof. split; intros [A B C D]; constructor; auto. Qed.
Lemma machine_same a b : same b a -> machine E base a -> machine E base b.
Proof.
  intros S [F W B]. pose proof (same_sym _ _ S) as S'. constructor; [eapply same_flat; eauto|eapply same_wf; eauto|].
  intros x v H. rewrite (sm_mem _ _ S) in H. eauto.
Qed.
Lemma machine_flags g1 g2 a : inrange 16 g2 -> machine E base (a_flags g1 a) -> machine E base (a_flags g2 a).
Proof.
  intros H [[A B C D] [] By]. constructor; [constructor; auto|constructor; auto|auto].
Qed.
Lemma machine_ip i a : machine E base a -> machine E base (a_ip (low 16 i) a).
Proof.
  intros [[A B C D] [] By]. constructor; [constructor; auto| |auto]. constructor; auto. cbn [a_ip r_ip]. apply low_range. auto with width.
Qed.
(** Every state an instruction without host service allows is a machine state. *)
Lemma lands_machine s a1 : machine E base (ar s) -> dc s = dec0 -> lands (still E) s a1 -> machine E base a1.
Proof.
  intros [F W B] Hd (s' & Hr & S & _).
  assert (Ws : wf_state s) by (constructor; auto; rewrite Hd; cbn; lia).
  pose proof (run_one_general (still E) still_polite s Ws) as G. rewrite Hr in G. destruct G as (G & _).
  destruct G as [W' [C1 C2 C3 C4 C5] _ _]. destruct W' as [W1 B1 _ _ _].
  apply (machine_same (ar s')); [apply same_sym, S|]. constructor; [|exact W1|exact B1].
  destruct F as [A0 A1 A2 A3]. constructor; auto.
  - intros b Hb. rewrite C1. auto.
  - intros x Hx. destruct (A3 x Hx) as (b & Hb & _). destruct (hmem (ar s') (base + x)) as [b'|] eqn:Q.
    + exists b'. split; [reflexivity|]. eapply B1; eauto.
    + apply C5 in Q. congruence.
Qed.
Lemma poke_fl n : forall x v g a, poke n x v (a_flags g a) = a_flags g (poke n x v a).
Proof. induction n as [|n IH]; intros x v g a; cbn [poke]; [reflexivity|]. apply (IH _ _ g (with_byte x (v mod 256) a)). Qed.
Lemma wr_rm_fl w r v g a : wr_rm w r v (a_flags g a) = a_flags g (wr_rm w r v a).
Proof. destruct r; cbn [wr_rm]; [apply wreg_aflags|]. unfold with_mem. apply poke_fl. Qed.
Lemma put6_range c af o w v g : inrange 16 g -> inrange 16 (put6 c af o w v g).
Proof. intros H. unfold put6, put_szp. repeat (apply put_range; [lia|]). exact H. Qed.
Lemma a_ip_fl i g b : a_ip i (a_flags g b) = a_flags g (a_ip i b).
Proof. reflexivity. Qed.
Lemma isa_uniform inp f p len a bs R a1 a2 : isa inp f p len a bs R -> inrange 16 (r_flags a) -> R a1 -> R a2 ->
  a1 = a2 \/ exists b g1 g2, a1 = a_flags g1 b /\ a2 = a_flags g2 b /\ inrange 16 g1 /\ inrange 16 g2.
Proof.
  intros HI W H1 H2. destruct HI; try (left; exact (eq_trans (eq_sym H1) H2)); try (left; subst; reflexivity).
  - destruct H1 as (af1 & o1 & _ & _ & ->). destruct H2 as (af2 & o2 & _ & _ & ->). right.
    rewrite !wr_rm_fl. do 3 eexists. split; [|split; [|split]]; [| |apply put6_range, W|apply put6_range, W];
    apply a_ip_fl.
  - destruct H1 as (af1 & _ & ->). destruct H2 as (af2 & _ & ->). right.
    rewrite !wr_rm_fl. do 3 eexists. split; [|split; [|split]]; [| |apply put6_range, W|apply put6_range, W];
    apply a_ip_fl.
  - destruct H1 as (o1 & _ & ->). destruct H2 as (o2 & _ & ->). unfold shift_effect, spec_shift.
    destruct (cnt mod 32 =? 0); [left; reflexivity|]. destruct (shift_n _ _ _ _ _) as [v c]. right.
    rewrite !wr_rm_fl. do 3 eexists.
    assert (Q : forall o', inrange 16 (put 0 c (put 11 o' (if op <? 4 then r_flags a else put_szp w v (r_flags a))))).
    { intros o'. unfold put_szp. destruct (op <? 4); repeat (apply put_range; [lia|]); exact W. }
    split; [|split; [|split]]; [| |apply Q|apply Q];
    apply a_ip_fl.
Qed.
Lemma isa_other inp f g p len a bs R : isa inp f p len a bs R ->
  isa inp g p len a bs R \/ exists n, int_number bs = Some n /\ hle_vector n a /\ R = eq (a_ip (low 16 (r_ip (hle_effect f n a) + len)) (hle_effect f n a)).
Proof.
  intros HI. destruct HI.
  - left. eapply I_alu; eassumption.
  - left. eapply I_sbb; eassumption.
  - left. eapply I_unary; eassumption.
  - left. eapply I_neg; eassumption.
  - left. eapply I_shift; eassumption.
  - left. eapply I_double; eassumption.
  - left. eapply I_mul; eassumption.
  - left. eapply I_imul; eassumption.
  - left. eapply I_imul2; eassumption.
  - left. eapply I_div; eassumption.
  - left. eapply I_div_fault; eassumption.
  - left. eapply I_idiv; eassumption.
  - left. eapply I_idiv_fault; eassumption.
  - left. eapply I_bcd; eassumption.
  - left. eapply I_aam_fault; eassumption.
  - left. eapply I_mov; eassumption.
  - left. eapply I_lea; eassumption.
  - left. eapply I_stack; eassumption.
  - left. eapply I_misc; eassumption.
  - left. eapply I_io; eassumption.
  - left. eapply I_str; eassumption.
  - left. eapply I_rep; eassumption.
  - left. eapply I_scan; eassumption.
  - left. eapply I_str67; eassumption.
  - left. eapply I_rep67; eassumption.
  - left. eapply I_scan67; eassumption.
  - left. eapply I_jump; eassumption.
  - left. eapply I_int; eassumption.
  - left. eapply I_into; eassumption.
  - right. exists n. auto.
Qed.
Lemma isa_machine f a pre p bs R a1 : (forall h n b, machine E base b -> machine E base (f h n b)) -> machine E base a -> normal_pc a ->
  prefixes pre = Some p -> code a (pre ++ bs) -> isa (port_in E) f p (blen (pre ++ bs)) a bs R ->
  (forall a', R a' -> is_null a a' (pre ++ bs) = false) -> R a1 -> machine E base a1.
Proof.
  intros Hsv M Hn Hp Hc HI HN H1. destruct (isa_other _ _ (fun _ _ b => b) _ _ _ _ _ HI) as [HQ|(n & Hi & Hv & ->)].
  - pose (s := mkSt a dec0 0 0 false).
    assert (Hf : fetched (still E) base s pre p bs).
    { split; [|auto]. destruct M as [F W _]. constructor; auto; [apply still_flat, F|discriminate]. }
    assert (Hfl : forall n, flat (still E) base (hle_effect (fun _ _ b => b) n (ar s))).
    { intros n. unfold hle_effect. destruct (_ =? 0); apply still_flat, M. }
    destruct (isa_lands (still E) base (fun _ _ b => b) s pre p bs R still_callbacks Hf HQ Hfl HN) as (a2 & H2 & L).
    pose proof (lands_machine s a2 M eq_refl L) as M2.
    destruct (isa_uniform _ _ _ _ _ _ _ _ _ HQ (wf_flags _ (m_regs _ _ _ M)) H1 H2) as [->|(b & g1 & g2 & -> & -> & G1 & G2)]; [exact M2|].
    eapply machine_flags; eauto.
  - subst a1. apply machine_ip. unfold hle_effect. destruct (_ =? 0); auto.
Qed.
Lemma machine_iret a : machine E base a -> machine E base (iret a).
Proof.
  intros M. pose proof M as [F W B]. unfold iret. cbv zeta.
  assert (F1 : flat E base (drop 2 a)) by (apply drop_flat, F). assert (W1 : wf_regs (drop 2 a)) by (apply drop_wf, W).
  assert (F2 : flat E base (drop 2 (drop 2 a))) by (apply drop_flat, F1). assert (W2 : wf_regs (drop 2 (drop 2 a))) by (apply drop_wf, W1).
  assert (F3 : flat E base (drop 2 (drop 2 (drop 2 a)))) by (apply drop_flat, F2). assert (W3 : wf_regs (drop 2 (drop 2 (drop 2 a)))) by (apply drop_wf, W2).
  pose proof (top16_range E base a F W) as R0. pose proof (top16_range E base _ F1 W1) as R1. pose proof (top16_range E base _ F2 W2) as R2.
  destruct F3 as [A1 A2 A3 A4]. destruct W3. constructor; [constructor; auto|constructor; auto|exact B].
Qed.
End Keep.

(** ** Whole programs *)
Section Prog.
Context (E : env) (base : Z) (f : Z -> Z -> arch -> arch).
Hypothesis Hcb : callbacks E f.
Hypothesis Hsv : forall h n a, machine E base a -> machine E base (f h n a).
Lemma hle_machine n a : machine E base a -> machine E base (hle_effect f n a).
Proof. intros M. unfold hle_effect. destruct (_ =? 0); auto. Qed.
Lemma program_runs n P : forall s, machine E base (ar s) -> 0 <= icount s -> icount s + Z.of_nat n <= 2147483647 ->
  reaches (port_in E) f n P (ar s) -> exists s', runs E n s s' /\ P (ar s') /\ machine E base (ar s') /\ 0 <= icount s' <= icount s + Z.of_nat n /\ dbg s' = dbg s.
Proof.
  induction n as [|n IH]; intros s M H0 Hi HR; cbn [reaches] in HR.
  { exists s. split; [constructor|]. split; [exact HR|]. split; [exact M|]. split; [lia|reflexivity]. }
  destruct HR as [(pre & p & bs & R & Hn & Hp & Hc & HI & HK)|(Hh & HK)].
  - assert (Hf : fetched E base s pre p bs) by (split; [constructor; [apply M|apply M|exact Hn|lia]|auto]).
    assert (HN : forall a1, R a1 -> is_null (ar s) a1 (pre ++ bs) = false) by (intros a1 H; apply HK, H).
    destruct (isa_lands E base f s pre p bs R Hcb Hf HI ltac:(intros m; apply hle_machine, M) HN) as (a1 & H1 & s1 & Hr & S & I1 & D1).
    assert (M1 : machine E base (ar s1)) by (eapply machine_same; [exact S|]; eapply (isa_machine E base f (ar s)); eauto).
    destruct (IH s1 M1 ltac:(lia) ltac:(lia) (proj2 (HK a1 H1) _ S)) as (s' & Hrs & HP & M' & Hc' & D').
    exists s'. split; [econstructor; eauto|]. split; [exact HP|]. split; [exact M'|]. split; [lia|congruence].
  - destruct Hh as [Hcs Hip]. assert (Rip : 0 <= r_ip (ar s)) by (apply (wf_ip _ (m_regs _ _ _ M))).
    pose proof (hle_machine (r_ip (ar s)) (ar s) M) as Mh.
    destruct (hle_entry E base f s (r_ip (ar s)) Hcb Hcs eq_refl ltac:(lia) (m_flat _ _ _ Mh) (m_regs _ _ _ Mh)) as (s1 & Hr & S & I1 & D1 & _).
    assert (M1 : machine E base (ar s1)) by (eapply machine_same; [exact S|]; apply machine_iret, Mh).
    destruct (IH s1 M1 ltac:(lia) ltac:(lia) (HK _ S)) as (s' & Hrs & HP & M' & Hc' & D').
    exists s'. split; [econstructor; eauto|]. split; [exact HP|]. split; [exact M'|]. split; [lia|congruence].
Qed.
Lemma program_call n P s fuel : machine E base (ar s) -> 0 <= icount s -> icount s + Z.of_nat n <= 2147483647 ->
  reaches (port_in E) f n (fun a => magic a /\ P a) (ar s) -> (n < fuel)%nat ->
  exists s', rme_call E fuel s = Ok tt s' /\ P (ar s') /\ machine E base (ar s').
Proof.
  intros M H0 Hi HR Hf. destruct (program_runs n _ s M H0 Hi HR) as (s' & Hr & (Hm & HP) & M' & _).
  exists s'. split; [|auto]. apply rme_call_ok. exists n. split; [exact Hf|]. exists s'. split; [exact Hr|].
  destruct Hm as [H1 H2]. unfold run_one. rewrite H1, H2. cbn [Z.eqb Pos.eqb andb]. destruct s'; reflexivity.
Qed.
Lemma poke_bytes n : forall x v a, (forall y b, hmem a y = Some b -> 0 <= b < 256) -> forall y b, hmem (poke n x v a) y = Some b -> 0 <= b < 256.
Proof.
  induction n as [|n IH]; intros x v a B; cbn [poke]; [exact B|]. apply IH. intros y b. unfold with_byte. cbn [a_hmem hmem].
  destruct (y =? host a x); [intros [= <-]; apply Z.mod_pos_bound; lia|apply B].
Qed.
Lemma machine_push v a : machine E base a -> machine E base (push16 v a).
Proof.
  intros [F W B]. constructor; [apply push_flat; auto|apply push_wf, W|]. unfold push16. cbv zeta. apply poke_bytes. exact B.
Qed.
Lemma machine_far sg o g b : inrange 16 sg -> inrange 16 o -> inrange 16 g -> machine E base b -> machine E base (far sg o (a_flags g b)).
Proof. intros R1 R2 R3 [[A0 A1 A2 A3] [] B1]. constructor; [constructor; auto|constructor; auto|exact B1]. Qed.
Lemma machine_enter_int n ret a : 0 <= n < 256 -> machine E base a -> machine E base (enter_int n ret a).
Proof.
  intros Hn M. unfold enter_int, int_frame. cbv zeta. unfold vector.
  assert (M1 : machine E base (push16 ret (push16 (r_cs a) (push16 (r_flags a) a)))) by (repeat apply machine_push; exact M).
  set (b := push16 ret _) in *.
  assert (R1 : inrange 16 (mem 16 b (4 * n + 2))) by (apply (mem_range E base); [apply M1|auto with width|lia|change (16 / 8) with 2; lia]).
  assert (R2 : inrange 16 (mem 16 b (4 * n))) by (apply (mem_range E base); [apply M1|auto with width|lia|change (16 / 8) with 2; lia]).
  assert (R3 : inrange 16 (put 9 false (put 8 false (r_flags a)))) by (repeat (apply put_range; [lia|]); apply (m_regs _ _ _ M)).
  apply machine_far; assumption.
Qed.
Lemma program_call_int k n P s fuel : 0 <= n < 256 -> machine E base (ar s) -> 0 <= icount s -> icount s + Z.of_nat k <= 2147483647 ->
  (forall a, same a (enter_int n 65535 (a_ip 65535 (a_cs 65535 (ar s)))) -> reaches (port_in E) f k (fun a => magic a /\ P a) a) -> (k < fuel)%nat ->
  exists s', call_int E fuel n s = Ok tt s' /\ P (ar s') /\ machine E base (ar s').
Proof.
  intros Hn M H0 Hi HR Hf. destruct (call_int_enter E base n s Hn (m_flat _ _ _ M) (m_regs _ _ _ M)) as (s1 & S & I1 & _ & _ & Hc).
  assert (M0 : machine E base (a_ip 65535 (a_cs 65535 (ar s)))).
  { destruct M as [[A0 A1 A2 A3] [] B1]. constructor; [constructor; auto|constructor; auto; cbn; unfold inrange; lia|exact B1]. }
  rewrite Hc. apply (program_call k P s1 fuel); auto; [|lia|lia].
  eapply machine_same; [exact S|]. apply machine_enter_int; auto.
Qed.
End Prog.
