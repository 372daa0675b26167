(** Memory and register algebra used by the multi-instruction theorems. *)
From Verif Require Import Base Cpu Alu Ops Machine Spec SpecOps SpecOps2 PBase PMem PRun PFrame PAlu PExec PStep.

Definition inmem (w x : Z) : Prop := 0 <= x /\ x + w / 8 <= 1114112.

Lemma wmem_fields w x v a :
  gprs (with_mem w x v a) = gprs a /\ r_ss (with_mem w x v a) = r_ss a /\ r_ds (with_mem w x v a) = r_ds a /\
  r_es (with_mem w x v a) = r_es a /\ r_fs (with_mem w x v a) = r_fs a /\ r_gs (with_mem w x v a) = r_gs a /\
  r_cs (with_mem w x v a) = r_cs a /\ r_ip (with_mem w x v a) = r_ip a /\
  r_flags (with_mem w x v a) = r_flags a /\ cpu (with_mem w x v a) = cpu a /\
  mtab (with_mem w x v a) = mtab a /\ hle (with_mem w x v a) = hle a /\ iolog (with_mem w x v a) = iolog a.
Proof. apply poke_fields. Qed.
Lemma wmem_gprs w x v a : gprs (with_mem w x v a) = gprs a. Proof. apply wmem_fields. Qed.
Lemma wmem_ss w x v a : r_ss (with_mem w x v a) = r_ss a. Proof. apply wmem_fields. Qed.
Lemma wmem_ds w x v a : r_ds (with_mem w x v a) = r_ds a. Proof. apply wmem_fields. Qed.
Lemma wmem_es w x v a : r_es (with_mem w x v a) = r_es a. Proof. apply wmem_fields. Qed.
Lemma wmem_fs w x v a : r_fs (with_mem w x v a) = r_fs a. Proof. apply wmem_fields. Qed.
Lemma wmem_gs w x v a : r_gs (with_mem w x v a) = r_gs a. Proof. apply wmem_fields. Qed.
Lemma wmem_cs w x v a : r_cs (with_mem w x v a) = r_cs a. Proof. apply wmem_fields. Qed.
Lemma wmem_ip w x v a : r_ip (with_mem w x v a) = r_ip a. Proof. apply wmem_fields. Qed.
Lemma wmem_flags w x v a : r_flags (with_mem w x v a) = r_flags a. Proof. apply wmem_fields. Qed.
Lemma wmem_cpu w x v a : cpu (with_mem w x v a) = cpu a. Proof. apply wmem_fields. Qed.
Lemma wmem_mtab w x v a : mtab (with_mem w x v a) = mtab a. Proof. apply wmem_fields. Qed.
Lemma wmem_hle w x v a : hle (with_mem w x v a) = hle a. Proof. apply wmem_fields. Qed.
Lemma wmem_iolog w x v a : iolog (with_mem w x v a) = iolog a. Proof. apply wmem_fields. Qed.
Lemma wmem_reg w x v a w' n : reg w' n (with_mem w x v a) = reg w' n a.
Proof. unfold reg, gpr. rewrite wmem_gprs. reflexivity. Qed.
Lemma wmem_flat E base w x v a : flat E base a -> width w -> inmem w x -> flat E base (with_mem w x v a).
Proof. intros F Hw [H1 H2]. eapply same_flat; [eapply smem_same; eauto|]. apply smem_flat, F. Qed.
Lemma wmem_wf w x v a : wf_regs a -> wf_regs (with_mem w x v a).
Proof. intros []. constructor; rewrite ?wmem_gprs, ?wmem_ss, ?wmem_ds, ?wmem_es, ?wmem_fs, ?wmem_gs, ?wmem_cs, ?wmem_ip, ?wmem_flags; auto. Qed.

(** Reading a byte after a write. *)
Lemma byte_wmem E base w x v a y : flat E base a -> width w -> inmem w x -> 0 <= y < 1114112 ->
  byte (with_mem w x v a) y =
  if (x <=? y) && (y <? x + w / 8) then (v / 2 ^ (8 * (y - x))) mod 256 else byte a y.
Proof.
  intros F Hw [H1 H2] Hy.
  rewrite <- (same_byte _ _ y (smem_same E base w x v a F Hw H1 H2)).
  pose proof (smem_flat E base w x v a F) as F'.
  pose proof (byte_flat E base _ y F' Hy) as Hb. cbn [smem hmem a_hmem] in Hb.
  unfold store_bytes in Hb. rewrite nbytes_w in Hb by auto.
  replace ((base + x <=? base + y) && (base + y <? base + x + w / 8)) with ((x <=? y) && (y <? x + w / 8)) in Hb by lia.
  destruct ((x <=? y) && (y <? x + w / 8)).
  - replace (base + y - (base + x)) with (y - x) in Hb by lia. congruence.
  - rewrite (byte_flat E base a y F Hy) in Hb. congruence.
Qed.
Lemma peek_wmem_other E base w x v a n y : flat E base a -> width w -> inmem w x ->
  0 <= y -> y + Z.of_nat n <= 1114112 -> y + Z.of_nat n <= x \/ x + w / 8 <= y ->
  peek n (with_mem w x v a) y = peek n a y.
Proof.
  intros F Hw Hx. revert y. induction n as [|n IH]; intros y H1 H2 H3; cbn [peek]; [reflexivity|].
  rewrite (byte_wmem E base) by (auto; lia).
  replace ((x <=? y) && (y <? x + w / 8)) with false by lia. rewrite IH by lia. reflexivity.
Qed.
Lemma mem_other E base w x v a w' y : flat E base a -> width w -> width w' -> inmem w x -> inmem w' y ->
  y + w' / 8 <= x \/ x + w / 8 <= y -> mem w' (with_mem w x v a) y = mem w' a y.
Proof.
  intros F Hw Hw' Hx [Hy1 Hy2] H. unfold mem. pose proof (nbytes_w w' Hw') as Hn. unfold nbytes in Hn.
  eapply peek_wmem_other; eauto; rewrite Hn; lia.
Qed.
Lemma mem_same E base w x v a : flat E base a -> width w -> inmem w x -> inrange w v ->
  mem w (with_mem w x v a) x = v.
Proof.
  intros F Hw Hx Hv. pose proof Hx as [H1 H2]. unfold inrange in Hv.
  assert (Hb : forall i, 0 <= i < w / 8 -> byte (with_mem w x v a) (x + i) = (v / 2 ^ (8 * i)) mod 256).
  { intros i Hi. rewrite (byte_wmem E base) by (auto; lia).
    replace ((x <=? x + i) && (x + i <? x + w / 8)) with true by lia. do 4 f_equal. lia. }
  pose proof (Hb 0) as B0. rewrite Z.add_0_r in B0.
  destruct Hw as [->|[->| ->]].
  - rewrite mem8, B0 by (cbn; lia). cbn in *. rewrite Z.div_1_r. lia.
  - rewrite mem16, B0, (Hb 1) by (cbn; lia). cbn in *. rewrite Z.div_1_r. lia.
  - rewrite mem32, B0, (Hb 1), (Hb 2), (Hb 3) by (cbn; lia). cbn in *. rewrite Z.div_1_r. lia.
Qed.
Lemma wmem_twice E base w x u v a : flat E base a -> width w -> inmem w x ->
  same (with_mem w x v (with_mem w x u a)) (with_mem w x v a).
Proof.
  intros F Hw Hx. pose proof Hx as [H1 H2].
  eapply same_trans; [apply same_sym; eapply smem_same; eauto using wmem_flat|].
  eapply same_trans; [|eapply smem_same; eauto].
  assert (S : same (with_mem w x u a) (smem base w x u a)) by (apply same_sym; eapply smem_same; eauto).
  constructor; try apply S. 
  intros y. cbn. unfold store_bytes. destruct (_ && _) eqn:Hc; [reflexivity|].
  rewrite (sm_mem _ _ S y). cbn. unfold store_bytes. rewrite Hc. reflexivity.
Qed.
Lemma inmem_lin w sg o : width w -> inrange 16 sg -> inrange 16 o -> inmem w (lin sg o).
Proof. intros. destruct (lin_ok w sg o); auto. split; auto. Qed.

(** Registers. *)
Lemma wreg_twice w n u v a : width w -> 0 <= n < 8 -> inrange w u -> inrange w v ->
  with_reg w n v (with_reg w n u a) = with_reg w n v a.
Proof.
  intros Hw Hn Hu Hv. rewrite !with_reg_setf by auto. cbn. unfold a_gprs. cbn.
  rewrite setf_setf_same; [reflexivity|unfold rpos; destruct (w =? 8), (n <? 4) eqn:?; lia|apply wpos; auto].
Qed.
Lemma wreg_id w n a : width w -> 0 <= n < 8 -> with_reg w n (reg w n a) a = a.
Proof.
  intros Hw Hn. rewrite with_reg_setf by (auto using reg_range). rewrite reg_getf by auto.
  rewrite setf_getf_id by (apply wpos; auto). destruct a; reflexivity.
Qed.
(** Reading an operand back. *)
Lemma rd_wr_same E base w r v a : flat E base a -> width w -> rm_ok r -> inrange w v ->
  rd_rm w r (wr_rm w r v a) = v.
Proof.
  intros F Hw Hr Hv. destruct r as [n|sg o]; cbn [rd_rm wr_rm].
  - apply reg_same; auto.
  - destruct Hr. eapply mem_same; eauto using inmem_lin.
Qed.
Lemma wr_wr_same E base w r u v a : flat E base a -> width w -> rm_ok r -> inrange w u -> inrange w v ->
  same (wr_rm w r v (wr_rm w r u a)) (wr_rm w r v a).
Proof.
  intros F Hw Hr Hu Hv. destruct r as [n|sg o]; cbn [wr_rm].
  - rewrite wreg_twice by auto. apply same_refl.
  - destruct Hr. eapply wmem_twice; eauto using inmem_lin.
Qed.
