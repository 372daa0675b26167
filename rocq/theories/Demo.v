(** Concrete machines for the non-vacuity examples and the counterexamples.  A demo machine has
    1 MiB + 64 KiB of guest memory mapped at host address 4096, instruction bytes [bs] at
    1000:0100, given bytes [mem] (linear address, value) and zeros elsewhere. *)
From Verif Require Import Base Cpu Alu Ops Machine Spec SpecOps SpecOps2 SpecSys SpecRun PBase PMem PRun PFrame PExec.

Definition demo_env : env := mkEnv false false (fun _ _ p => p * 3 + 7) (fun _ _ s => s).
Definition HB : Z := 4096.
Fixpoint assoc (l : list (Z * Z)) (x : Z) : Z :=
  match l with [] => 0 | (k, v) :: t => if k =? x then v else assoc t x end.
Definition pc0 : Z := 65792.   (* 1000:0100 *)
Fixpoint blist (x : Z) (bs : list Z) : list (Z * Z) :=
  match bs with [] => [] | b :: t => (x, b) :: blist (x + 1) t end.
Definition img (l : list (Z * Z)) (x : Z) : option Z :=
  if (HB <=? x) && (x <? HB + 1114112) then Some (assoc l (x - HB)) else None.
(** Registers as a list AX CX DX BX SP BP SI DI (32 bits each). *)
Fixpoint pack (l : list Z) : Z := match l with [] => 0 | v :: t => v + 2 ^ 32 * pack t end.
Definition demo_arch (regs : list Z) (fl : Z) (m : list (Z * Z)) (bs : list Z) : arch :=
  mkArch (pack regs) 0x3000 0x2000 0x4000 0x5000 0x6000 0x1000 0x100 fl 2
         (fun b => HB + 4096 * b) (fun _ => 0) (img (blist pc0 bs ++ m)) [].
Definition demo (regs : list Z) (fl : Z) (m : list (Z * Z)) (bs : list Z) : st :=
  mkSt (demo_arch regs fl m bs) dec0 0 0 false.
(** The checks the lemmas below need, as a boolean. *)
Definition demo_ok (regs : list Z) (fl : Z) (m : list (Z * Z)) (bs : list Z) : bool :=
  forallb (fun v => (0 <=? v) && (v <? 2 ^ 32)) regs && (Nat.leb (length regs) 8) &&
  (0 <=? fl) && (fl <? 65536) && forallb (fun b => (0 <=? b) && (b <? 256)) bs &&
  forallb (fun q => (0 <=? snd q) && (snd q <? 256)) m && (Nat.leb (length bs) 100).

Lemma assoc_range l x : forallb (fun q => (0 <=? snd q) && (snd q <? 256)) l = true -> 0 <= assoc l x < 256.
Proof.
  induction l as [|[k v] t IH]; cbn [assoc forallb snd]; [lia|]. intros H. apply andb_true_iff in H. destruct H as [H1 H2].
  destruct (k =? x); [lia|apply IH, H2].
Qed.
Lemma blist_range bs : forall x, forallb (fun b => (0 <=? b) && (b <? 256)) bs = true ->
  forallb (fun q => (0 <=? snd q) && (snd q <? 256)) (blist x bs) = true.
Proof. induction bs as [|b t IH]; intros x H; cbn in *; [reflexivity|]. apply andb_true_iff in H. rewrite IH by apply H. destruct H as [-> _]. reflexivity. Qed.
Lemma assoc_blist bs : forall x i b l, nth_error bs i = Some b -> assoc (blist x bs ++ l) (x + Z.of_nat i) = b.
Proof.
  induction bs as [|c t IH]; intros x i b l H; [destruct i; discriminate|]. cbn [blist app assoc]. destruct i as [|i].
  - cbn in H. injection H as ->. rewrite Z.add_0_r, Z.eqb_refl. reflexivity.
  - replace (x =? x + Z.of_nat (S i)) with false by lia. replace (x + Z.of_nat (S i)) with (x + 1 + Z.of_nat i) by lia. apply IH, H.
Qed.
Lemma pack_range l : forallb (fun v => (0 <=? v) && (v <? 2 ^ 32)) l = true -> (length l <= 8)%nat -> 0 <= pack l < 2 ^ 256.
Proof.
  intros H Hl. assert (A : 0 <= pack l < 2 ^ (32 * Z.of_nat (length l))).
  { clear Hl. induction l as [|v t IH]; [cbn; lia|]. cbn [forallb] in H. apply andb_true_iff in H. destruct H as [H1 H2].
    specialize (IH H2). cbn [pack length]. replace (32 * Z.of_nat (S (length t))) with (32 + 32 * Z.of_nat (length t)) by lia.
    rewrite Z.pow_add_r by lia. nia. }
  assert (2 ^ (32 * Z.of_nat (length l)) <= 2 ^ 256) by (apply Z.pow_le_mono_r; lia). lia.
Qed.
Lemma demo_flat E regs fl m bs : demo_ok regs fl m bs = true -> flat E HB (demo_arch regs fl m bs).
Proof.
  unfold demo_ok. intros H. repeat (apply andb_true_iff in H; destruct H as [H ?]). constructor.
  - unfold HB. lia.
  - unfold HB. discriminate.
  - reflexivity.
  - intros x Hx. cbn [demo_arch hmem]. unfold img. replace ((HB <=? HB + x) && (HB + x <? HB + 1114112)) with true by lia.
    eexists. split; [reflexivity|]. apply assoc_range. rewrite forallb_app, blist_range by assumption. assumption.
Qed.
Lemma demo_wf regs fl m bs : demo_ok regs fl m bs = true -> wf_regs (demo_arch regs fl m bs).
Proof.
  unfold demo_ok. intros H. repeat (apply andb_true_iff in H; destruct H as [H ?]).
  constructor; cbn [demo_arch gprs r_ss r_ds r_es r_fs r_gs r_cs r_ip r_flags]; unfold inrange; try lia.
  apply pack_range; [assumption|]. apply Nat.leb_le. assumption.
Qed.
Lemma demo_ready E regs fl m bs : demo_ok regs fl m bs = true -> ready E HB (demo regs fl m bs).
Proof.
  intros H. constructor; cbn [demo ar icount].
  - apply demo_flat, H.
  - apply demo_wf, H.
  - unfold normal_pc. cbn. lia.
  - lia.
Qed.
Lemma demo_fetched E regs fl m pre p bs : demo_ok regs fl m (pre ++ bs) = true -> prefixes pre = Some p ->
  fetched E HB (demo regs fl m (pre ++ bs)) pre p bs.
Proof.
  intros H Hp. split; [apply demo_ready, H|]. split; [exact Hp|]. 
  assert (Hl : blen (pre ++ bs) <= 100).
  { unfold demo_ok in H. apply andb_true_iff in H. destruct H as [_ H]. apply Nat.leb_le in H. unfold blen. lia. }
  split; [cbn [demo ar demo_arch r_ip]; lia|].
  intros i b Hi. cbn [demo ar]. unfold byte, host, pc, lin. cbn [demo_arch r_cs r_ip mtab hmem].
  assert (Hi' : Z.of_nat i < 100). { 
    assert (i < length (pre ++ bs))%nat by (apply nth_error_Some; congruence). unfold blen in Hl. lia. }
  replace (HB + 4096 * ((16 * 4096 + 256 + Z.of_nat i) / 4096) + (16 * 4096 + 256 + Z.of_nat i) mod 4096) with (HB + (pc0 + Z.of_nat i))
    by (pose proof (Z.div_mod (16 * 4096 + 256 + Z.of_nat i) 4096 ltac:(lia)); unfold pc0; lia).
  unfold img. replace ((HB <=? HB + (pc0 + Z.of_nat i)) && (HB + (pc0 + Z.of_nat i) <? HB + 1114112)) with true by (unfold pc0; lia).
  replace (HB + (pc0 + Z.of_nat i) - HB) with (pc0 + Z.of_nat i) by lia. apply assoc_blist, Hi.
Qed.
Lemma demo_wf_state regs fl m bs : demo_ok regs fl m bs = true -> wf_state (demo regs fl m bs).
Proof.
  intros H. constructor; cbn [demo ar dc dec0 d_ipoff d_seg d_rep]; try lia.
  - apply demo_wf, H.
  - intros x b. cbn [demo_arch hmem]. unfold img. destruct (_ && _); [|discriminate]. intros [= <-].
    unfold demo_ok in H. repeat (apply andb_true_iff in H; destruct H as [H ?]).
    apply assoc_range. rewrite forallb_app, blist_range by assumption. assumption.
Qed.
Lemma demo_polite : polite demo_env.
Proof.
  intros h n s Hw. cbn [demo_env callback]. split; [|auto]. constructor; auto.
  - constructor; auto. tauto.
  - intros x Hx. congruence.
  - exists []. symmetry. apply app_nil_r.
Qed.
Lemma demo_callbacks : callbacks demo_env (fun _ _ a => a).
Proof. intros h n s. destruct s. reflexivity. Qed.
(** Checking the outcome of a concrete run. *)
Definition okb (o : out unit) (f : st -> bool) : bool := match o with Ok _ s => f s | _ => false end.
Definition errb (c : Z) (o : out unit) (f : st -> bool) : bool := match o with Err c' s => (c =? c') && f s | _ => false end.
Definition is_ub (o : out unit) : option ub := match o with UB r => Some r | _ => None end.
Lemma okb_ex o f : okb o f = true -> exists s', o = Ok tt s' /\ f s' = true.
Proof. destruct o as [[] s|c s|r|]; try discriminate. eauto. Qed.
Lemma errb_ex c o f : errb c o f = true -> exists s', o = Err c s' /\ f s' = true.
Proof. destruct o as [[] s|c' s|r|]; try discriminate. cbn. intros H. apply andb_true_iff in H. destruct H as [H1 H2]. apply Z.eqb_eq in H1. subst. eauto. Qed.
Lemma is_ub_eq o r : is_ub o = Some r -> o = UB r.
Proof. destruct o; try discriminate. cbn. congruence. Qed.
