(** Lemmas behind C39-C47. *)
From Verif Require Import Base Cpu Alu Ops Machine Spec SpecOps SpecOps2 SpecSys SpecStr SpecRun SpecTop PBase PMem PRun PFrame PAlu PExec PStep PFlags PSmall PSmall2 PSmall3 PSmall4 PIAlu PIAlu2 PAlg PIMov PIStack PIJump PIInt PIStr PSmall6 PSmall7.

(** Elements coincide or do not overlap; 64K worth of them are distinct. *)
Lemma at_k_grid w x d i j : width w -> d = w / 8 \/ d = - (w / 8) ->
  at_k x d i = at_k x d j \/ at_k x d i + w / 8 <= at_k x d j \/ at_k x d j + w / 8 <= at_k x d i.
Proof.
  intros Hw Hd. unfold at_k, low. change (2 ^ 16) with 65536.
  assert (Hc : exists c, w / 8 = c /\ 0 < c /\ exists m, 65536 = c * m) by (destruct Hw as [->|[->| ->]]; [exists 1|exists 2|exists 4]; (split; [reflexivity|split; [lia|]]); [exists 65536|exists 32768|exists 16384]; lia).
  destruct Hc as (c & Ec & Hc & m & Hm). rewrite Ec in *.
  pose proof (Z.div_mod (x + Z.of_nat i * d) 65536 ltac:(lia)) as D1. pose proof (Z.div_mod (x + Z.of_nat j * d) 65536 ltac:(lia)) as D2.
  set (p := (x + Z.of_nat i * d) mod 65536) in *. set (q := (x + Z.of_nat j * d) mod 65536) in *.
  set (u := (x + Z.of_nat i * d) / 65536) in *. set (v := (x + Z.of_nat j * d) / 65536) in *.
  assert (Hpq : exists t, p - q = c * t).
  { destruct Hd as [-> | ->]; [exists ((Z.of_nat i - Z.of_nat j) - m * (u - v))|exists (- (Z.of_nat i - Z.of_nat j) - m * (u - v))]; nia. }
  destruct Hpq as (t & Ht).
  destruct (Z.lt_trichotomy t 0) as [|[->|]]; [right; left|left|right; right]; nia.
Qed.
Lemma at_k_apart w x d i j n : width w -> d = w / 8 \/ d = - (w / 8) -> Z.of_nat n * (w / 8) <= 65536 -> (i < n)%nat -> (j < n)%nat -> i <> j ->
  at_k x d i + w / 8 <= at_k x d j \/ at_k x d j + w / 8 <= at_k x d i.
Proof.
  intros Hw Hd Hn Hi Hj Hij. destruct (at_k_grid w x d i j Hw Hd) as [He|He]; [exfalso|exact He].
  revert He. unfold at_k, low. change (2 ^ 16) with 65536.
  assert (Hc : 0 < w / 8) by (destruct Hw as [->|[->| ->]]; reflexivity). generalize dependent (w / 8). intros c Hd Hn Hc.
  pose proof (Z.div_mod (x + Z.of_nat i * d) 65536 ltac:(lia)) as D1. pose proof (Z.div_mod (x + Z.of_nat j * d) 65536 ltac:(lia)) as D2.
  intros He. rewrite He in D1.
  set (u := (x + Z.of_nat i * d) / 65536) in *. set (v := (x + Z.of_nat j * d) / 65536) in *.
  assert ((Z.of_nat i - Z.of_nat j) * d = 65536 * (u - v)) by lia.
  assert (Hlt : - 65536 < (Z.of_nat i - Z.of_nat j) * d < 65536) by (destruct Hd as [-> | ->]; nia).
  assert (u - v = 0) by nia. assert (Hz : (Z.of_nat i - Z.of_nat j) * d = 0) by lia. apply Z.mul_eq_0 in Hz. lia.
Qed.

Section WithEnv.
Context (E : env) (base : Z) (inp : list ioev -> Z -> Z -> Z).
Notation elems := (elems inp).
Lemma only_memory_refl a : only_memory a a. Proof. unfold only_memory. destruct a; apply same_refl. Qed.
Lemma only_memory_wmem w x v a b : only_memory a b -> only_memory (with_mem w x v a) b.
Proof.
  intros S. destruct (wmem_fields w x v a) as (H1 & H2 & H3 & H4 & H5 & H6 & H7 & H8 & H9 & H10 & H11 & H12 & H13).
  unfold only_memory in *. destruct S. constructor; cbn [a_hmem gprs r_ss r_ds r_es r_fs r_gs r_cs r_ip r_flags cpu mtab hle hmem iolog] in *; try congruence.
Qed.
Lemma only_memory_elems o w sg si dg di d n a : o = S_MOVS \/ o = S_STOS -> only_memory (elems o w sg si dg di d n a) a.
Proof.
  intros Ho. induction n as [|n IH]; [apply only_memory_refl|]. cbn [SpecStr.elems].
  destruct Ho as [->| ->]; cbn [elem]; apply only_memory_wmem, IH.
Qed.
Lemma elems_byte o w sg si dg di d n a x : o = S_MOVS \/ o = S_STOS -> flat E base a -> width w -> inrange 16 sg -> inrange 16 dg -> 0 <= x < 1114112 ->
  (forall k, (k < n)%nat -> ~ (lin dg (at_k di d k) <= x < lin dg (at_k di d k) + w / 8)) ->
  byte (elems o w sg si dg di d n a) x = byte a x.
Proof.
  intros Ho F Hw Hs Hd Hx. induction n as [|n IH]; intros Hk; [reflexivity|]. cbn [SpecStr.elems].
  assert (Hf : flat E base (elems o w sg si dg di d n a)) by (eapply elems_flat; eauto).
  assert (Hin : inmem w (lin dg (at_k di d n))) by (apply inmem_lin; auto using at_k_range).
  specialize (Hk n ltac:(lia)) as Hkn. rewrite <- IH by (intros k ?; apply Hk; lia).
  destruct Ho as [->| ->]; cbn [elem]; rewrite (byte_wmem E base) by auto;
    (destruct ((lin dg (at_k di d n) <=? x) && (x <? lin dg (at_k di d n) + w / 8)) eqn:B; [exfalso; apply Hkn; lia|reflexivity]).
Qed.
Lemma elems_stos w sg si dg di d a : flat E base a -> width w -> inrange 16 sg -> inrange 16 dg -> d = w / 8 \/ d = - (w / 8) ->
  forall m k, (k < m)%nat -> mem w (elems S_STOS w sg si dg di d m a) (lin dg (at_k di d k)) = reg w AX a.
Proof.
  intros F Hw Hs Hd Hdd m. induction m as [|m IH]; intros k Hk; [lia|]. cbn [SpecStr.elems elem].
  assert (Hf : flat E base (elems S_STOS w sg si dg di d m a)) by (eapply elems_flat; eauto).
  assert (Hr : reg w 0 (elems S_STOS w sg si dg di d m a) = reg w 0 a).
  { unfold reg, gpr. pose proof (only_memory_elems S_STOS w sg si dg di d m a ltac:(auto)) as [Q]. cbn [a_hmem gprs] in Q. rewrite Q. reflexivity. }
  assert (Hsame : mem w (with_mem w (lin dg (at_k di d m)) (reg w 0 (elems S_STOS w sg si dg di d m a)) (elems S_STOS w sg si dg di d m a)) (lin dg (at_k di d m)) = reg w 0 a).
  { rewrite (mem_same E base) by (first [solve [auto using inmem_lin, at_k_range]|apply reg_range; [auto|lia]]). exact Hr. }
  destruct (Nat.eq_dec k m) as [->|Hkm]; [exact Hsame|].
  destruct (at_k_grid w di d k m Hw Hdd) as [->|G]; [exact Hsame|].
  rewrite (mem_other E base); auto using inmem_lin, at_k_range; [apply IH; lia|]. unfold lin; lia.
Qed.
Lemma elems_movs w sg si dg di d n a : flat E base a -> width w -> inrange 16 sg -> inrange 16 dg -> d = w / 8 \/ d = - (w / 8) -> Z.of_nat n * (w / 8) <= 65536 ->
  (forall i k, (i < k < n)%nat -> let x := lin sg (at_k si d k) in let y := lin dg (at_k di d i) in x + w / 8 <= y \/ y + w / 8 <= x) ->
  forall m, (m <= n)%nat -> (forall k, (k < m)%nat -> mem w (elems S_MOVS w sg si dg di d m a) (lin dg (at_k di d k)) = mem w a (lin sg (at_k si d k))) /\
    (forall k, (m <= k < n)%nat -> mem w (elems S_MOVS w sg si dg di d m a) (lin sg (at_k si d k)) = mem w a (lin sg (at_k si d k))).
Proof.
  intros F Hw Hs Hd Hdd Hn Hdis m. induction m as [|m IH]; intros Hm; [split; [intros; lia|reflexivity]|]. cbn [SpecStr.elems elem].
  assert (Hf : flat E base (elems S_MOVS w sg si dg di d m a)) by (eapply elems_flat; eauto). destruct (IH ltac:(lia)) as [I1 I2].
  split.
  - intros k Hk. destruct (Nat.eq_dec k m) as [->|Hkm].
    + rewrite (mem_same E base); auto using inmem_lin, at_k_range. destruct (inmem_lin w sg (at_k si d m)); auto using at_k_range. eapply mem_range; eauto.
    + rewrite (mem_other E base); auto using inmem_lin, at_k_range; [apply I1; lia|].
      destruct (at_k_apart w di d k m n Hw Hdd Hn ltac:(lia) ltac:(lia) Hkm); unfold lin; lia.
  - intros k Hk. rewrite (mem_other E base); auto using inmem_lin, at_k_range; try (apply I2; lia); try lia. all: apply Hdis; lia.
Qed.
End WithEnv.
Lemma src_at sg w a k : src_elem sg w a k = lin sg (at_k (reg 16 SI a) (stride w (r_flags a)) k).
Proof. unfold src_elem, at_k, stride, low. change (2 ^ 16) with 65536. do 2 f_equal. destruct (flag DF (r_flags a)); lia. Qed.
Lemma dst_at w a k : dst_elem w a k = lin (r_es a) (at_k (reg 16 DI a) (stride w (r_flags a)) k).
Proof. unfold dst_elem, at_k, stride, low. change (2 ^ 16) with 65536. do 2 f_equal. destruct (flag DF (r_flags a)); lia. Qed.
Lemma moved_at w n x a : 0 <= n -> moved w n x a = at_k x (stride w (r_flags a)) (Z.to_nat n).
Proof. intros H. unfold moved, at_k, stride, low. change (2 ^ 16) with 65536. rewrite Z2Nat.id by lia. f_equal. destruct (flag DF (r_flags a)); lia. Qed.
Lemma stride_or w f : stride w f = w / 8 \/ stride w f = - (w / 8).
Proof. unfold stride. destruct (flag DF f); auto. Qed.

Lemma find_first f n : forall a i, find f (map Z.of_nat (seq a n)) = Some i -> Z.of_nat a <= i < Z.of_nat a + Z.of_nat n /\ f i = true /\ forall j, Z.of_nat a <= j < i -> f j = false.
Proof.
  induction n as [|n IH]; intros a i H; [discriminate|]. cbn [seq map find] in H. destruct (f (Z.of_nat a)) eqn:Hf.
  - injection H as <-. split; [lia|]. split; [exact Hf|]. intros; lia.
  - destruct (IH _ _ H) as (H1 & H2 & H3). split; [lia|]. split; [exact H2|]. intros j Hj.
    destruct (Z.eq_dec j (Z.of_nat a)) as [->|]; [exact Hf|apply H3; lia].
Qed.
Lemma find_nothing f n : forall a, find f (map Z.of_nat (seq a n)) = None -> forall j, Z.of_nat a <= j < Z.of_nat a + Z.of_nat n -> f j = false.
Proof.
  induction n as [|n IH]; intros a H j Hj; [lia|]. cbn [seq map find] in H. destruct (f (Z.of_nat a)) eqn:Hf; [discriminate|].
  destruct (Z.eq_dec j (Z.of_nat a)) as [->|]; [exact Hf|apply (IH _ H); lia].
Qed.

Lemma mem_fl w f a x : mem w (a_flags f a) x = mem w a x.
Proof. unfold mem. generalize (Z.to_nat (w / 8)). intros n. revert x. induction n as [|n IH]; intros x; cbn [peek]; [reflexivity|]. rewrite IH. reflexivity. Qed.
Lemma mem_io w l a x : mem w (a_iolog l a) x = mem w a x.
Proof. unfold mem. generalize (Z.to_nat (w / 8)). intros n. revert x. induction n as [|n IH]; intros x; cbn [peek]; [reflexivity|]. rewrite IH. reflexivity. Qed.
Lemma mem_ip w i a x : mem w (a_ip i a) x = mem w a x.
Proof. unfold mem. generalize (Z.to_nat (w / 8)). intros n. revert x. induction n as [|n IH]; intros x; cbn [peek]; [reflexivity|]. rewrite IH. reflexivity. Qed.
(** ENTER size,1 acts like ENTER size,0. *)
Lemma enter1_instr E base s pre p b0 b1 lv : fetched E base s pre p [200; b0; b1; lv] -> p_os p = false -> lv mod 32 = 1 ->
  executes E s (pre ++ [200; b0; b1; lv]) (enter (b0 + 256 * b1) 0 (ar s)).
Proof.
  intros Hf Ho Hlv1. destruct (instr_ctx _ _ _ _ _ _ _ Hf) as (F & W & Hp & C & Hb).
  destruct (code_from_cons _ _ _ _ C) as [_ C1]. destruct (code_from_cons _ _ _ _ C1) as [_ C2].
  assert (Csz : forall d : dec, d_ipoff d = blen pre + 1 -> forall g n l, fetch16 E (mkSt (ar s) d g n l) =
      Ok (b0 + 256 * b1) (mkSt (ar s) (dd_ipoff (d_ipoff d + 2) d) g n l)).
  { intros d Hd g n l. eapply fetch16_code; eauto. rewrite Hd. exact C. }
  assert (F1 : flat E base (push_a base (reg 16 BP (ar s)) (ar s))) by auto with flat.
  assert (W1 : wf_regs (push_a base (reg 16 BP (ar s)) (ar s))) by auto with wf.
  set (a1 := push_a base (reg 16 BP (ar s)) (ar s)) in *.
  assert (Hs1 : same a1 (push16 (reg 16 BP (ar s)) (ar s))) by (eapply same_push16; eauto; apply same_refl).
  assert (Hsp : inrange 16 (reg 16 SP a1)) by (auto with wf width; lia).
  frs Hf; [unfold x_enter, R_BP, R_SP| | | |].
  - erewrite bind_ok by (apply Csz; reflexivity).
    change (dd_ipoff (d_ipoff (dec_of p (blen pre + 1)) + 2) (dec_of p (blen pre + 1))) with (dec_of p (blen pre + 1 + 2)).
    erewrite (st_fetch8 E base); [|eauto|eauto|].
    2:{ replace (blen pre + 1 + 2) with (blen pre + 1 + 1 + 1) by lia. exact C2. }
    cbv zeta. rewrite Hlv1. rewrite (st_pushW E base) by (auto; lia). change (pushed 5 (ar s)) with (reg 16 BP (ar s)). fold a1.
    rewrite st_getW by lia. cbn [Z.ltb Z.compare Pos.compare Pos.compare_cont]. rewrite st_ret.
    rewrite st_setW by lia. rewrite st_getW by lia. tail. rewrite st_setW by lia. reflexivity.
  - blia.
  - auto with flat.
  - rewrite !wreg_ip. apply push_a_ip.
  - unfold enter. cbv zeta. cbn [Z.eqb]. rewrite (low_id 16 (reg 16 4 a1)) by auto.
    rewrite <- (same_reg _ _ 16 SP Hs1).
    match goal with |- same (with_reg _ _ (low 16 (reg _ _ ?x - _)) _) (with_reg _ _ (low 16 (reg _ _ ?y - _)) _) =>
      assert (Hxy : same x y) by (apply same_with_reg, Hs1) end.
    rewrite (same_reg _ _ 16 SP Hxy). apply same_with_reg, Hxy.
Qed.
(** The frame ENTER builds. *)
Section Frame.
Context (E : env) (base : Z).
Lemma display_facts a : flat E base a -> wf_regs a -> exists b, b = enter_display a /\ flat E base b /\ wf_regs b /\
  (forall j k, 0 <= k < 32766 -> j = k + 1 -> stack_word j b = stack_word k a) /\ reg 16 4 b = low 16 (reg 16 4 a - 2) /\ r_ss b = r_ss a.
Proof.
  intros F W. unfold enter_display. cbv zeta. set (bp := low 16 (reg 16 5 a - 2)).
  assert (Hbp : inrange 16 bp) by (apply low_range; auto with width).
  assert (F1 : flat E base (with_reg 16 5 bp a)) by auto with flat.
  assert (W1 : wf_regs (with_reg 16 5 bp a)) by (apply wf_with_reg; auto with width; lia).
  assert (Hv : inrange 16 (mem 16 (with_reg 16 5 bp a) (lin (r_ss (with_reg 16 5 bp a)) bp))).
  { destruct (inmem_lin 16 (r_ss (with_reg 16 5 bp a)) bp); auto with width; [apply W1|]. eapply mem_range; eauto with width. }
  destruct (PSmall7.push_facts E base _ _ F1 W1 Hv) as (b & -> & Fb & Wb & T & K & P & O & S).
  eexists. split; [reflexivity|]. split; [exact Fb|]. split; [exact Wb|].
  assert (Hss : r_ss (with_reg 16 5 bp a) = r_ss a) by (rewrite with_reg_setf by (auto with width; lia); reflexivity).
  split; [|split; [|rewrite S; exact Hss]].
  - intros j k Hk Hj. rewrite (K j k Hk Hj). unfold stack_word. rewrite Hss, mem_wreg, reg16_other by (auto; lia). reflexivity.
  - rewrite P, reg16_other by (auto; lia). reflexivity.
Qed.
Lemma display_iter n : forall a, flat E base a -> wf_regs a -> (n <= 100)%nat -> exists b, b = Nat.iter n enter_display a /\ flat E base b /\ wf_regs b /\
  (forall j k, 0 <= k < 30000 -> j = k + Z.of_nat n -> stack_word j b = stack_word k a) /\ reg 16 4 b = low 16 (reg 16 4 a - 2 * Z.of_nat n) /\ r_ss b = r_ss a.
Proof.
  induction n as [|n IH]; intros a F W Hn.
  - exists a. split; [reflexivity|]. split; [exact F|]. split; [exact W|]. split; [|split; [|reflexivity]].
    + intros j k _ ->. rewrite Z.add_0_r. reflexivity.
    + rewrite Z.mul_0_r, Z.sub_0_r. symmetry. apply Z.mod_small, sp_range.
  - destruct (IH a F W ltac:(lia)) as (b & Hb & Fb & Wb & K & P & S). destruct (display_facts b Fb Wb) as (c & Hc & Fc & Wc & K2 & P2 & S2).
    exists c. cbn [Nat.iter nat_rect]. change (nat_rect _ a (fun _ => enter_display) n) with (Nat.iter n enter_display a). rewrite <- Hb.
    split; [exact Hc|]. split; [exact Fc|]. split; [exact Wc|]. split; [|split; [|congruence]].
    + intros j k Hk ->. rewrite (K2 _ (k + Z.of_nat n)) by lia. apply K; lia.
    + rewrite P2, P. unfold low. rewrite Zminus_mod_idemp_l. f_equal. lia.
Qed.
Lemma low_updown l x : inrange 16 x -> low 16 (low 16 (low 16 (x - 2 * (l - 1)) - 2) + 2 * l) = x.
Proof.
  intros H. unfold low. rewrite Zminus_mod_idemp_l, Zplus_mod_idemp_l. replace (x - 2 * (l - 1) - 2 + 2 * l) with x by lia. apply Z.mod_small, H.
Qed.
Lemma enter_frame size level a : flat E base a -> wf_regs a -> 0 <= level < 32 ->
  r_ss (enter size level a) = r_ss a /\ reg 16 BP (enter size level a) = low 16 (reg 16 SP a - 2) /\
  mem 16 (enter size level a) (lin (r_ss a) (low 16 (reg 16 SP a - 2))) = reg 16 BP a.
Proof.
  intros F W Hl. assert (Hbp : inrange 16 (reg 16 5 a)) by (apply reg_range; [auto with width|lia]).
  destruct (PSmall7.push_facts E base _ _ F W Hbp) as (a1 & Ha1 & F1 & W1 & T1 & K1 & P1 & _ & S1).
  set (ft := low 16 (reg 16 4 a - 2)) in *. assert (Hft : inrange 16 ft) by (apply low_range; auto with width).
  unfold enter. cbv zeta. rewrite <- Ha1, P1.
  assert (X : exists b, b = (if level =? 0 then a1 else push16 ft (Nat.iter (Z.to_nat (level - 1)) enter_display a1)) /\ r_ss b = r_ss a /\ mem 16 b (lin (r_ss a) ft) = reg 16 5 a).
  { destruct (Z.eqb_spec level 0) as [->|H0].
    - exists a1. split; [reflexivity|]. split; [exact S1|]. rewrite <- T1. unfold stack_word. rewrite S1, P1. f_equal. f_equal. rewrite Z.mul_0_r, Z.add_0_r. symmetry. apply Z.mod_small, Hft.
    - destruct (display_iter (Z.to_nat (level - 1)) a1 F1 W1 ltac:(lia)) as (b & <- & Fb & Wb & Kb & Pb & Sb).
      destruct (PSmall7.push_facts E base ft b Fb Wb Hft) as (c & <- & Fc & Wc & _ & Kc & Pc & _ & Sc).
      exists c. split; [reflexivity|]. split; [congruence|]. rewrite <- T1, <- (Kb (0 + Z.of_nat (Z.to_nat (level - 1))) 0) by lia.
      rewrite <- (Kc (level) (0 + Z.of_nat (Z.to_nat (level - 1)))) by lia. unfold stack_word. rewrite Sc, Sb, S1. f_equal. f_equal.
      rewrite Pc, Pb, P1. rewrite Z2Nat.id by lia. symmetry. apply low_updown. exact Hft. }
  destruct X as (b & <- & Sb & Mb).
  assert (Hq : inrange 16 (low 16 (reg 16 4 (with_reg 16 5 ft b) - size))) by (apply low_range; auto with width).
  split; [|split].
  - rewrite !with_reg_setf by (auto with width; lia). exact Sb.
  - rewrite reg16_other by (auto; lia). apply reg_same; auto with width; lia.
  - rewrite !mem_wreg. exact Mb.
Qed.
End Frame.
