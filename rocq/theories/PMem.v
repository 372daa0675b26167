(** Memory, fetch and operand access under a flat map. *)
From Verif Require Import Base Cpu Alu Ops Machine Spec PBase.

(** ** [same] *)
Lemma same_refl a : same a a.
Proof. constructor; reflexivity. Qed.
Lemma same_sym a b : same a b -> same b a.
Proof. intros []; constructor; intros; symmetry; auto. Qed.
Lemma same_trans a b c : same a b -> same b c -> same a c.
Proof.
  intros [] []; constructor; intros; etransitivity; eauto.
Qed.

Ltac same_solve :=
  intros [];
  constructor; cbn; intros; congruence.
Lemma same_a_gprs v a b : same a b -> same (a_gprs v a) (a_gprs v b). Proof. same_solve. Qed.
Lemma same_a_ss v a b : same a b -> same (a_ss v a) (a_ss v b). Proof. same_solve. Qed.
Lemma same_a_ds v a b : same a b -> same (a_ds v a) (a_ds v b). Proof. same_solve. Qed.
Lemma same_a_es v a b : same a b -> same (a_es v a) (a_es v b). Proof. same_solve. Qed.
Lemma same_a_fs v a b : same a b -> same (a_fs v a) (a_fs v b). Proof. same_solve. Qed.
Lemma same_a_gs v a b : same a b -> same (a_gs v a) (a_gs v b). Proof. same_solve. Qed.
Lemma same_a_cs v a b : same a b -> same (a_cs v a) (a_cs v b). Proof. same_solve. Qed.
Lemma same_a_ip v a b : same a b -> same (a_ip v a) (a_ip v b). Proof. same_solve. Qed.
Lemma same_a_flags v a b : same a b -> same (a_flags v a) (a_flags v b). Proof. same_solve. Qed.
Lemma same_a_iolog v a b : same a b -> same (a_iolog v a) (a_iolog v b). Proof. same_solve. Qed.
Lemma same_a_hmem u v a b : (forall x, u x = v x) -> same a b -> same (a_hmem u a) (a_hmem v b).
Proof. intros H. same_solve. Qed.
#[export] Hint Resolve same_refl same_a_gprs same_a_ss same_a_ds same_a_es same_a_fs same_a_gs
  same_a_cs same_a_ip same_a_flags same_a_iolog : same.

Lemma same_byte a b x : same a b -> byte a x = byte b x.
Proof.
  intros H. unfold byte, host. rewrite (sm_mtab _ _ H). rewrite (sm_mem _ _ H). reflexivity.
Qed.
Lemma same_peek a b n x : same a b -> peek n a x = peek n b x.
Proof.
  intros H. revert x. induction n as [|n IH]; intros x; cbn [peek]; [reflexivity|].
  rewrite IH, (same_byte _ _ _ H). reflexivity.
Qed.
Lemma same_gpr a b n : same a b -> gpr n a = gpr n b.
Proof. intros H; unfold gpr; rewrite (sm_gprs _ _ H); reflexivity. Qed.
Lemma same_reg a b w n : same a b -> reg w n a = reg w n b.
Proof. intros H; unfold reg; rewrite !(same_gpr _ _ _ H); reflexivity. Qed.
Lemma same_with_reg a b w n v : same a b -> same (with_reg w n v a) (with_reg w n v b).
Proof.
  intros H; unfold with_reg, with_gpr. rewrite !(same_gpr _ _ _ H), (sm_gprs _ _ H).
  destruct (w =? 8); [destruct (n <? 4)|]; auto with same.
Qed.
Lemma same_with_byte a b x v : same a b -> same (with_byte x v a) (with_byte x v b).
Proof.
  intros H. unfold with_byte. apply same_a_hmem; [|exact H].
  intros y. unfold host. rewrite (sm_mtab _ _ H), (sm_mem _ _ H). reflexivity.
Qed.
Lemma same_poke a b n x v : same a b -> same (poke n x v a) (poke n x v b).
Proof.
  revert a b x v. induction n as [|n IH]; intros a b x v H; cbn [poke]; [exact H|].
  apply IH, same_with_byte, H.
Qed.
Lemma same_with_sreg a b n v : same a b -> same (with_sreg n v a) (with_sreg n v b).
Proof.
  intros H. unfold with_sreg.
  destruct n as [|[[[]|[]|]|[[]|[]|]|]|]; auto with same.
Qed.
Lemma same_sreg a b n : same a b -> sreg n a = sreg n b.
Proof.
  intros []. unfold sreg. destruct n as [|[[[]|[]|]|[[]|[]|]|]|]; assumption.
Qed.
Lemma same_wr_rm a b w r v : same a b -> same (wr_rm w r v a) (wr_rm w r v b).
Proof.
  intros H; destruct r; cbn [wr_rm]; [apply same_with_reg|apply same_poke]; exact H.
Qed.
#[export] Hint Resolve same_with_reg same_with_byte same_poke same_with_sreg same_wr_rm : same.

Lemma same_flat E base a b : same a b -> flat E base a -> flat E base b.
Proof.
  intros H []; constructor; auto; intros.
  - rewrite <- (sm_mtab _ _ H); auto.
  - rewrite <- (sm_mem _ _ H); auto.
Qed.
Lemma same_wf a b : same a b -> wf_regs a -> wf_regs b.
Proof.
  intros [] []; constructor; congruence.
Qed.
Lemma same_code a b bs : same a b -> code a bs -> code b bs.
Proof.
  intros H [H1 H2]. unfold code, pc in *.
  rewrite <- (sm_cs _ _ H), <- (sm_ip _ _ H). split; [exact H1|].
  intros i x Hx. rewrite <- (same_byte _ _ _ H). apply H2, Hx.
Qed.

(** ** Flat memory *)
Lemma flat_ext E base a b :
  mtab a = mtab b -> (forall x, hmem a x = hmem b x) -> flat E base a -> flat E base b.
Proof.
  intros H1 H2 []; constructor; auto; intros.
  - rewrite <- H1; auto.
  - rewrite <- H2; auto.
Qed.

Lemma host_flat E base a x : flat E base a -> 0 <= x < 1114112 -> host a x = base + x.
Proof.
  intros F Hx. unfold host. rewrite (fl_tab _ _ _ F) by lia. lia.
Qed.
Lemma byte_flat E base a x : flat E base a -> 0 <= x < 1114112 ->
  hmem a (base + x) = Some (byte a x).
Proof.
  intros F Hx. unfold byte. rewrite (host_flat _ _ _ _ F Hx).
  destruct (fl_mem _ _ _ F x Hx) as (b & -> & _). reflexivity.
Qed.
Lemma byte_range E base a x : flat E base a -> 0 <= x < 1114112 -> 0 <= byte a x < 256.
Proof.
  intros F Hx. pose proof (byte_flat _ _ _ _ F Hx) as H.
  destruct (fl_mem _ _ _ F x Hx) as (b & Hb & R). congruence.
Qed.

Lemma load_bytes_flat E base a n x : flat E base a -> 0 <= x -> x + Z.of_nat n <= 1114112 ->
  load_bytes n (hmem a) (base + x) = Some (peek n a x).
Proof.
  intros F. revert x. induction n as [|n IH]; intros x H0 H1; cbn [load_bytes peek]; [reflexivity|].
  rewrite (byte_flat _ _ _ _ F) by lia.
  replace (base + x + 1) with (base + (x + 1)) by lia. rewrite IH by lia. reflexivity.
Qed.
Lemma valid_bytes_flat E base a n x : flat E base a -> 0 <= x -> x + Z.of_nat n <= 1114112 ->
  valid_bytes n (hmem a) (base + x) = true.
Proof.
  intros F. revert x. induction n as [|n IH]; intros x H0 H1; cbn [valid_bytes]; [reflexivity|].
  rewrite (byte_flat _ _ _ _ F) by lia.
  replace (base + x + 1) with (base + (x + 1)) by lia. rewrite IH by lia. reflexivity.
Qed.
Lemma peek_range E base a n x : flat E base a -> 0 <= x -> x + Z.of_nat n <= 1114112 ->
  0 <= peek n a x < 2 ^ (8 * Z.of_nat n).
Proof.
  intros F. revert x. induction n as [|n IH]; intros x H0 H1; cbn [peek]; [cbn; lia|].
  pose proof (byte_range _ _ _ x F ltac:(lia)). specialize (IH (x + 1) ltac:(lia) ltac:(lia)).
  replace (8 * Z.of_nat (S n)) with (8 + 8 * Z.of_nat n) by lia.
  rewrite Z.pow_add_r by lia. lia.
Qed.

Lemma mem8 a x : mem 8 a x = byte a x.
Proof.
  unfold mem. change (Z.to_nat (8 / 8)) with 1%nat. cbn [peek]. lia.
Qed.
Lemma mem16 a x : mem 16 a x = byte a x + 256 * byte a (x + 1).
Proof.
  unfold mem. change (Z.to_nat (16 / 8)) with 2%nat. cbn [peek]. lia.
Qed.
Lemma mem32 a x : mem 32 a x =
  byte a x + 256 * byte a (x + 1) + 65536 * byte a (x + 2) + 16777216 * byte a (x + 3).
Proof.
  unfold mem. change (Z.to_nat (32 / 8)) with 4%nat. cbn [peek].
  replace (x + 1 + 1) with (x + 2) by lia. replace (x + 2 + 1) with (x + 3) by lia. lia.
Qed.
Lemma nbytes_w w : width w -> Z.of_nat (nbytes w) = w / 8.
Proof. intros [-> | [-> | ->]]; reflexivity. Qed.
Lemma width_div w : width w -> 1 <= w / 8 <= 4 /\ 8 * (w / 8) = w.
Proof. intros [-> | [-> | ->]]; cbn; lia. Qed.
Lemma mem_range E base a w x : flat E base a -> width w -> 0 <= x -> x + w / 8 <= 1114112 ->
  inrange w (mem w a x).
Proof.
  intros F Hw H0 H1. unfold inrange, mem.
  pose proof (nbytes_w w Hw) as Hn. unfold nbytes in Hn.
  pose proof (peek_range _ _ _ (Z.to_nat (w / 8)) x F H0 ltac:(lia)) as H.
  rewrite Hn in H. pose proof (width_div w Hw) as [_ He]. rewrite He in H. exact H.
Qed.

(** Model-level memory write and its effect. *)
Definition smem (base w x v : Z) (a : arch) : arch :=
  a_hmem (store_bytes (nbytes w) (base + x) v (hmem a)) a.

Lemma poke_fields n x v a :
  gprs (poke n x v a) = gprs a /\ r_ss (poke n x v a) = r_ss a /\ r_ds (poke n x v a) = r_ds a /\
  r_es (poke n x v a) = r_es a /\ r_fs (poke n x v a) = r_fs a /\ r_gs (poke n x v a) = r_gs a /\
  r_cs (poke n x v a) = r_cs a /\ r_ip (poke n x v a) = r_ip a /\
  r_flags (poke n x v a) = r_flags a /\ cpu (poke n x v a) = cpu a /\
  mtab (poke n x v a) = mtab a /\ hle (poke n x v a) = hle a /\ iolog (poke n x v a) = iolog a.
Proof.
  revert x v a. induction n as [|n IH]; intros x v a; cbn [poke]; [repeat split|].
  specialize (IH (x + 1) (v / 256) (with_byte x (v mod 256) a)). cbn in IH. exact IH.
Qed.

Lemma poke_hmem base n x v a : (forall b, 0 <= b < 272 -> mtab a b = base + 4096 * b) ->
  0 <= x -> x + Z.of_nat n <= 1114112 ->
  forall y, hmem (poke n x v a) y = store_bytes n (base + x) v (hmem a) y.
Proof.
  revert x v a. induction n as [|n IH]; intros x v a Ht H0 H1 y; cbn [poke].
  - unfold store_bytes. replace ((base + x <=? y) && (y <? base + x + Z.of_nat 0)) with false by lia.
    reflexivity.
  - rewrite IH by (auto; lia). unfold store_bytes, with_byte. cbn [hmem a_hmem].
    unfold host. rewrite Ht by lia.
    replace (base + 4096 * (x / 4096) + x mod 4096) with (base + x) by lia.
    destruct (Z.eqb_spec y (base + x)) as [->|Hne].
    + replace ((base + (x + 1) <=? base + x) && _) with false by lia.
      replace ((base + x <=? base + x) && (base + x <? base + x + Z.of_nat (S n))) with true by lia.
      replace (base + x - (base + x)) with 0 by lia. cbn [Z.mul]. rewrite Z.pow_0_r, Z.div_1_r.
      reflexivity.
    + destruct (Z.leb_spec (base + (x + 1)) y) as [Hle|Hlt]; cbn [andb].
      * replace (base + x <=? y) with true by lia. cbn [andb].
        replace (y <? base + (x + 1) + Z.of_nat n) with (y <? base + x + Z.of_nat (S n)) by lia.
        destruct (Z.ltb_spec y (base + x + Z.of_nat (S n))); [|reflexivity].
        f_equal. f_equal. change 256 with (2 ^ 8) at 1.
        rewrite Z.div_div by (apply pow2_pos || (apply Z.pow_nonzero; lia); lia).
        rewrite <- Z.pow_add_r by lia. f_equal. f_equal. lia.
      * replace (base + x <=? y) with false by lia. reflexivity.
Qed.

Lemma smem_same E base w x v a : flat E base a -> width w ->
  0 <= x -> x + w / 8 <= 1114112 -> same (smem base w x v a) (with_mem w x v a).
Proof.
  intros F Hw H0 H1. unfold smem, with_mem. change (Z.to_nat (w / 8)) with (nbytes w).
  pose proof (nbytes_w w Hw) as Hn.
  pose proof (poke_fields (nbytes w) x v a) as Hf.
  decompose [and] Hf. constructor; cbn; intros; try (symmetry; assumption).
  symmetry. apply poke_hmem; [apply F|lia|lia].
Qed.

Lemma smem_flat E base w x v a : flat E base a -> flat E base (smem base w x v a).
Proof.
  intros F. destruct F as [F1 F2 F3 F4]. constructor; auto. cbn. intros y Hy.
  unfold store_bytes.
  destruct ((base + x <=? base + y) && (base + y <? base + x + Z.of_nat (nbytes w))).
  - eexists; split; [reflexivity|]. apply Z.mod_pos_bound; lia.
  - apply F4; lia.
Qed.

(** ** Instruction bytes from offset [o] past CS:IP *)
Definition code_from (a : arch) (o : Z) (bs : list Z) : Prop :=
  0 <= o /\ r_ip a + o + blen bs <= 65536 /\
  forall i b, nth_error bs i = Some b -> byte a (pc a + o + Z.of_nat i) = b.

Lemma code_from_0 a bs : code a bs -> code_from a 0 bs.
Proof.
  intros [H1 H2]. split; [lia|]. split; [lia|]. intros i b H.
  rewrite Z.add_0_r. apply H2, H.
Qed.
Lemma blen_cons b t : blen (b :: t) = 1 + blen t.
Proof. unfold blen. cbn [length]. lia. Qed.
Lemma blen_nonneg t : 0 <= blen t.
Proof. unfold blen. lia. Qed.
Lemma blen_app s t : blen (s ++ t) = blen s + blen t.
Proof. unfold blen. rewrite app_length. lia. Qed.

Lemma code_from_app a o s t : code_from a o (s ++ t) -> code_from a (o + blen s) t.
Proof.
  intros (H0 & H1 & H2). rewrite blen_app in H1. pose proof (blen_nonneg s).
  split; [lia|]. split; [lia|]. intros i b Hi.
  specialize (H2 (length s + i)%nat b).
  rewrite nth_error_app2 in H2 by lia.
  replace (length s + i - length s)%nat with i in H2 by lia.
  rewrite <- (H2 Hi). unfold blen. f_equal. lia.
Qed.
Lemma code_from_cons a o b t : code_from a o (b :: t) ->
  byte a (pc a + o) = b /\ code_from a (o + 1) t.
Proof.
  intros H. split.
  - destruct H as (_ & _ & H). specialize (H 0%nat b eq_refl). rewrite Z.add_0_r in H. exact H.
  - exact (code_from_app a o [b] t H).
Qed.

Lemma lin_bound seg ofs : inrange 16 seg -> inrange 16 ofs -> 0 <= lin seg ofs <= 1114095.
Proof. unfold inrange, lin; lia. Qed.

Section WithEnv.
Context (E : env) (base : Z).

Lemma getptr_flat a d g n l seg ofs : flat E base a ->
  0 <= seg -> 0 <= ofs -> lin seg ofs < 1114112 ->
  getptr E seg ofs (mkSt a d g n l) = Ok (base + lin seg ofs) (mkSt a d g n l).
Proof.
  intros F Hs Ho Hl. unfold getptr, lin in *. cbn [ar].
  replace (wrap 32 (seg * 16 + ofs)) with (16 * seg + ofs)
    by (unfold wrap; rewrite Z.mod_small; lia).
  replace ((16 * seg + ofs) / 4096 <? 272) with true by lia.
  rewrite (fl_tab _ _ _ F) by lia.
  match goal with |- (if ?c then _ else _) = _ => replace c with false end.
  - f_equal. lia.
  - destruct (null_check E) eqn:En; cbn [andb]; [|reflexivity].
    pose proof (fl_base _ _ _ F). pose proof (fl_null _ _ _ F En) as Hz.
    destruct (Z.eqb_spec (base + 4096 * ((16 * seg + ofs) / 4096)) 0) as [He|He];
      [|rewrite andb_false_r; reflexivity].
    assert (base = 0) by lia. rewrite Hz by assumption.
    replace ((16 * seg + ofs) / 4096 =? 0) with true by lia. reflexivity.
Qed.

Lemma hload_flat a d g n l w x : flat E base a -> width w -> 0 <= x -> x + w / 8 <= 1114112 ->
  hload w (base + x) (mkSt a d g n l) = Ok (mem w a x) (mkSt a d g n l).
Proof.
  intros F Hw H0 H1. unfold hload. cbn [ar].
  rewrite (load_bytes_flat E) by (auto; rewrite nbytes_w by auto; lia). reflexivity.
Qed.
Lemma hstore_flat a d g n l w x v : flat E base a -> width w -> 0 <= x -> x + w / 8 <= 1114112 ->
  hstore w (base + x) v (mkSt a d g n l) = Ok tt (mkSt (smem base w x v a) d g n l).
Proof.
  intros F Hw H0 H1. unfold hstore. cbn [ar].
  rewrite (valid_bytes_flat E) by (auto; rewrite nbytes_w by auto; lia). reflexivity.
Qed.

Lemma rd_flat a d g n l w seg ofs : flat E base a -> width w -> inrange 16 seg ->
  rd E w seg ofs (mkSt a d g n l) = Ok (mem w a (lin seg (wrap 16 ofs))) (mkSt a d g n l).
Proof.
  intros F Hw Hs. unfold rd.
  pose proof (wrap_range 16 ofs ltac:(lia)) as Ho.
  pose proof (lin_bound seg (wrap 16 ofs) Hs Ho) as Hl.
  pose proof (width_div w Hw).
  erewrite bind_ok.
  2:{ apply getptr_flat; auto; unfold inrange in *; lia. }
  apply hload_flat; auto; lia.
Qed.
Lemma wr_flat a d g n l w seg ofs v : flat E base a -> width w -> inrange 16 seg ->
  wr E w seg ofs v (mkSt a d g n l) =
  Ok tt (mkSt (smem base w (lin seg (wrap 16 ofs)) v a) d g n l).
Proof.
  intros F Hw Hs. unfold wr.
  pose proof (wrap_range 16 ofs ltac:(lia)) as Ho.
  pose proof (lin_bound seg (wrap 16 ofs) Hs Ho) as Hl.
  pose proof (width_div w Hw).
  erewrite bind_ok.
  2:{ apply getptr_flat; auto; unfold inrange in *; lia. }
  apply hstore_flat; auto; lia.
Qed.

Lemma fetch_flat a d g n l w : flat E base a -> wf_regs a -> width w ->
  0 <= d_ipoff d -> r_ip a + d_ipoff d < 65536 ->
  fetch E w (mkSt a d g n l) =
  Ok (mem w a (pc a + d_ipoff d)) (mkSt a (dd_ipoff (d_ipoff d + w / 8) d) g n l).
Proof.
  intros F W Hw H0 H1. unfold fetch, getA, getD, gets, bind. cbn [ar dc].
  rewrite rd_flat by (auto; apply W).
  cbn. unfold ret, lin, pc. do 2 f_equal.
  rewrite wrap_small; [unfold lin; lia|]. destruct (wf_ip _ W). unfold inrange. lia.
Qed.

Lemma fetch8_code a d g n l b t : flat E base a -> wf_regs a -> code_from a (d_ipoff d) (b :: t) ->
  fetch8 E (mkSt a d g n l) = Ok b (mkSt a (dd_ipoff (d_ipoff d + 1) d) g n l).
Proof.
  intros F W C. destruct (code_from_cons _ _ _ _ C) as [Hb _].
  destruct C as (H0 & H1 & _). rewrite blen_cons in H1. pose proof (blen_nonneg t).
  unfold fetch8. rewrite fetch_flat by (auto; unfold width; lia).
  change (8 / 8) with 1. rewrite mem8, Hb. reflexivity.
Qed.
Lemma fetch16_code a d g n l b0 b1 t : flat E base a -> wf_regs a ->
  code_from a (d_ipoff d) (b0 :: b1 :: t) ->
  fetch E 16 (mkSt a d g n l) = Ok (b0 + 256 * b1) (mkSt a (dd_ipoff (d_ipoff d + 2) d) g n l).
Proof.
  intros F W C. destruct (code_from_cons _ _ _ _ C) as [Hb0 C1].
  destruct (code_from_cons _ _ _ _ C1) as [Hb1 _].
  destruct C as (H0 & H1 & _). rewrite !blen_cons in H1. pose proof (blen_nonneg t).
  rewrite fetch_flat by (auto; unfold width; lia).
  change (16 / 8) with 2. rewrite mem16, Hb0.
  replace (pc a + d_ipoff d + 1) with (pc a + (d_ipoff d + 1)) by lia. rewrite Hb1. reflexivity.
Qed.
Lemma fetch32_code a d g n l b0 b1 b2 b3 t : flat E base a -> wf_regs a ->
  code_from a (d_ipoff d) (b0 :: b1 :: b2 :: b3 :: t) ->
  fetch E 32 (mkSt a d g n l) =
  Ok (b0 + 256 * b1 + 65536 * b2 + 16777216 * b3)
     (mkSt a (dd_ipoff (d_ipoff d + 4) d) g n l).
Proof.
  intros F W C. destruct (code_from_cons _ _ _ _ C) as [Hb0 C1].
  destruct (code_from_cons _ _ _ _ C1) as [Hb1 C2].
  destruct (code_from_cons _ _ _ _ C2) as [Hb2 C3].
  destruct (code_from_cons _ _ _ _ C3) as [Hb3 _].
  destruct C as (H0 & H1 & _). rewrite !blen_cons in H1. pose proof (blen_nonneg t).
  rewrite fetch_flat by (auto; unfold width; lia).
  change (32 / 8) with 4. rewrite mem32, Hb0.
  replace (pc a + d_ipoff d + 1) with (pc a + (d_ipoff d + 1)) by lia. rewrite Hb1.
  replace (pc a + d_ipoff d + 2) with (pc a + (d_ipoff d + 1 + 1)) by lia. rewrite Hb2.
  replace (pc a + d_ipoff d + 3) with (pc a + (d_ipoff d + 1 + 1 + 1)) by lia. rewrite Hb3.
  reflexivity.
Qed.

Lemma code_byte_range a o b t : flat E base a -> wf_regs a -> code_from a o (b :: t) -> 0 <= b < 256.
Proof.
  intros F W C. destruct (code_from_cons _ _ _ _ C) as [<- _].
  destruct C as (H0 & H1 & _). rewrite blen_cons in H1. pose proof (blen_nonneg t).
  destruct W as [_ _ _ _ _ _ [? ?] [? ?] _].
  apply (byte_range E base a _ F). unfold pc, lin. lia.
Qed.

(** ** Operands *)
(** The host pointer of a specification operand. *)
Definition ptr_of (w : Z) (r : rm) : ptr :=
  match r with
  | RReg n => if w =? 8 then regB n else regW n
  | RMem sg o => PMem (base + lin sg o)
  end.
Definition rm_ok (r : rm) : Prop :=
  match r with RReg n => 0 <= n < 8 | RMem sg o => inrange 16 sg /\ inrange 16 o end.
Definition wr_m (w : Z) (r : rm) (v : Z) (a : arch) : arch :=
  match r with
  | RReg n => a_gprs (setf (rpos w n) w v (gprs a)) a
  | RMem sg o => smem base w (lin sg o) v a
  end.

Lemma ptr_reg w n : width w -> ptr_of w (RReg n) = PGpr (rpos w n).
Proof.
  intros [-> | [-> | ->]]; cbn; unfold regB, regW, rpos; cbn; try reflexivity.
  replace (4 <=? n) with (negb (n <? 4)) by lia. destruct (n <? 4); reflexivity.
Qed.
Lemma rpos_bound w n : width w -> 0 <= n < 8 -> 0 <= rpos w n /\ rpos w n + w <= 256.
Proof.
  intros [-> | [-> | ->]]; unfold rpos; cbn [Z.eqb Pos.eqb]; [destruct (n <? 4) eqn:?|..]; lia.
Qed.

Lemma load_rm a d g n l w r : flat E base a -> width w -> rm_ok r ->
  load w (ptr_of w r) (mkSt a d g n l) = Ok (rd_rm w r a) (mkSt a d g n l).
Proof.
  intros F Hw Hr. destruct r as [m|sg o].
  - rewrite ptr_reg by auto. cbn. unfold get_gpr, getA, gets. cbn.
    rewrite reg_getf by auto. reflexivity.
  - destruct Hr as [Hs Ho]. cbn. pose proof (lin_bound sg o Hs Ho). pose proof (width_div w Hw).
    apply hload_flat; auto; lia.
Qed.
Lemma store_rm a d g n l w r v : flat E base a -> width w -> rm_ok r ->
  store w (ptr_of w r) v (mkSt a d g n l) = Ok tt (mkSt (wr_m w r v a) d g n l).
Proof.
  intros F Hw Hr. destruct r as [m|sg o].
  - rewrite ptr_reg by auto. reflexivity.
  - destruct Hr as [Hs Ho]. cbn. pose proof (lin_bound sg o Hs Ho). pose proof (width_div w Hw).
    apply hstore_flat; auto; lia.
Qed.
Lemma wr_m_same a w r v : flat E base a -> width w -> rm_ok r -> inrange w v ->
  same (wr_m w r v a) (wr_rm w r v a).
Proof.
  intros F Hw Hr Hv. destruct r as [m|sg o]; cbn.
  - rewrite with_reg_setf by auto. apply same_refl.
  - destruct Hr as [Hs Ho]. pose proof (lin_bound sg o Hs Ho). pose proof (width_div w Hw).
    apply smem_same with (E := E); auto; lia.
Qed.
Lemma rd_rm_range a w r : flat E base a -> width w -> rm_ok r -> inrange w (rd_rm w r a).
Proof.
  intros F Hw Hr. destruct r as [m|sg o]; cbn.
  - rewrite reg_getf by auto. apply getf_range. destruct Hw as [-> | [-> | ->]]; lia.
  - destruct Hr as [Hs Ho]. pose proof (lin_bound sg o Hs Ho). pose proof (width_div w Hw).
    eapply mem_range; eauto; lia.
Qed.
Lemma wr_m_flat a w r v : flat E base a -> flat E base (wr_m w r v a).
Proof.
  intros F. destruct r; cbn.
  - eapply flat_ext; [| |exact F]; reflexivity.
  - apply smem_flat, F.
Qed.
Lemma wr_m_flags a w r v f : wr_m w r v (a_flags f a) = a_flags f (wr_m w r v a).
Proof. destruct r; reflexivity. Qed.
Lemma wr_m_fields a w r v :
  r_ip (wr_m w r v a) = r_ip a /\ r_cs (wr_m w r v a) = r_cs a /\ r_flags (wr_m w r v a) = r_flags a.
Proof. destruct r; repeat split. Qed.
Lemma wr_m_wf a w r v : width w -> rm_ok r -> wf_regs a -> wf_regs (wr_m w r v a).
Proof.
  intros Hw Hr W. destruct r as [m|sg o]; [|destruct W; constructor; assumption].
  destruct W; constructor; try assumption. cbn [gprs a_gprs wr_m].
  pose proof (rpos_bound w m Hw Hr). apply setf_range; auto; try lia.
  destruct Hw as [-> | [-> | ->]]; lia.
Qed.

End WithEnv.
