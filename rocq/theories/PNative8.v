(** Proofs: the DOS EXE loader and the change report. *)
From Verif Require Import Base Spec Cpu Machine Native Native2 SpecNative SpecNative2 PBase PNative4.

(** ** Relocation *)
Lemma fword_hdr f i : fword f i = hdr f i. Proof. reflexivity. Qed.
Lemma hdr_range f i : bytes f -> 0 <= hdr f i < 65536.
Proof. intros H. unfold hdr. pose proof (H i). pose proof (H (i + 1)). lia. Qed.
Lemma reloc_byte d x k : bytes d -> put16 x (wrap 16 (fword d x + DEST_SEG)) d k = (d k + (if x + 1 =? k then 1 else 0)) mod 256.
Proof.
  intros H. unfold put16, fword, wrap, DEST_SEG. change (2 ^ 16) with 65536. pose proof (H x). pose proof (H (x + 1)). pose proof (H k).
  destruct (Z.eqb_spec k x) as [->|].
  - replace (x + 1 =? x) with false by lia. lia.
  - destruct (Z.eqb_spec k (x + 1)) as [->|].
    + rewrite Z.eqb_refl. lia.
    + replace (x + 1 =? k) with false by lia. lia.
Qed.
Lemma put16_bytes d x v : bytes d -> bytes (put16 x v d).
Proof. intros H k. unfold put16. destruct (_ =? _); [lia|]. destruct (_ =? _); [lia|]. apply H. Qed.
Lemma count_shift n P : count (S n) P = (if P 0 then 1 else 0) + count n (fun k => P (k + 1)).
Proof.
  induction n as [|n IH]; [cbn [count]; change (Z.of_nat 0) with 0; destruct (P 0); reflexivity|].
  change (count (S (S n)) P) with (count (S n) P + (if P (Z.of_nat (S n)) then 1 else 0)). rewrite IH. cbn [count].
  replace (Z.of_nat n + 1) with (Z.of_nat (S n)) by lia. symmetry. apply Z.add_assoc.
Qed.
Lemma count_nonneg n P : 0 <= count n P.
Proof. induction n; cbn [count]; [lia|]. destruct (P _); lia. Qed.
Lemma relocs_ok n : forall at_ len f size d, bytes d -> at_ + 4 * Z.of_nat n <= len ->
  (forall k, 0 <= k < Z.of_nat n -> 16 * hdr f (at_ + 4 * k + 2) + hdr f (at_ + 4 * k) + 2 <= size) ->
  exists d', relocs n at_ len f size d = ROk d' /\ bytes d' /\
    forall k, d' k = (d k + count n (fun j => 16 * hdr f (at_ + 4 * j + 2) + hdr f (at_ + 4 * j) + 1 =? k)) mod 256.
Proof.
  induction n as [|n IH]; intros at_ len f size d Hd Hl Hr.
  - exists d. split; [reflexivity|]. split; [exact Hd|]. intros k. cbn [count]. pose proof (Hd k). lia.
  - cbn [relocs]. replace (len <? at_ + 4) with false by lia. pose proof (Hr 0 ltac:(lia)) as H0. replace (at_ + 4 * 0) with at_ in H0 by lia.
    cbv zeta. rewrite !(fword_hdr f (at_ + 2)), !(fword_hdr f at_). replace (hdr f (at_ + 2) * 16) with (16 * hdr f (at_ + 2)) by lia. replace (size <? 16 * hdr f (at_ + 2) + hdr f at_ + 2) with false by lia.
    set (x := 16 * hdr f (at_ + 2) + hdr f at_) in *.
    destruct (IH (at_ + 4) len f size (put16 x (wrap 16 (fword d x + DEST_SEG)) d)) as (d' & E & B & K).
    + apply put16_bytes, Hd.
    + lia.
    + intros k Hk. specialize (Hr (k + 1) ltac:(lia)). replace (at_ + 4 + 4 * k) with (at_ + 4 * (k + 1)) by lia. exact Hr.
    + exists d'. split; [exact E|]. split; [exact B|]. intros k. rewrite K, reloc_byte by exact Hd. rewrite count_shift.
      replace (at_ + 4 * 0) with at_ by lia. fold x.
      replace (count n (fun j => 16 * hdr f (at_ + 4 + 4 * j + 2) + hdr f (at_ + 4 + 4 * j) + 1 =? k)) with (count n (fun j => 16 * hdr f (at_ + 4 * (j + 1) + 2) + hdr f (at_ + 4 * (j + 1)) + 1 =? k)).
      2:{ clear. induction n; [reflexivity|]. cbn [count]. rewrite IHn. replace (at_ + 4 * (Z.of_nat n + 1)) with (at_ + 4 + 4 * Z.of_nat n) by lia. reflexivity. }
      set (c := count _ _). cbn beta. rewrite Z.add_mod_idemp_l by lia. f_equal. replace (16 * hdr f (at_ + 2) + hdr f at_) with x by reflexivity. lia.
Qed.
Lemma relocs_ub n : forall at_ len f size d, at_ + 4 * Z.of_nat n <= len ->
  (exists k, 0 <= k < Z.of_nat n /\ size < 16 * hdr f (at_ + 4 * k + 2) + hdr f (at_ + 4 * k) + 2) -> relocs n at_ len f size d = RUB.
Proof.
  induction n as [|n IH]; intros at_ len f size d Hl (k & Hk & Hs); [lia|].
  cbn [relocs]. replace (len <? at_ + 4) with false by lia. cbv zeta. rewrite !(fword_hdr f (at_ + 2)), !(fword_hdr f at_). destruct (Z.ltb_spec size (hdr f (at_ + 2) * 16 + hdr f at_ + 2)) as [|Hge]; [reflexivity|].
  apply IH; [lia|]. exists (k - 1). assert (k <> 0) by (intros ->; replace (at_ + 4 * 0) with at_ in Hs by lia; lia).
  split; [lia|]. replace (at_ + 4 + 4 * (k - 1)) with (at_ + 4 * k) by lia. exact Hs.
Qed.
(** ** Copying *)
Lemma copy_ok size d : forall n i m, 0 <= i -> i * 4096 <= size + 4095 -> Z.of_nat n = (size + 4095) / 4096 - i -> i + Z.of_nat n <= 271 ->
  exists m', copy_blocks n i size d m = Some m' /\ forall y, m' y = if ((1 + i) * 4096 <=? y) && (y <? 4096 + size) then d (y - 4096) else m y.
Proof.
  induction n as [|n IH]; intros i m Hi Hs Hn H2.
  - exists m. split; [reflexivity|]. intros y. replace (((1 + i) * 4096 <=? y) && (y <? 4096 + size)) with false by lia. reflexivity.
  - cbn [copy_blocks]. replace (272 <=? 1 + i) with false by lia. cbv zeta.
    destruct (IH (i + 1) (fun y => if ((1 + i) * 4096 <=? y) && (y <? (1 + i) * 4096 + Z.min 4096 (size - i * 4096)) then d (i * 4096 + (y - (1 + i) * 4096)) else m y)) as (m' & E & K); try lia.
    exists m'. split; [exact E|]. intros y. rewrite K.
    destruct (Z.leb_spec ((1 + (i + 1)) * 4096) y), (Z.leb_spec ((1 + i) * 4096) y), (Z.ltb_spec y (4096 + size)), (Z.ltb_spec y ((1 + i) * 4096 + Z.min 4096 (size - i * 4096))); cbn [andb]; try lia; try reflexivity; f_equal; lia.
Qed.
Lemma copy_ub size d : forall n i m, 0 <= i <= 271 -> 271 < i + Z.of_nat n -> copy_blocks n i size d m = None.
Proof.
  induction n as [|n IH]; intros i m Hi H; [lia|]. cbn [copy_blocks]. destruct (Z.leb_spec 272 (1 + i)); [reflexivity|]. apply IH; lia.
Qed.
(** ** The loader *)
Lemma exe_size_eq f : bytes f -> exe_last f <= 512 -> fword f 4 * 512 - Z.rem (512 - fword f 2) 512 - fword f 8 * 16 = exe_size f.
Proof.
  intros B H. unfold exe_size, exe_start, exe_head, exe_pages, exe_last in *. change fword with hdr. pose proof (hdr_range f 2 B).
  rewrite Z.rem_mod_nonneg by lia. destruct (Z.eqb_spec (hdr f 2) 0) as [E|]; [rewrite E; change ((512 - 0) mod 512) with 0; lia|].
  rewrite Z.mod_small by lia. lia.
Qed.
Lemma load_head len f m : exe_ok len f -> load_exe (Some (len, f)) m =
  match relocs (Z.to_nat (exe_nrel f)) (exe_rel f) len f (exe_size f) (fun k => f (exe_start f + k)) with
  | RFail => EFail | RUB => EUB
  | ROk d => match copy_blocks (Z.to_nat ((exe_size f + 4095) / 4096)) 0 (exe_size f) d m with
             | None => EUB
             | Some m' => ELoad (wrap 16 (0x100 + exe_cs f)) (exe_ip f) (wrap 16 (0x100 + exe_ss f)) (exe_sp f) m' end
  end.
Proof.
  intros [B H1 [S1 S2] Hl Hs Hb Ht Hr]. unfold load_exe. replace (len <? 28) with false by lia. replace (fword f 0 =? 23117) with true by (unfold fword; replace (0 + 1) with 1 by lia; lia). cbn [negb].
  cbv zeta. rewrite exe_size_eq by assumption. replace (exe_size f <? 0) with false by lia. replace (fword f 8 * 16) with (exe_start f) by (unfold exe_start, exe_head; change fword with hdr; lia).
  replace (len <? exe_start f + exe_size f) with false by lia. reflexivity.
Qed.
Theorem exe_load len f m : exe_ok len f -> exe_size f <= 0x10F000 ->
  exists m', load_exe (Some (len, f)) m = ELoad ((0x100 + exe_cs f) mod 65536) (exe_ip f) ((0x100 + exe_ss f) mod 65536) (exe_sp f) m' /\
    (forall k, 0 <= k < exe_size f -> m' (0x1000 + k) = exe_byte f k) /\ (forall y, ~ 0x1000 <= y < 0x1000 + exe_size f -> m' y = m y).
Proof.
  intros Hok Hsz. rewrite load_head by exact Hok. destruct Hok as [B H1 _ Hl Hs Hb Ht Hr].
  pose proof (hdr_range f 6 B). fold (exe_nrel f) in H.
  destruct (relocs_ok (Z.to_nat (exe_nrel f)) (exe_rel f) len f (exe_size f) (fun k => f (exe_start f + k))) as (d & E & Bd & K).
  { intros i. apply B. } { lia. } { intros k Hk. apply Hr. lia. }
  rewrite E. destruct (copy_ok (exe_size f) d (Z.to_nat ((exe_size f + 4095) / 4096)) 0 m) as (m' & Em & Km); try lia.
  rewrite Em. exists m'. split; [reflexivity|]. split.
  - intros k Hk. rewrite Km. replace (((1 + 0) * 4096 <=? 4096 + k) && (4096 + k <? 4096 + exe_size f)) with true by lia.
    replace (4096 + k - 4096) with k by lia. rewrite K. reflexivity.
  - intros y Hy. rewrite Km. replace (((1 + 0) * 4096 <=? y) && (y <? 4096 + exe_size f)) with false by lia. reflexivity.
Qed.
Lemma count_zero n P : (forall j, 0 <= j < Z.of_nat n -> P j = false) -> count n P = 0.
Proof. induction n as [|n IH]; intros H; [reflexivity|]. cbn [count]. rewrite IH by (intros; apply H; lia). rewrite H by lia. reflexivity. Qed.
Lemma count_one n P k : 0 <= k < Z.of_nat n -> P k = true -> (forall j, 0 <= j < Z.of_nat n -> j <> k -> P j = false) -> count n P = 1.
Proof.
  induction n as [|n IH]; intros Hk Pk H; [lia|]. cbn [count]. destruct (Z.eq_dec k (Z.of_nat n)) as [->|N].
  - rewrite count_zero by (intros; apply H; lia). rewrite Pk. lia.
  - rewrite IH by (try lia; auto; intros; apply H; lia). rewrite H by lia. lia.
Qed.
(** Bytes no relocation touches, and relocated words. *)
Lemma exe_plain f k : bytes f -> (forall j, 0 <= j < exe_nrel f -> exe_reloc f j <> k /\ exe_reloc f j + 1 <> k) -> exe_byte f k = f (exe_start f + k).
Proof.
  intros B H. unfold exe_byte. rewrite count_zero by (intros j Hj; destruct (H j ltac:(lia)); lia). pose proof (B (exe_start f + k)). lia.
Qed.
Lemma exe_word f k : bytes f -> 0 <= k < exe_nrel f -> (forall j, 0 <= j < exe_nrel f -> j <> k -> exe_reloc f j + 2 <= exe_reloc f k \/ exe_reloc f k + 2 <= exe_reloc f j) ->
  exe_byte f (exe_reloc f k) + 256 * exe_byte f (exe_reloc f k + 1) = (hdr f (exe_start f + exe_reloc f k) + 0x100) mod 65536.
Proof.
  intros B Hk H. unfold exe_byte. rewrite count_zero.
  - rewrite (count_one _ _ k) by (try lia; intros j Hj Hn; specialize (H j ltac:(lia) Hn); lia).
    unfold hdr. rewrite !Z.add_assoc. pose proof (B (exe_start f + exe_reloc f k)). pose proof (B (exe_start f + exe_reloc f k + 1)). lia.
  - intros j Hj. destruct (Z.eq_dec j k) as [->|N]; [lia|]. specialize (H j ltac:(lia) N). lia.
Qed.
Theorem exe_reloc_ub len f m : bytes f -> 28 <= len -> f 0 = 0x4D -> f 1 = 0x5A -> exe_last f <= 512 -> 0 <= exe_size f -> exe_start f + exe_size f <= len ->
  exe_rel f + 4 * exe_nrel f <= len -> (exists k, 0 <= k < exe_nrel f /\ exe_size f < exe_reloc f k + 2) -> load_exe (Some (len, f)) m = EUB.
Proof.
  intros B H1 S1 S2 Hl Hs Hb Ht (k & Hk & Hr). unfold load_exe. replace (len <? 28) with false by lia. replace (fword f 0 =? 23117) with true by (unfold fword; replace (0 + 1) with 1 by lia; lia). cbn [negb].
  cbv zeta. rewrite exe_size_eq by assumption. replace (exe_size f <? 0) with false by lia. replace (fword f 8 * 16) with (exe_start f) by (unfold exe_start, exe_head; change fword with hdr; lia).
  replace (len <? exe_start f + exe_size f) with false by lia. change fword with hdr. fold (exe_nrel f) (exe_rel f). rewrite relocs_ub; [reflexivity|lia|]. exists k. split; [lia|exact Hr].
Qed.
Theorem exe_large_ub len f m : exe_ok len f -> 0x10F000 < exe_size f -> load_exe (Some (len, f)) m = EUB.
Proof.
  intros Hok Hsz. rewrite load_head by exact Hok. destruct Hok as [B H1 _ Hl Hs Hb Ht Hr].
  pose proof (hdr_range f 6 B). fold (exe_nrel f) in H.
  destruct (relocs_ok (Z.to_nat (exe_nrel f)) (exe_rel f) len f (exe_size f) (fun k => f (exe_start f + k))) as (d & E & Bd & K).
  { intros i. apply B. } { lia. } { intros k Hk. apply Hr. lia. }
  rewrite E, copy_ub by lia. reflexivity.
Qed.
Theorem exe_refused fl m : match fl with
  | None => True
  | Some (len, f) => 28 <= len /\ bytes f /\ (f 0 <> 0x4D \/ f 1 <> 0x5A \/ (exe_last f <= 512 /\ 0 <= exe_size f /\ len < exe_start f + exe_size f))
  end -> load_exe fl m = EFail.
Proof.
  destruct fl as [[len f]|]; [|reflexivity]. intros (H1 & B & H). unfold load_exe. replace (len <? 28) with false by lia.
  destruct (Z.eqb_spec (fword f 0) 23117) as [E|]; [|reflexivity]. cbn [negb]. unfold fword in E. change (0 + 1) with 1 in E. pose proof (B 0). pose proof (B 1).
  assert (f 0 = 77 /\ f 1 = 90) as [E0 E1] by lia. destruct H as [|[|(Hl & Hs & Hb)]]; [lia|lia|]. cbv zeta. rewrite exe_size_eq by assumption.
  replace (exe_size f <? 0) with false by lia. replace (fword f 8 * 16) with (exe_start f) by (unfold exe_start, exe_head; change fword with hdr; lia).
  replace (len <? exe_start f + exe_size f) with true by lia. reflexivity.
Qed.

(** ** The change report *)
Lemma changed_dec prev cur i : (prev i =? cur i) && (prev (i + 1) =? cur (i + 1)) = true <-> ~ changed prev cur i.
Proof. unfold changed. lia. Qed.
Lemma report_ok cur n : forall i prev l p, i + 2 * Z.of_nat n = GSIZE -> report n i prev cur = Some (l, p) ->
  (forall j o v, In (j, o, v) l -> i <= j < GSIZE /\ Z.even (j - i) = true /\ changed prev cur j /\ o = word_at prev j /\ v = word_at cur j) /\
  (forall y, (y < i -> p y = prev y) /\ (i <= y < GSIZE -> p y = cur y)) /\
  (forall j, i <= j < GSIZE -> Z.even (j - i) = true -> (reported l j <-> changed prev cur j /\ ~ reported l (j - 2))).
Proof.
  induction n as [|n IH]; intros i prev l p Hn; cbn [report].
  - intros [= <- <-]. split; [intros ? ? ? []|]. split; [lia|]. lia.
  - destruct (_ && _) eqn:Ec.
    + apply changed_dec in Ec. intros H. destruct (IH (i + 2) prev l p ltac:(lia) H) as (A & B & C). split; [|split].
      * intros j o v Hj. destruct (A j o v Hj) as (A1 & A2 & A3). split; [lia|]. split; [|exact A3]. replace (j - i) with (j - (i + 2) + 2) by lia. rewrite Z.even_add, A2. reflexivity.
      * intros y. destruct (B y) as [B1 B2]. unfold changed in Ec. split; [intros; apply B1; lia|]. intros Hy. destruct (Z_lt_le_dec y (i + 2)); [|apply B2; lia].
        rewrite B1 by lia. assert (y = i \/ y = i + 1) as [->| ->] by lia; lia.
      * intros j Hj He. destruct (Z.eq_dec j i) as [->|N].
        -- split; [|tauto]. intros (o & v & Hin). apply A in Hin. lia.
        -- assert (i + 2 <= j). { destruct (Z.eq_dec j (i + 1)) as [->|]; [|lia]. replace (i + 1 - i) with 1 in He by lia. discriminate. }
           apply C; [lia|]. replace (j - i) with (j - (i + 2) + 2) in He by lia. rewrite Z.even_add in He. destruct (Z.even (j - (i + 2))); [reflexivity|discriminate].
    + assert (Hch : changed prev cur i). { destruct (Z.eq_dec (prev i) (cur i)), (Z.eq_dec (prev (i + 1)) (cur (i + 1))); unfold changed; lia. }
      destruct (Z.ltb_spec GSIZE (i + 4)) as [|Hge]; [discriminate|].
      set (prev' := fun y => if (i <=? y) && (y <? i + 4) then cur y else prev y). destruct (report n (i + 2) prev' cur) as [[l' p']|] eqn:Er; [|discriminate]. intros [= <- <-].
      destruct (IH (i + 2) prev' l' p' ltac:(lia) Er) as (A & B & C). 
      assert (Pout : forall j, i + 4 <= j -> prev' j = prev j) by (intros j Hj; unfold prev'; replace ((i <=? j) && (j <? i + 4)) with false by lia; reflexivity).
      assert (Pin : forall j, i <= j < i + 4 -> prev' j = cur j) by (intros j Hj; unfold prev'; replace ((i <=? j) && (j <? i + 4)) with true by lia; reflexivity).
      assert (N2 : ~ reported l' (i + 2)). { intros (o & v & Hin). apply A in Hin. destruct Hin as (_ & _ & Hc & _). unfold changed in Hc. rewrite !Pin in Hc by lia. lia. }
      assert (N0 : ~ reported l' i). { intros (o & v & Hin). apply A in Hin. lia. }
      assert (Hr : forall j, reported ((i, word_at prev i, word_at cur i) :: l') j <-> j = i \/ reported l' j).
      { intros j. split; [intros (o & v & [[= <- <- <-]|Hin]); [auto|right; eexists; eauto]|]. intros [->|(o & v & Hin)]; [do 2 eexists; left; reflexivity|do 2 eexists; right; exact Hin]. }
      split; [|split].
      * intros j o v [[= <- <- <-]|Hin]; [split; [lia|]; rewrite Z.sub_diag; auto|]. destruct (A j o v Hin) as (A1 & A2 & A3 & A4 & A5).
        assert (j <> i + 2) by (intros ->; apply N2; eexists; eauto).
        assert (i + 4 <= j). { destruct (Z.eq_dec j (i + 3)) as [->|]; [|lia]. replace (i + 3 - (i + 2)) with 1 in A2 by lia. discriminate. }
        unfold changed, word_at in *. rewrite !Pout in * by lia. split; [lia|]. split; [|auto]. replace (j - i) with (j - (i + 2) + 2) by lia. rewrite Z.even_add, A2. reflexivity.
      * intros y. destruct (B y) as [B1 B2]. split; [intros; rewrite B1 by lia; unfold prev'; replace ((i <=? y) && (y <? i + 4)) with false by lia; reflexivity|].
        intros Hy. destruct (Z_lt_le_dec y (i + 2)); [rewrite B1 by lia; apply Pin; lia|apply B2; lia].
      * intros j Hj He. rewrite !Hr. destruct (Z.eq_dec j i) as [->|N].
        { split; [|tauto]. intros _. split; [exact Hch|]. intros [|(o & v & Hin)]; [lia|]. apply A in Hin. lia. }
        assert (i + 2 <= j). { destruct (Z.eq_dec j (i + 1)) as [->|]; [|lia]. replace (i + 1 - i) with 1 in He by lia. discriminate. }
        destruct (Z.eq_dec j (i + 2)) as [->|N']. { split; [intros [|]; [lia|tauto]|]. intros (_ & Hx). exfalso. apply Hx. left. lia. }
        assert (i + 4 <= j). { destruct (Z.eq_dec j (i + 3)) as [->|]; [|lia]. replace (i + 3 - i) with 3 in He by lia. discriminate. }
        assert (He' : Z.even (j - (i + 2)) = true). { replace (j - i) with (j - (i + 2) + 2) in He by lia. rewrite Z.even_add in He. destruct (Z.even (j - (i + 2))); [reflexivity|discriminate]. }
        specialize (C j ltac:(lia) He'). unfold changed in *. rewrite !Pout in C by lia.
        split; [intros [|R]; [lia|]; apply C in R; split; [tauto|]; intros [|]; [lia|tauto]|]. intros (R1 & R2). right. apply C. split; [exact R1|]. tauto.
Qed.
Lemma report_none cur n : forall i prev, i + 2 * Z.of_nat n = GSIZE -> (report n i prev cur = None -> changed prev cur (GSIZE - 2)).
Proof.
  induction n as [|n IH]; intros i prev Hn; cbn [report]; [discriminate|]. destruct (_ && _) eqn:Ec; [apply IH; lia|].
  assert (Hch : changed prev cur i). { destruct (Z.eq_dec (prev i) (cur i)), (Z.eq_dec (prev (i + 1)) (cur (i + 1))); unfold changed; lia. }
  destruct (Z.ltb_spec GSIZE (i + 4)).
  - intros _. replace (GSIZE - 2) with i by lia. exact Hch.
  - destruct (report n (i + 2) _ cur) as [[l' p']|] eqn:Er; [discriminate|]. intros _. apply IH in Er; [|lia]. unfold changed in *.
    destruct Er as [K|K]; [left|right]; (match type of K with (if ?b then _ else _) <> _ => destruct b end); congruence.
Qed.
Lemma report_last cur n : forall i prev, i + 2 * Z.of_nat n = GSIZE -> (0 < n)%nat -> changed prev cur (GSIZE - 2) -> (i + 2 <= GSIZE - 2 -> ~ changed prev cur (GSIZE - 4)) -> report n i prev cur = None.
Proof.
  induction n as [|n IH]; intros i prev Hn H0 Hc Hp; [lia|]. cbn [report]. destruct (_ && _) eqn:Ec.
  - apply changed_dec in Ec. destruct n as [|n]; [replace (GSIZE - 2) with i in Hc by lia; tauto|]. apply IH; try lia; try assumption. intros. apply Hp. lia.
  - assert (Hch : changed prev cur i). { destruct (Z.eq_dec (prev i) (cur i)), (Z.eq_dec (prev (i + 1)) (cur (i + 1))); unfold changed; lia. }
    destruct (Z.ltb_spec GSIZE (i + 4)); [reflexivity|].
    assert (i <> GSIZE - 4) by (intros ->; apply Hp; [lia|exact Hch]).
    rewrite IH; [reflexivity|lia|lia| |].
    + unfold changed in *. replace ((i <=? GSIZE - 2) && (GSIZE - 2 <? i + 4)) with false by lia. replace ((i <=? GSIZE - 2 + 1) && (GSIZE - 2 + 1 <? i + 4)) with false by lia. exact Hc.
    + intros H2. specialize (Hp ltac:(lia)). unfold changed in *.
      intros [K|K]; (match type of K with (if ?b then _ else _) <> _ => destruct b end); try congruence; apply Hp; [left|right]; exact K.
Qed.
