(** Proofs about the native tester: INT 10h. *)
From Verif Require Import Base Cpu Ops Machine Spec SpecOps SpecOps2 SpecSys SpecRun Native SpecNative PBase PMem PRun PExec PIInt PNative PNative2 PNative3 PNative5 PNative6.

Section Native.
Context (GM : Z).
Notation tty := (SpecNative.tty GM). Notation ttys := (SpecNative.ttys GM).
Notation CXp := (G_CX GM). Notation CYp := (G_CY GM).
Notation cx := (gint CXp). Notation cy := (gint CYp).
Lemma tty_eq a : reg 8 AH a = 0x0E -> hle10 GM a = put_char GM (reg 8 AL a) (gbyte (G_ATTR GM) a) a.
Proof. intros H. unfold hle10. rewrite rAH, H, rAL. reflexivity. Qed.
Lemma wreg_same_mem w n v a : hmem (with_reg w n v a) = hmem a. Proof. apply wreg_hmem. Qed.
Lemma ax_set v a : 0 <= v < 65536 -> reg 8 AH (with_reg 16 AX v a) = v / 256 /\ reg 8 AL (with_reg 16 AX v a) = v mod 256.
Proof.
  intros H. rewrite <- sAX by exact H. rewrite <- rAH, <- rAL. unfold bl, bh, set_bw, P_AX. cbn [a_gprs gprs].
  assert (K : getf 0 16 (setf 0 16 v (gprs a)) = v) by (rewrite getf_setf_same by lia; apply wrap_small; exact H).
  revert K. generalize (setf 0 16 v (gprs a)). intros g. unfold getf. change (2 ^ 0) with 1. rewrite Z.div_1_r. change (2 ^ 8) with 256. change (2 ^ 16) with 65536.
  change (2 ^ (0 + 8)) with 256. lia.
Qed.
Lemma gint_mem p a b : hmem a = hmem b -> gint p a = gint p b. Proof. intros H. unfold gint. rewrite H. reflexivity. Qed.
Lemma tty_char c a : 0 <= c < 256 -> tty c a = put_char GM c (gbyte (G_ATTR GM) a) (with_reg 16 AX (0x0E00 + c) a).
Proof.
  intros H. unfold tty. destruct (ax_set (0x0E00 + c) a) as [A B]; [lia|]. rewrite tty_eq by (rewrite A; lia). rewrite B. replace ((3584 + c) mod 256) with c by lia.
  unfold gbyte. rewrite wreg_hmem. reflexivity.
Qed.
Definition ok (a : arch) : Prop := cursor_ok GM a.
(** A text of any length written from a cursor position on the screen stays on the screen. *)
Lemma tty_ok c a : 0 <= c < 256 -> cursor_ok GM a -> exists a', tty c a = NRet a' /\ cursor_ok GM a' /\ (forall x, ~ screen_or_cursor GM x -> hmem a' x = hmem a x).
Proof.
  intros Hc Ha. rewrite tty_char by exact Hc. set (b := with_reg 16 AX (3584 + c) a). assert (Hb : hmem b = hmem a) by apply wreg_hmem. clearbody b.
  destruct (put_char_ok GM c (gbyte (G_ATTR GM) a) b) as (a' & E & K & O & _).
  { unfold cursor_ok. rewrite !(gint_mem _ b a Hb). exact Ha. }
  exists a'. split; [exact E|]. split; [exact K|]. intros x Hx. rewrite (proj2 O x Hx), Hb. reflexivity.
Qed.
Theorem ttys_ok s : Forall (fun c => 0 <= c < 256) s -> forall a, cursor_ok GM a ->
  exists a', ttys s a = NRet a' /\ cursor_ok GM a' /\ (forall x, ~ screen_or_cursor GM x -> hmem a' x = hmem a x).
Proof.
  induction 1 as [|c s Hc Hs IH]; intros a Ha; cbn [ttys]; [exists a; auto|].
  destruct (tty_ok c a Hc Ha) as (a1 & -> & K1 & M1). destruct (IH a1 K1) as (a2 & -> & K2 & M2). exists a2. split; [reflexivity|]. split; [exact K2|].
  intros x Hx. rewrite M2, M1 by exact Hx. reflexivity.
Qed.
(** From a position past the right edge it eventually leaves guest memory. *)
Lemma ttys_app s1 s2 : forall a a', ttys s1 a = NRet a' -> ttys (s1 ++ s2) a = ttys s2 a'.
Proof. induction s1 as [|c s1 IH]; intros a a' H; cbn [app ttys] in *; [injection H as ->; reflexivity|]. destruct (tty c a); try discriminate. apply IH, H. Qed.
Lemma tty_past n : forall c a, 0 <= c < 256 -> plain c -> 80 <= cx a -> cy a = 0 -> cx a + Z.of_nat n = 180224 ->
  exists a', ttys (repeat c n) a = NRet a' /\ cx a' = 180224 /\ cy a' = 0.
Proof.
  induction n as [|n IH]; intros c a Hr Hc Hx Hy Hn; cbn [repeat ttys]; [exists a; split; [reflexivity|]; lia|].
  rewrite tty_char by exact Hr. set (t := gbyte (G_ATTR GM) a). set (b := with_reg 16 AX (3584 + c) a). assert (Hb : hmem b = hmem a) by apply wreg_hmem. clearbody b t.
  rewrite <- !(gint_mem _ b a Hb) in *. clear Hb. pose proof Hc as (N1 & N2 & N3). unfold put_char. replace (c =? 10) with false by lia. replace (c =? 13) with false by lia. replace (c =? 8) with false by lia.
  assert (cell GM b = 753664 + 2 * cx b) as Ec by (unfold cell; rewrite Hy; lia).
  rewrite put_cell_eq by lia. replace (cx b + 1 =? 80) with false by lia. set (a1 := put2 GM _ c t b).
  assert (X1 : cx (set_gint CXp (cx b + 1) a1) = cx b + 1) by (apply gint_small; lia).
  assert (Y1 : cy (set_gint CXp (cx b + 1) a1) = 0) by (rewrite cy_setcx; unfold a1; rewrite put2_int by (unfold G_CY; lia); exact Hy).
  apply IH; [exact Hr|exact Hc|lia|exact Y1|lia].
Qed.
Theorem tty_past_ub c a : 0 <= c < 256 -> plain c -> cx a = 80 -> cy a = 0 -> ttys (repeat c (Z.to_nat 180145)) a = NUB.
Proof.
  intros Hr Hc Hx Hy. destruct (tty_past (Z.to_nat 180144) c a Hr Hc ltac:(lia) Hy ltac:(lia)) as (a' & E & X & Y).
  replace (Z.to_nat 180145) with (Z.to_nat 180144 + 1)%nat by lia. rewrite repeat_app. rewrite (ttys_app _ _ _ _ E). cbn [repeat ttys].
  rewrite tty_char by exact Hr. set (b := with_reg 16 AX (3584 + c) a'). assert (Hb : hmem b = hmem a') by apply wreg_hmem. clearbody b.
  destruct Hc as (N1 & N2 & N3). unfold put_char. replace (c =? 10) with false by lia. replace (c =? 13) with false by lia. replace (c =? 8) with false by lia.
  unfold put_cell. rewrite gput_none; [reflexivity|]. unfold cell. rewrite !(gint_mem _ b a' Hb), X, Y. lia.
Qed.
(** AH=02 *)
Theorem set_cursor a : reg 8 AH a = 2 -> exists a', hle10 GM a = NRet a' /\ cx a' = reg 8 DL a /\ cy a' = reg 8 DH a /\ only_memory (cursor GM) a a'.
Proof.
  intros H. unfold hle10. rewrite rAH, H, rDL, rDH. cbn [Z.eqb Pos.eqb]. pose proof (reg8_range DL a ltac:(lia)). pose proof (reg8_range DH a ltac:(lia)).
  eexists. split; [reflexivity|]. split; [rewrite cx_setcy; apply gint_small; lia|]. split; [apply gint_small; lia|]. eapply om_trans; [apply om_setcx|apply om_setcy].
Qed.
(** AH=08 *)
Theorem read_cell E a T : flat E GM a -> reg 8 AH a = 8 -> on_screen (tx T) (ty T) -> shows GM a T ->
  (forall x y, 0 <= fst (scr T x y) < 256 /\ 0 <= snd (scr T x y) < 256) ->
  hle10 GM a = NRet (with_reg 8 AH (snd (scr T (tx T) (ty T))) (with_reg 8 AL (fst (scr T (tx T) (ty T))) a)).
Proof.
  intros F H Ho (Sx & Sy & Ss) Hr. unfold hle10. rewrite rAH, H. cbn [Z.eqb Pos.eqb].
  assert (Ec : cell GM a = cell_at (tx T) (ty T)) by (unfold cell, cell_at, SCREEN; rewrite Sx, Sy; lia). rewrite Ec.
  destruct (Ss _ _ Ho) as [A B]. pose proof (cell_range _ _ Ho) as R. unfold gget, GSIZE, SCREEN in *.
  replace ((0 <=? cell_at (tx T) (ty T)) && (cell_at (tx T) (ty T) <? 1114112)) with true by lia.
  replace ((0 <=? cell_at (tx T) (ty T) + 1) && (cell_at (tx T) (ty T) + 1 <? 1114112)) with true by lia. rewrite A, B.
  rewrite sAH, sAL by apply Hr. reflexivity.
Qed.
(** AH=06, AL=0 *)
Lemma clear_ok n t : forall i a, 0 <= i -> i + Z.of_nat n <= 2000 -> exists a', clear_cells GM n i t a = Some a' /\
  a' = a_hmem (hmem a') a /\
  (forall k, i <= k < i + Z.of_nat n -> hmem a' (GM + (SCREEN + 2 * k)) = Some 0 /\ hmem a' (GM + (SCREEN + 2 * k + 1)) = Some (wrap 8 t)) /\
  (forall x, ~ GM + (SCREEN + 2 * i) <= x < GM + (SCREEN + 2 * (i + Z.of_nat n)) -> hmem a' x = hmem a x).
Proof.
  induction n as [|n IH]; intros i a Hi Hn; cbn [clear_cells].
  - exists a. split; [reflexivity|]. split; [destruct a; reflexivity|]. split; [lia|reflexivity].
  - rewrite !gput_some by lia. set (a1 := a_hmem _ (a_hmem _ a)). destruct (IH (i + 1) a1 ltac:(lia) ltac:(lia)) as (a' & -> & E & C & O).
    exists a'. split; [reflexivity|]. split; [rewrite E; reflexivity|]. unfold SCREEN in *. split.
    + intros k Hk. destruct (Z.eq_dec k i) as [->|]; [|apply C; lia]. rewrite !O by lia. unfold a1. cbn [a_hmem hmem]. rewrite !hput_at.
      replace (GM + (753664 + 2 * i) =? GM + (753664 + i * 2 + 1)) with false by lia. replace (GM + (753664 + 2 * i) =? GM + (753664 + i * 2)) with true by lia.
      replace (GM + (753664 + 2 * i + 1) =? GM + (753664 + i * 2 + 1)) with true by lia. auto.
    + intros x Hx. rewrite O by lia. unfold a1. cbn [a_hmem hmem]. rewrite !hput_at.
      replace (x =? GM + (753664 + i * 2 + 1)) with false by lia. replace (x =? GM + (753664 + i * 2)) with false by lia. reflexivity.
Qed.
Theorem clear_screen a : reg 8 AH a = 6 -> reg 8 AL a = 0 -> exists a', hle10 GM a = NRet a' /\ only_memory (screen GM) a a' /\
  scr_is GM a' (fun _ _ => (0, 0)).
Proof.
  intros H H0. unfold hle10. rewrite rAH, H, rAL, H0, rBH. cbn [Z.eqb Pos.eqb]. destruct (clear_ok 2000 (wrap 8 (reg 8 BH a * 256)) 0 a) as (a' & -> & E & C & O); [lia|lia|].
  exists a'. split; [reflexivity|]. split.
  - split; [exact E|]. intros x Hx. apply O. unfold screen in Hx. lia.
  - intros x y Hs. unfold on_screen in Hs. destruct (C (80 * y + x) ltac:(lia)) as [A B].
    replace (wrap 8 (wrap 8 (reg 8 BH a * 256))) with 0 in B by (unfold wrap; change (2 ^ 8) with 256; lia). unfold cell_at. auto.
Qed.
(** AH=09 *)
Lemma repeat_ok n c t : forall a, 0 <= cx a -> 0 <= cy a < 25 -> cx a + Z.of_nat n < 25 -> exists a', repeat_char GM n c t a = NRet a' /\
  cx a' = cx a + Z.of_nat n /\ cy a' = cy a /\ only_memory (screen_or_cursor GM) a a' /\
  (forall x, cx a <= x < cx a + Z.of_nat n -> hmem a' (GM + cell_at x (cy a)) = Some (wrap 8 c) /\ hmem a' (GM + (cell_at x (cy a) + 1)) = Some (wrap 8 t)) /\
  (forall x, screen GM x -> ~ guest GM (cell_at (cx a) (cy a)) (2 * Z.of_nat n) x -> hmem a' x = hmem a x).
Proof.
  induction n as [|n IH]; intros a Hx Hy Hn; cbn [repeat_char].
  - exists a. split; [reflexivity|]. split; [lia|]. split; [reflexivity|]. split; [apply om_refl|]. split; [lia|reflexivity].
  - assert (K : cursor_ok GM a) by (unfold cursor_ok, on_screen; lia). destruct (cell_ok GM a K) as (Ec & C1 & C2). rewrite put_cell_eq by (unfold SCREEN in *; lia).
    replace (cx a + 1 =? 25) with false by lia. set (a1 := put2 GM (cell GM a) c t a). set (a2 := set_gint CXp (cx a + 1) a1).
    assert (X2 : cx a2 = cx a + 1) by (apply gint_small; lia).
    assert (Y2 : cy a2 = cy a) by (unfold a2; rewrite cy_setcx; unfold a1; apply put2_int; unfold SCREEN, G_CY in *; lia).
    assert (M2 : forall x, ~ cursor GM x -> hmem a2 x = hmem a1 x) by (intros x Hc; unfold a2; apply (proj2 (om_setcx GM (cx a + 1) a1) x Hc)).
    destruct (IH a2 ltac:(lia) ltac:(lia) ltac:(lia)) as (a' & -> & X & Y & O & C & S). exists a'. split; [reflexivity|]. split; [lia|]. split; [lia|].
    rewrite X2, Y2 in *. split.
    { eapply om_trans; [|exact O]. eapply om_trans; [eapply om_weaken; [apply screen_in|apply om_put2; exact K]|]. eapply om_weaken; [apply cursor_in|]. apply om_setcx. }
    split.
    + intros x Hr. destruct (Z.eq_dec x (cx a)) as [->|]; [|apply C; lia].
      assert (forall d, 0 <= d < 2 -> hmem a' (GM + (cell_at (cx a) (cy a) + d)) = hmem a1 (GM + (cell_at (cx a) (cy a) + d))) as T.
      { intros d Hd. unfold cell_at, SCREEN in *. rewrite S by (unfold screen, guest, SCREEN; lia). apply M2. unfold cursor. lia. }
      pose proof (T 0 ltac:(lia)) as T0. rewrite Z.add_0_r in T0. rewrite T0, T by lia. unfold a1. rewrite !put2_hmem, Ec.
      replace (GM + cell_at (cx a) (cy a) =? GM + (cell_at (cx a) (cy a) + 1)) with false by lia. rewrite !Z.eqb_refl. auto.
    + intros x Hs Hg. unfold guest, cell_at, SCREEN in *. rewrite S by (first [exact Hs | unfold guest; lia]). rewrite M2 by (unfold cursor, screen, SCREEN in *; lia). unfold a1. rewrite put2_hmem.
      replace (x =? GM + (cell GM a + 1)) with false by lia. replace (x =? GM + cell GM a) with false by lia. reflexivity.
Qed.
Lemma repeat_long n c t : forall a, cx a < 25 -> 0 <= cx a -> 0 <= cy a < 25 -> 25 - cx a <= Z.of_nat n -> exists a', repeat_char GM n c t a = NRet a' /\
  cx a' = 24 /\ (forall x, screen GM x -> ~ guest GM (cell_at (cx a) (cy a)) (2 * (25 - cx a)) x -> hmem a' x = hmem a x).
Proof.
  induction n as [|n IH]; intros a H1 H0 Hy Hn; cbn [repeat_char]; [lia|].
  assert (K : cursor_ok GM a) by (unfold cursor_ok, on_screen; lia). destruct (cell_ok GM a K) as (Ec & C1 & C2). rewrite put_cell_eq by (unfold SCREEN in *; lia).
  set (a1 := put2 GM (cell GM a) c t a). destruct (Z.eqb_spec (cx a + 1) 25) as [E|E].
  - exists a1. split; [reflexivity|]. split; [unfold a1; rewrite put2_int by (unfold SCREEN, G_CX in *; lia); lia|].
    intros x Hs Hg. unfold a1. rewrite put2_hmem. unfold guest in Hg. replace (x =? GM + (cell GM a + 1)) with false by lia. replace (x =? GM + cell GM a) with false by lia. reflexivity.
  - set (a2 := set_gint CXp (cx a + 1) a1).
    assert (X2 : cx a2 = cx a + 1) by (apply gint_small; lia).
    assert (Y2 : cy a2 = cy a) by (unfold a2; rewrite cy_setcx; unfold a1; apply put2_int; unfold SCREEN, G_CY in *; lia).
    assert (M2 : forall x, ~ cursor GM x -> hmem a2 x = hmem a1 x) by (intros x Hc; unfold a2; apply (proj2 (om_setcx GM (cx a + 1) a1) x Hc)).
    destruct (IH a2 ltac:(lia) ltac:(lia) ltac:(lia) ltac:(lia)) as (a' & -> & X & S). exists a'. split; [reflexivity|]. split; [exact X|]. rewrite X2, Y2 in *.
    intros x Hs Hg. unfold guest, cell_at, SCREEN in *. rewrite S by (first [exact Hs | unfold guest; lia]). rewrite M2 by (unfold cursor, screen, SCREEN in *; lia). unfold a1. rewrite put2_hmem.
    replace (x =? GM + (cell GM a + 1)) with false by lia. replace (x =? GM + cell GM a) with false by lia. reflexivity.
Qed.
End Native.
