(** The window: pixels after a redraw; the redraw timer; register reports. *)
From Coq Require Import String Ascii.
From Verif Require Import Base Cpu Machine Native Native2 Native3 Spec SpecNative3 PBase.
Local Open Scope Z_scope.

Lemma font_length : length font_table = 4096%nat. Proof. vm_compute. reflexivity. Qed.
Definition glyph (c j : Z) : Z := nth (Z.to_nat (16 * c + j)) font_table 0.
Definition palette (i : Z) : Z := nth (Z.to_nat i) colours 0.
Lemma font_some k : 0 <= k < 4096 -> font k = Some (nth (Z.to_nat k) font_table 0).
Proof.
  intros H. unfold font. replace (k <? 0) with false by lia. apply nth_error_nth'. rewrite font_length. lia.
Qed.
Lemma colour_some i : 0 <= i < 16 -> colour i = Some (palette i).
Proof. intros H. unfold colour. replace (i <? 0) with false by lia. apply nth_error_nth'. cbn [colours length]. lia. Qed.
Lemma draw_row_at n : forall x rx ry row bg fg p x' y', 0 <= rx -> rx + Z.of_nat n <= 640 -> 0 <= ry < 400 ->
  draw_row n x rx ry row bg fg p x' y' = if (y' =? ry) && (rx <=? x') && (x' <? rx + Z.of_nat n) then (if Z.testbit row (7 - (x + (x' - rx))) then fg else bg) else p x' y'.
Proof.
  induction n as [|n IH]; intros x rx ry row bg fg p x' y' H1 H2 H3.
  - cbn [draw_row]. replace (_ && _) with false by lia. reflexivity.
  - cbn [draw_row]. rewrite IH by lia. unfold fill1. destruct (Z.eqb_spec y' ry) as [->|N]; cbn [andb].
    + destruct (Z.eqb_spec x' rx) as [->|N'].
      * replace ((rx + 1 <=? rx) && _) with false by lia. replace (_ && _) with true by lia. replace ((rx <=? rx) && _) with true by lia. replace (8 - x - 1) with (7 - (x + (rx - rx))) by lia. reflexivity.
      * cbn [andb]. destruct (Z.leb_spec rx x'); [replace (rx + 1 <=? x') with true by lia|replace (rx + 1 <=? x') with false by lia; reflexivity]. cbn [andb].
        replace (x' <? rx + 1 + Z.of_nat n) with (x' <? rx + Z.of_nat (S n)) by lia. replace (x + 1 + (x' - (rx + 1))) with (x + (x' - rx)) by lia. reflexivity.
    + rewrite Bool.andb_false_r. reflexivity.
Qed.
Lemma draw_rows_at n : forall rx ry k bg fg p, 0 <= rx -> rx + 8 <= 640 -> 0 <= ry -> ry + Z.of_nat n <= 400 -> 0 <= k -> k + Z.of_nat n <= 4096 ->
  exists p', draw_rows n rx ry k bg fg p = Some p' /\ forall x' y', p' x' y' =
    if (ry <=? y') && (y' <? ry + Z.of_nat n) && (rx <=? x') && (x' <? rx + 8) then (if Z.testbit (nth (Z.to_nat (k + (y' - ry))) font_table 0) (7 - (x' - rx)) then fg else bg) else p x' y'.
Proof.
  induction n as [|n IH]; intros rx ry k bg fg p H1 H2 H3 H4 H5 H6.
  - exists p. split; [reflexivity|]. intros. replace (_ && _ && _ && _) with false by lia. reflexivity.
  - cbn [draw_rows]. rewrite font_some by lia. destruct (IH rx (ry + 1) (k + 1) bg fg (draw_row 8 0 rx ry (nth (Z.to_nat k) font_table 0) bg fg p)) as (p' & -> & K); try lia.
    exists p'. split; [reflexivity|]. intros x' y'. rewrite K, draw_row_at by lia. change (Z.of_nat 8) with 8.
    destruct (Z.eqb_spec y' ry) as [->|N].
    + replace (ry + 1 <=? ry) with false by lia. cbn [andb]. replace ((ry <=? ry) && (ry <? ry + Z.of_nat (S n))) with true by lia. cbn [andb]. rewrite Z.sub_diag, !Z.add_0_r, Z.add_0_l. reflexivity.
    + cbn [andb]. replace ((ry <=? y') && (y' <? ry + Z.of_nat (S n))) with ((ry + 1 <=? y') && (y' <? ry + 1 + Z.of_nat n)) by lia. replace (k + 1 + (y' - (ry + 1))) with (k + (y' - ry)) by lia. reflexivity.
Qed.
Section Redraw.
Context (vid : Z -> Z) (V : forall i, 0 <= i < 4000 -> 0 <= vid i < 256).
Definition cell_ch (c r : Z) : Z := vid ((r * 80 + c) * 2).
Definition cell_at (c r : Z) : Z := vid ((r * 80 + c) * 2 + 1).
Lemma redraw_cols_at n : forall row col p, 0 <= row < 25 -> 0 <= col -> col + Z.of_nat n = 80 ->
  exists p', redraw_cols true n row col vid p = Some p' /\ forall x y, p' x y =
    if (16 * row <=? y) && (y <? 16 * row + 16) && (8 * col <=? x) && (x <? 640) then picture cell_ch cell_at glyph palette x y else p x y.
Proof.
  induction n as [|n IH]; intros row col p H1 H2 H3.
  - exists p. split; [reflexivity|]. intros. replace (_ && _ && _ && _) with false by lia. reflexivity.
  - cbn [redraw_cols]. pose proof (V ((row * 80 + col) * 2 + 1) ltac:(lia)) as Ha. pose proof (V ((row * 80 + col) * 2 + 0) ltac:(lia)) as Hc.
    assert (Es : Z.shiftr (vid ((row * 80 + col) * 2 + 1)) 4 = vid ((row * 80 + col) * 2 + 1) / 16) by (rewrite Z.shiftr_div_pow2 by lia; reflexivity).
    assert (Ea : Z.land (vid ((row * 80 + col) * 2 + 1)) 15 = vid ((row * 80 + col) * 2 + 1) mod 16) by (change 15 with (Z.ones 4); rewrite Z.land_ones by lia; reflexivity).
    rewrite Es, Ea, !colour_some by lia. unfold draw_char.
    destruct (draw_rows_at 16 (col * 8) (row * 16) (vid ((row * 80 + col) * 2 + 0) * 16) (palette (vid ((row * 80 + col) * 2 + 1) / 16)) (palette (vid ((row * 80 + col) * 2 + 1) mod 16)) p) as (p1 & -> & K1); try lia.
    destruct (IH row (col + 1) p1) as (p2 & -> & K2); try lia. exists p2. split; [reflexivity|]. intros x y. rewrite K2, K1. change (Z.of_nat 16) with 16.
    replace (row * 16) with (16 * row) by lia. replace (col * 8) with (8 * col) by lia.
    destruct ((16 * row <=? y) && (y <? 16 * row + 16)) eqn:Ey; cbn [andb]; [|reflexivity].
    destruct (Z.leb_spec (8 * (col + 1)) x) as [L|L].
    + replace (8 * col <=? x) with true by lia. cbn [andb]. destruct (x <? 640); [reflexivity|]. replace (x <? 8 * col + 8) with false by lia. reflexivity.
    + cbn [andb]. destruct (Z.leb_spec (8 * col) x) as [L2|L2]; cbn [andb]; [|reflexivity]. replace (x <? 8 * col + 8) with true by lia. replace (x <? 640) with true by lia.
      unfold picture, cell_ch, cell_at, glyph. replace (x / 8) with col by lia. replace (y / 16) with row by lia.
      replace ((row * 80 + col) * 2 + 0) with ((row * 80 + col) * 2) by lia. replace (y mod 16) with (y - 16 * row) by lia. replace (x mod 8) with (x - 8 * col) by lia.
      replace (vid ((row * 80 + col) * 2) * 16) with (16 * vid ((row * 80 + col) * 2)) by lia. reflexivity.
Qed.
Lemma redraw_rows_at n : forall row p, 0 <= row -> row + Z.of_nat n = 25 ->
  exists p', redraw_rows true n row vid p = Some p' /\ forall x y, p' x y =
    if (16 * row <=? y) && (y <? 400) && (0 <=? x) && (x <? 640) then picture cell_ch cell_at glyph palette x y else p x y.
Proof.
  induction n as [|n IH]; intros row p H1 H2.
  - exists p. split; [reflexivity|]. intros. replace (_ && _ && _ && _) with false by lia. reflexivity.
  - cbn [redraw_rows]. destruct (redraw_cols_at 80 row 0 p) as (p1 & -> & K1); try lia. destruct (IH (row + 1) p1) as (p2 & -> & K2); try lia.
    exists p2. split; [reflexivity|]. intros x y. rewrite K2, K1. change (8 * 0) with 0.
    destruct ((0 <=? x) && (x <? 640)) eqn:Ex; rewrite <- !Bool.andb_assoc; [|rewrite Ex, !Bool.andb_false_r; reflexivity]. rewrite Ex, !Bool.andb_true_r.
    destruct (Z.leb_spec (16 * (row + 1)) y) as [L|L].
    + replace (16 * row <=? y) with true by lia. cbn [andb]. destruct (y <? 400) eqn:E4; [reflexivity|]. replace (y <? 16 * row + 16) with false by lia. reflexivity.
    + cbn [andb]. destruct (Z.leb_spec (16 * row) y); cbn [andb]; [|reflexivity]. replace (y <? 16 * row + 16) with true by lia. replace (y <? 400) with true by lia. reflexivity.
Qed.
Theorem redraw_ok p : exists p', video_redraw true vid p = Some p' /\ (forall x y, in_window x y -> p' x y = picture cell_ch cell_at glyph palette x y) /\
  (forall x y, ~ in_window x y -> p' x y = p x y).
Proof.
  destruct (redraw_rows_at 25 0 p) as (p' & E & K); try lia. exists p'. split; [exact E|]. unfold in_window. split; intros x y H; rewrite K; change (16 * 0) with 0.
  - replace (_ && _ && _ && _) with true by lia. reflexivity.
  - replace (_ && _ && _ && _) with false by lia. reflexivity.
Qed.
Lemma redraw_none_cols n : (n <= 80)%nat -> forall row col p, 0 <= row < 25 -> 0 <= col -> col + Z.of_nat n = 80 -> redraw_cols false n row col vid p = Some p.
Proof.
  induction n as [|n IH]; intros Hn row col p H1 H2 H3; [reflexivity|]. cbn [redraw_cols]. pose proof (V ((row * 80 + col) * 2 + 1) ltac:(lia)) as Ha.
  rewrite Z.shiftr_div_pow2 by lia. change (2 ^ 4) with 16. change 15 with (Z.ones 4). rewrite Z.land_ones by lia. change (2 ^ 4) with 16. rewrite !colour_some by lia. cbn [draw_char]. apply IH; lia.
Qed.
Lemma redraw_none p : video_redraw false vid p = Some p.
Proof.
  unfold video_redraw. assert (K : forall n row, 0 <= row -> row + Z.of_nat n = 25 -> redraw_rows false n row vid p = Some p); [|apply K; lia].
  induction n as [|n IH]; intros row H1 H2; [reflexivity|]. cbn [redraw_rows]. rewrite redraw_none_cols by lia. apply IH; lia.
Qed.
End Redraw.
(** Glyphs differ, except those of 0, 32 and 255, which are blank. *)
Definition glyph_rows (c : nat) : list Z := firstn 16 (skipn (16 * c) font_table).
Definition list_eqb (a b : list Z) : bool := if list_eq_dec Z.eq_dec a b then true else false.
Definition blank_code (c : nat) : bool := (c =? 0)%nat || (c =? 32)%nat || (c =? 255)%nat.
Lemma glyphs_differ_b : forallb (fun c => forallb (fun d => (c =? d)%nat || (blank_code c && blank_code d) || negb (list_eqb (glyph_rows c) (glyph_rows d))) (seq 0 256)) (seq 0 256) = true.
Proof. vm_compute. reflexivity. Qed.
Lemma nth_firstn_skipn (l : list Z) i n j : (j < n)%nat -> nth j (firstn n (skipn i l)) 0 = nth (i + j) l 0.
Proof. revert l n j. induction i as [|i IH]; intros l n j H; [|destruct l; [destruct n, j; reflexivity|exact (IH l n j H)]]. cbn [skipn Nat.add]. revert l j H. induction n as [|n IHn]; intros l j H; [lia|]. destruct l, j; cbn; try reflexivity. apply IHn. lia. Qed.
Theorem glyphs_differ c d : 0 <= c < 256 -> 0 <= d < 256 -> (forall j, 0 <= j < 16 -> glyph c j = glyph d j) -> c = d \/ ((c = 0 \/ c = 32 \/ c = 255) /\ (d = 0 \/ d = 32 \/ d = 255)).
Proof.
  intros Hc Hd H. pose proof (proj1 (forallb_forall _ _) glyphs_differ_b (Z.to_nat c) ltac:(apply in_seq; lia)) as K. cbv beta in K.
  pose proof (proj1 (forallb_forall _ _) K (Z.to_nat d) ltac:(apply in_seq; lia)) as K2. cbv beta in K2. clear K.
  assert (E : glyph_rows (Z.to_nat c) = glyph_rows (Z.to_nat d)).
  { assert (Len : forall e, 0 <= e < 256 -> length (glyph_rows (Z.to_nat e)) = 16%nat) by (intros e He; unfold glyph_rows; rewrite firstn_length, skipn_length, font_length; lia).
    apply (nth_ext _ _ 0 0); [rewrite !Len by assumption; reflexivity|]. rewrite Len by assumption. intros j Hj. unfold glyph_rows. rewrite !nth_firstn_skipn by lia.
    specialize (H (Z.of_nat j) ltac:(lia)). unfold glyph in H. replace (Z.to_nat (16 * c + Z.of_nat j)) with (16 * Z.to_nat c + j)%nat in H by lia. replace (Z.to_nat (16 * d + Z.of_nat j)) with (16 * Z.to_nat d + j)%nat in H by lia. exact H. }
  rewrite E in K2. unfold list_eqb in K2. destruct (list_eq_dec _ _ _) as [_|N] in K2; [|contradiction]. cbn [negb] in K2. rewrite Bool.orb_false_r in K2. unfold blank_code in K2.
  apply Bool.orb_true_iff in K2. destruct K2 as [K2|K2]; [left; apply Nat.eqb_eq in K2; lia|right]. apply Bool.andb_true_iff in K2. destruct K2 as [A B].
  rewrite !Bool.orb_true_iff, !Nat.eqb_eq in A, B. lia.
Qed.
(** Every glyph byte is a byte. *)
Lemma glyph_byte c j : 0 <= glyph c j < 256.
Proof.
  unfold glyph. destruct (nth_in_or_default (Z.to_nat (16 * c + j)) font_table 0) as [H| ->]; [|lia].
  assert (B : forallb (fun b => (0 <=? b) && (b <? 256)) font_table = true) by (vm_compute; reflexivity).
  pose proof (proj1 (forallb_forall _ _) B _ H) as K. cbv beta in K. lia.
Qed.
Theorem cell_legible c d a : 0 <= c < 256 -> 0 <= d < 256 -> 0 <= a < 256 -> a / 16 <> a mod 16 ->
  (forall i j, 0 <= i < 8 -> 0 <= j < 16 -> (if Z.testbit (glyph c j) (7 - i) then palette (a mod 16) else palette (a / 16)) = (if Z.testbit (glyph d j) (7 - i) then palette (a mod 16) else palette (a / 16))) ->
  forall j, 0 <= j < 16 -> glyph c j = glyph d j.
Proof.
  intros Hc Hd Ha Hn H j Hj. assert (P : palette (a mod 16) <> palette (a / 16)).
  { assert (B : forallb (fun x => forallb (fun y => (x =? y)%nat || negb (nth x colours 0 =? nth y colours 0)) (seq 0 16)) (seq 0 16) = true) by (vm_compute; reflexivity).
    pose proof (proj1 (forallb_forall _ _) B (Z.to_nat (a mod 16)) ltac:(apply in_seq; lia)) as K. cbv beta in K. pose proof (proj1 (forallb_forall _ _) K (Z.to_nat (a / 16)) ltac:(apply in_seq; lia)) as K2. cbv beta in K2.
    unfold palette. apply Bool.orb_true_iff in K2. destruct K2 as [K2|K2]; [apply Nat.eqb_eq in K2; lia|]. intros E. rewrite E, Z.eqb_refl in K2. discriminate. }
  apply Z.bits_inj'. intros n Hn'. destruct (Z_lt_dec n 8) as [L|L].
  - specialize (H (7 - n) j ltac:(lia) Hj). replace (7 - (7 - n)) with n in H by lia. destruct (Z.testbit (glyph c j) n), (Z.testbit (glyph d j) n); try reflexivity; exfalso; apply P; congruence.
  - assert (Hh : forall e, Z.testbit (glyph e j) n = false).
    { intros e. pose proof (glyph_byte e j). destruct (Z.eq_dec (glyph e j) 0) as [->|]; [apply Z.bits_0|]. apply Z.bits_above_log2; [lia|]. apply Z.log2_lt_pow2; [lia|]. apply Z.lt_le_trans with (2 ^ 8); [lia|]. apply Z.pow_le_mono_r; lia. }
    rewrite !Hh. reflexivity.
Qed.

(** ** The redraw timer *)
(** Outstanding requests: being made, queued, being served. *)
Definition outstanding (g : gui_st) : nat :=
  (match tpc g with TMarked => 1 | _ => 0 end) + queued g + (match mpc g with PIdle => 0 | _ => 1 end).
Definition gui_inv (full : bool) (g : gui_st) : Prop :=
  (outstanding g + (match tpc g with TSeen => 1 | _ => 0 end) <= 1)%nat /\ (busy g = false -> outstanding g = 0%nat) /\ (full = false -> busy g = true -> outstanding g = 1%nat).
Lemma gui_inv_step full g g' : gui_step full g g' -> gui_inv full g -> gui_inv full g'.
Proof.
  intros S (I1 & I2 & I3). unfold gui_inv, outstanding in *.
  destruct S as [g Ht Hb|g Ht Hb|g Ht|g Ht|g Hf Ht|g n Hm Hq|g Hm|g Hm]; try rewrite Ht in *; try rewrite Hm in *; try rewrite Hq in *; cbn [busy queued tpc mpc redraws] in *.
  - split; [exact I1|]. split; [exact I2|exact I3].
  - specialize (I2 Hb). split; [lia|]. split; [intros; lia|]. intros F Hb'. congruence.
  - destruct (busy g) eqn:Hb.
    + split; [|split; [discriminate|]]. destruct (mpc g); lia. intros; destruct (mpc g); lia.
    + specialize (I2 eq_refl). split; [lia|]. split; [discriminate|]. intros; lia.
  - split; [lia|]. split; intros; lia.
  - split; [lia|]. split; intros; [|congruence]. specialize (I2 H). lia.
  - split; [lia|]. split; intros; [specialize (I2 H)|specialize (I3 H H0)]; lia.
  - split; [lia|]. split; intros; [specialize (I2 H)|specialize (I3 H H0)]; lia.
  - split; [lia|]. split; [intros; lia|discriminate].
Qed.
Theorem gui_inv_runs full g : gui_runs full gui0 g -> gui_inv full g.
Proof.
  intros H. remember gui0 as g0 eqn:E0. induction H as [g|g g1 g2 _ IH S]; [subst; unfold gui_inv, outstanding; cbn; intuition (try discriminate; try lia)|].
  apply (gui_inv_step full _ _ S), IH, E0.
Qed.
