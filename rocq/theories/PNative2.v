(** Proofs about the native tester: screen output. *)
From Verif Require Import Base Cpu Machine Spec SpecOps SpecSys Native SpecNative PBase PMem PRun PExec PNative.

Section Native.
Context (GM : Z).
Notation screen := (SpecNative.screen GM). Notation screen_or_cursor := (SpecNative.screen_or_cursor GM). Notation cursor_ok := (SpecNative.cursor_ok GM). Notation scr_is := (SpecNative.scr_is GM). Notation shows := (SpecNative.shows GM).
Notation CX := (G_CX GM). Notation CY := (G_CY GM).
Notation cx := (gint CX). Notation cy := (gint CY).

Lemma gput_some i v a : 0 <= i < 1114112 -> gput GM i v a = Some (a_hmem (hput (GM + i) v (hmem a)) a).
Proof. intros H. unfold gput, GSIZE. replace ((0 <=? i) && (i <? 1114112)) with true by lia. reflexivity. Qed.
Lemma gput_none i v a : ~ 0 <= i < 1114112 -> gput GM i v a = None.
Proof. intros H. unfold gput, GSIZE. replace ((0 <=? i) && (i <? 1114112)) with false by lia. reflexivity. Qed.
(** Writing to guest memory does not move the cursor. *)
Lemma gint_guest p i v a : 0 <= i < 1114112 -> GM + 0x200000 <= p -> gint p (a_hmem (hput (GM + i) v (hmem a)) a) = gint p a.
Proof. intros Hi Hp. apply gint_ext. intros x Hx. cbn [a_hmem hmem]. rewrite hput_at. replace (x =? GM + i) with false by lia. reflexivity. Qed.
Definition put2 (i c t : Z) (a : arch) : arch := a_hmem (hput (GM + (i + 1)) t (hput (GM + i) c (hmem a))) a.
Lemma put_cell_eq c t a : 0 <= cell GM a -> cell GM a + 1 < 1114112 -> put_cell GM c t a = Some (put2 (cell GM a) c t a).
Proof.
  intros H1 H2. unfold put_cell. rewrite gput_some by lia. set (a1 := a_hmem _ a).
  assert (cell GM a1 = cell GM a) as -> by (unfold cell, a1; rewrite !gint_guest by (unfold G_CX, G_CY; lia); reflexivity).
  rewrite gput_some by lia. reflexivity.
Qed.
Lemma put2_hmem i c t a x : hmem (put2 i c t a) x = if x =? GM + (i + 1) then Some (wrap 8 t) else if x =? GM + i then Some (wrap 8 c) else hmem a x.
Proof. reflexivity. Qed.
Lemma put2_int i c t a p : 0 <= i -> i + 1 < 1114112 -> GM + 0x200000 <= p -> gint p (put2 i c t a) = gint p a.
Proof. intros H1 H2 Hp. apply gint_ext. intros x Hx. rewrite put2_hmem. replace (x =? GM + (i + 1)) with false by lia. replace (x =? GM + i) with false by lia. reflexivity. Qed.
Lemma cx_setcy v a : cx (set_gint CY v a) = cx a.
Proof. apply gint_ext. intros x Hx. rewrite set_gint_hmem. unfold G_CX, G_CY in *. replace ((GM + 2097156 <=? x) && (x <? GM + 2097156 + 4)) with false by lia. reflexivity. Qed.
Lemma cy_setcx v a : cy (set_gint CX v a) = cy a.
Proof. apply gint_ext. intros x Hx. rewrite set_gint_hmem. unfold G_CX, G_CY in *. replace ((GM + 2097152 <=? x) && (x <? GM + 2097152 + 4)) with false by lia. reflexivity. Qed.
Lemma om_setcx v a : only_memory (cursor GM) a (set_gint CX v a).
Proof. apply om_hmem. intros x Hx. rewrite store4_at. unfold cursor, G_CX in *. replace ((GM + 2097152 <=? x) && (x <? GM + 2097152 + 4)) with false by lia. reflexivity. Qed.
Lemma om_setcy v a : only_memory (cursor GM) a (set_gint CY v a).
Proof. apply om_hmem. intros x Hx. rewrite store4_at. unfold cursor, G_CY in *. replace ((GM + 2097156 <=? x) && (x <? GM + 2097156 + 4)) with false by lia. reflexivity. Qed.
Lemma cell_ok a : cursor_ok a -> cell GM a = cell_at (cx a) (cy a) /\ SCREEN <= cell GM a /\ cell GM a + 1 < SCREEN + 4000.
Proof. unfold cursor_ok, on_screen, cell, cell_at, SCREEN. lia. Qed.
Lemma om_put2 a c t : cursor_ok a -> only_memory screen a (put2 (cell GM a) c t a).
Proof.
  intros H. destruct (cell_ok a H) as (_ & H1 & H2). apply om_hmem. intros x Hx. unfold screen, SCREEN in *. rewrite !hput_at.
  replace (x =? GM + (cell GM a + 1)) with false by lia. replace (x =? GM + cell GM a) with false by lia. reflexivity.
Qed.
Lemma screen_in x : screen x -> screen_or_cursor x. Proof. left. exact H. Qed.
Lemma cursor_in x : cursor GM x -> screen_or_cursor x. Proof. right. exact H. Qed.

(** What a character does, when the cursor is on the screen. *)
Lemma put_char_ok c t a : cursor_ok a -> exists a', put_char GM c t a = NRet a' /\ cursor_ok a' /\ only_memory screen_or_cursor a a' /\
  (c = 10 \/ c = 13 \/ c = 8 -> only_memory (cursor GM) a a') /\
  (c <> 10 -> c <> 13 -> c <> 8 -> forall x, ~ cursor GM x -> hmem a' x = hmem (put2 (cell_at (cx a) (cy a)) c t a) x) /\
  cx a' = (if c =? 10 then cx a else if c =? 13 then 0 else if c =? 8 then Z.max 0 (cx a - 1) else if cx a =? 79 then 0 else cx a + 1) /\
  cy a' = (if c =? 10 then (if cy a =? 24 then 0 else cy a + 1) else if (c =? 13) || (c =? 8) then cy a else if (cx a =? 79) && negb (cy a =? 24) then cy a + 1 else cy a).
Proof.
  intros H. pose proof H as [Hx Hy]. destruct (cell_ok a H) as (E & C1 & C2). unfold put_char.
  destruct (Z.eqb_spec c 10) as [->|N10].
  { replace (cy a =? 2147483647) with false by lia. eexists. split; [reflexivity|].
    assert (V : cy (set_gint CY (if cy a + 1 =? 25 then 0 else cy a + 1) a) = if cy a =? 24 then 0 else cy a + 1).
    { rewrite gint_small by (destruct (cy a + 1 =? 25); lia). replace (cy a + 1 =? 25) with (cy a =? 24) by lia. reflexivity. }
    split; [unfold cursor_ok, on_screen; rewrite cx_setcy, V; destruct (Z.eqb_spec (cy a) 24); lia|].
    pose proof (om_setcy (if cy a + 1 =? 25 then 0 else cy a + 1) a) as O. split; [eapply om_weaken; [apply cursor_in|exact O]|].
    split; [intros _; exact O|]. split; [lia|]. rewrite cx_setcy. split; [reflexivity|]. exact V. }
  destruct (Z.eqb_spec c 13) as [->|N13].
  { eexists. split; [reflexivity|]. pose proof (om_setcx 0 a) as O.
    assert (V : cx (set_gint CX 0 a) = 0) by (apply gint_small; lia).
    split; [unfold cursor_ok, on_screen; rewrite cy_setcx, V; lia|]. split; [eapply om_weaken; [apply cursor_in|exact O]|].
    split; [intros _; exact O|]. split; [lia|]. split; [exact V|]. apply cy_setcx. }
  destruct (Z.eqb_spec c 8) as [->|N8].
  { eexists. split; [reflexivity|]. cbn [orb Z.eqb Pos.eqb].
    assert (O : only_memory (cursor GM) a (if 0 <? cx a then set_gint CX (cx a - 1) a else a)) by (destruct (0 <? cx a); [apply om_setcx|apply om_refl]).
    assert (V : cx (if 0 <? cx a then set_gint CX (cx a - 1) a else a) = Z.max 0 (cx a - 1)).
    { destruct (Z.ltb_spec 0 (cx a)); [rewrite gint_small by lia; lia|lia]. }
    assert (W : cy (if 0 <? cx a then set_gint CX (cx a - 1) a else a) = cy a) by (destruct (0 <? cx a); [apply cy_setcx|reflexivity]).
    split; [unfold cursor_ok, on_screen; rewrite V, W; lia|]. split; [eapply om_weaken; [apply cursor_in|exact O]|].
    split; [intros _; exact O|]. split; [lia|]. split; [exact V|exact W]. }
  rewrite put_cell_eq by (unfold SCREEN in *; lia). set (a1 := put2 (cell GM a) c t a).
  assert (X1 : cx a1 = cx a) by (apply put2_int; unfold SCREEN, G_CX in *; lia). assert (Y1 : cy a1 = cy a) by (apply put2_int; unfold SCREEN, G_CY in *; lia).
  assert (O1 : only_memory screen_or_cursor a a1) by (eapply om_weaken; [apply screen_in|apply om_put2; exact H]).
  replace (cx a + 1 =? 80) with (cx a =? 79) by lia. cbn [orb]. destruct (Z.eqb_spec (cx a) 79) as [Ex|Ex].
  - eexists. split; [reflexivity|]. set (yv := if cy a + 1 =? 25 then cy a + 1 - 1 else cy a + 1).
    assert (Vx : cx (set_gint CY yv (set_gint CX 0 a1)) = 0) by (rewrite cx_setcy; apply gint_small; lia).
    assert (Vy : cy (set_gint CY yv (set_gint CX 0 a1)) = if negb (cy a =? 24) then cy a + 1 else cy a).
    { rewrite gint_small by (unfold yv; destruct (cy a + 1 =? 25); lia). unfold yv. destruct (Z.eqb_spec (cy a + 1) 25), (Z.eqb_spec (cy a) 24); cbn [negb]; lia. }
    split; [unfold cursor_ok, on_screen; rewrite Vx, Vy; destruct (Z.eqb_spec (cy a) 24); cbn [negb]; lia|].
    assert (O2 : only_memory (cursor GM) a1 (set_gint CY yv (set_gint CX 0 a1))) by (eapply om_trans; [apply om_setcx|apply om_setcy]).
    split; [eapply om_trans; [exact O1|eapply om_weaken; [apply cursor_in|exact O2]]|]. split; [lia|].
    split; [intros _ _ _ x Hn; rewrite (proj2 O2 x Hn); unfold a1; rewrite E; reflexivity|]. split; [exact Vx|exact Vy].
  - eexists. split; [reflexivity|].
    assert (Vx : cx (set_gint CX (cx a + 1) a1) = cx a + 1) by (apply gint_small; lia).
    assert (Vy : cy (set_gint CX (cx a + 1) a1) = cy a) by (rewrite cy_setcx; exact Y1).
    split; [unfold cursor_ok, on_screen; rewrite Vx, Vy; lia|]. pose proof (om_setcx (cx a + 1) a1) as O2.
    split; [eapply om_trans; [exact O1|eapply om_weaken; [apply cursor_in|exact O2]]|]. split; [lia|].
    split; [intros _ _ _ x Hn; rewrite (proj2 O2 x Hn); unfold a1; rewrite E; reflexivity|]. split; [exact Vx|exact Vy].
Qed.
Theorem put_string_ok s t : forall a, cursor_ok a -> exists a', put_string GM s t a = NRet a' /\ cursor_ok a' /\ only_memory screen_or_cursor a a'.
Proof.
  induction s as [|c s IH]; intros a H; cbn [put_string]; [exists a; split; [reflexivity|]; split; [exact H|apply om_refl]|].
  destruct (put_char_ok c t a H) as (a1 & -> & H1 & O1 & _). destruct (IH a1 H1) as (a2 & E2 & H2 & O2). exists a2. split; [exact E2|]. split; [exact H2|]. eapply om_trans; eauto.
Qed.
(** The relation to an abstract terminal. *)
Lemma cell_inj x y x' y' : on_screen x y -> on_screen x' y' -> cell_at x y = cell_at x' y' -> x = x' /\ y = y'.
Proof. unfold on_screen, cell_at. lia. Qed.
Lemma cell_range x y : on_screen x y -> SCREEN <= cell_at x y /\ cell_at x y + 1 < SCREEN + 4000.
Proof. unfold on_screen, cell_at, SCREEN. lia. Qed.
Lemma cell_even x y : cell_at x y mod 2 = 0. Proof. unfold cell_at, SCREEN. lia. Qed.
Lemma cell_parity x y x' y' : cell_at x y <> cell_at x' y' + 1. Proof. pose proof (cell_even x y). pose proof (cell_even x' y'). lia. Qed.
Lemma scr_ext a a' f : (forall x, ~ cursor GM x -> hmem a' x = hmem a x) -> scr_is a f -> scr_is a' f.
Proof.
  intros H S x y Hs. destruct (S x y Hs) as [A B]. pose proof (cell_range x y Hs). unfold cursor, SCREEN in *. rewrite !H by lia. auto.
Qed.
Lemma scr_draw a a' f c t x0 y0 : 0 <= c < 256 -> 0 <= t < 256 -> on_screen x0 y0 ->
  (forall x, ~ cursor GM x -> hmem a' x = hmem (put2 (cell_at x0 y0) c t a) x) -> scr_is a f ->
  scr_is a' (fun x y => if (x =? x0) && (y =? y0) then (c, t) else f x y).
Proof.
  intros Hc Ht H0 H S x y Hs. pose proof (cell_range x y Hs) as R. destruct (S x y Hs) as [A B].
  rewrite !H by (unfold cursor, SCREEN in *; lia). rewrite !put2_hmem. pose proof (cell_parity x y x0 y0). pose proof (cell_parity x0 y0 x y).
  destruct (Z.eqb_spec x x0) as [->|Nx]; [destruct (Z.eqb_spec y y0) as [->|Ny]|]; cbn [andb fst snd].
  - replace (GM + cell_at x0 y0 =? GM + (cell_at x0 y0 + 1)) with false by lia. rewrite !Z.eqb_refl. rewrite !wrap_small by (unfold inrange; lia). auto.
  - assert (cell_at x0 y <> cell_at x0 y0) by (intros K; apply cell_inj in K; [lia|assumption|assumption]).
    replace (GM + cell_at x0 y =? GM + (cell_at x0 y0 + 1)) with false by lia. replace (GM + cell_at x0 y =? GM + cell_at x0 y0) with false by lia.
    replace (GM + (cell_at x0 y + 1) =? GM + (cell_at x0 y0 + 1)) with false by lia. replace (GM + (cell_at x0 y + 1) =? GM + cell_at x0 y0) with false by lia. auto.
  - assert (cell_at x y <> cell_at x0 y0) by (intros K; apply cell_inj in K; [lia|assumption|assumption]).
    replace (GM + cell_at x y =? GM + (cell_at x0 y0 + 1)) with false by lia. replace (GM + cell_at x y =? GM + cell_at x0 y0) with false by lia.
    replace (GM + (cell_at x y + 1) =? GM + (cell_at x0 y0 + 1)) with false by lia. replace (GM + (cell_at x y + 1) =? GM + cell_at x0 y0) with false by lia. auto.
Qed.
Theorem teletype_ok c t a T : 0 <= c < 256 -> 0 <= t < 256 -> on_screen (tx T) (ty T) -> shows a T -> needs_scroll c T = false ->
  exists a', put_char GM c t a = NRet a' /\ shows a' (teletype c t T) /\ on_screen (tx (teletype c t T)) (ty (teletype c t T)) /\ only_memory screen_or_cursor a a'.
Proof.
  intros Hc Ht Ho (Sx & Sy & Ss) Hn. destruct (put_char_ok c t a) as (a' & E & K & O & Om & Op & Vx & Vy); [unfold cursor_ok; rewrite Sx, Sy; exact Ho|].
  exists a'. split; [exact E|]. unfold teletype, needs_scroll, down in *. rewrite Sx, Sy in *. unfold cursor_ok in K.
  destruct (Z.eqb_spec c 10) as [->|N10].
  { cbn [orb] in Hn. rewrite andb_true_r in Hn. rewrite Hn in *. cbn [tx ty scr]. split; [|split; [|exact O]].
    - split; [exact Vx|]. split; [exact Vy|]. eapply scr_ext; [|exact Ss]. intros x Hx. apply (proj2 (Om (or_introl eq_refl)) x Hx).
    - unfold on_screen in *. lia. }
  destruct (Z.eqb_spec c 13) as [->|N13].
  { cbn [orb tx ty scr] in *. split; [|split; [|exact O]].
    - split; [exact Vx|]. split; [exact Vy|]. eapply scr_ext; [|exact Ss]. intros x Hx. apply (proj2 (Om ltac:(auto)) x Hx).
    - unfold on_screen in *. lia. }
  destruct (Z.eqb_spec c 8) as [->|N8].
  { cbn [orb tx ty scr] in *. split; [|split; [|exact O]].
    - split; [exact Vx|]. split; [exact Vy|]. eapply scr_ext; [|exact Ss]. intros x Hx. apply (proj2 (Om ltac:(auto)) x Hx).
    - unfold on_screen in *. lia. }
  specialize (Op N10 N13 N8). pose proof (scr_draw a a' (scr T) c t (tx T) (ty T) Hc Ht Ho Op Ss) as D.
  cbn [orb negb] in Hn. rewrite !andb_true_r in Hn. cbn [orb] in Vy.
  destruct (Z.eqb_spec (tx T) 79) as [E79|N79]; cbn [draw scr tx ty].
  - rewrite andb_true_r in Hn. rewrite Hn in *. cbn [negb andb] in Vy. cbn [tx ty scr]. split; [|split; [|exact O]].
    + split; [exact Vx|]. split; [exact Vy|exact D].
    + unfold on_screen in *. lia.
  - cbn [andb] in Vy. split; [|split; [|exact O]].
    + split; [exact Vx|]. split; [exact Vy|exact D].
    + unfold on_screen in *. lia.
Qed.
(** Starting past the right edge (AH=02 does not check): the cursor never comes back and output
    eventually leaves gaMemory. *)
Lemma past_edge n : forall c t a, plain c -> 80 <= cx a -> cy a = 0 -> cx a + Z.of_nat n = 180224 ->
  exists a', put_string GM (repeat c n) t a = NRet a' /\ cx a' = 180224 /\ cy a' = 0.
Proof.
  induction n as [|n IH]; intros c t a Hc Hx Hy Hn; cbn [repeat put_string]; [exists a; split; [reflexivity|]; lia|].
  destruct Hc as (N1 & N2 & N3). unfold put_char. replace (c =? 10) with false by lia. replace (c =? 13) with false by lia. replace (c =? 8) with false by lia.
  assert (cell GM a = 753664 + 2 * cx a) as Ec by (unfold cell; rewrite Hy; lia).
  rewrite put_cell_eq by lia. replace (cx a + 1 =? 80) with false by lia. set (a1 := put2 _ c t a).
  assert (X1 : cx (set_gint CX (cx a + 1) a1) = cx a + 1) by (apply gint_small; lia).
  assert (Y1 : cy (set_gint CX (cx a + 1) a1) = 0) by (rewrite cy_setcx; unfold a1; rewrite put2_int by (unfold G_CY; lia); exact Hy).
  apply IH; [repeat split; assumption|lia|exact Y1|lia].
Qed.
Lemma put_string_app s1 s2 t : forall a a', put_string GM s1 t a = NRet a' -> put_string GM (s1 ++ s2) t a = put_string GM s2 t a'.
Proof. induction s1 as [|c s1 IH]; intros a a' H; cbn [app put_string] in *; [injection H as ->; reflexivity|]. destruct (put_char GM c t a); try discriminate. apply IH, H. Qed.
Theorem past_edge_ub c t a : plain c -> cx a = 80 -> cy a = 0 -> put_string GM (repeat c (Z.to_nat 180145)) t a = NUB.
Proof.
  intros Hc Hx Hy. destruct (past_edge (Z.to_nat 180144) c t a Hc ltac:(lia) Hy ltac:(lia)) as (a' & E & X & Y).
  replace (Z.to_nat 180145) with (Z.to_nat 180144 + 1)%nat by lia. rewrite repeat_app. rewrite (put_string_app _ _ _ _ _ E). cbn [repeat put_string].
  destruct Hc as (N1 & N2 & N3). unfold put_char. replace (c =? 10) with false by lia. replace (c =? 13) with false by lia. replace (c =? 8) with false by lia.
  unfold put_cell. rewrite gput_none; [reflexivity|]. unfold cell. rewrite X, Y. lia.
Qed.
End Native.
