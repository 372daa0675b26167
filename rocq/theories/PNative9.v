(** Proofs: the memory comparison tools. *)
From Verif Require Import Base Native2 SpecNative2.

(** ** cmpmembin *)
Lemma cmpbin_ok n : forall i tpl have failed, 0 <= i -> i + Z.of_nat n = fst have ->
  cmpbin n i tpl have failed = true <-> failed = true \/ exists k, i <= k < fst have /\ k < fst tpl /\ snd tpl k <> snd have k.
Proof.
  induction n as [|n IH]; intros i tpl have failed Hi Hn; cbn [cmpbin].
  - split; [auto|]. intros [|(k & Hk & _)]; [assumption|lia].
  - destruct (Z.leb_spec (fst tpl) i).
    + split; [auto|]. intros [|(k & Hk & Hk2 & _)]; [assumption|lia].
    + rewrite IH by lia. rewrite orb_true_iff, negb_true_iff, Z.eqb_neq. split.
      * intros [[|]|(k & Hk & K)]; [auto|right; exists i; split; [lia|auto]|right; exists k; split; [lia|auto]].
      * intros [|(k & Hk & Hk2 & K)]; [auto|]. destruct (Z.eq_dec k i) as [->|]; [auto|]. right. exists k. split; [lia|auto].
Qed.
Theorem cmpmembin_ok tpl have : 0 <= fst have -> cmpmembin tpl have = true <-> exists k, 0 <= k < fst have /\ k < fst tpl /\ snd tpl k <> snd have k.
Proof. intros H. unfold cmpmembin. rewrite cmpbin_ok by lia. split; [intros [|]; [discriminate|assumption]|auto]. Qed.

(** ** Characters *)
Lemma isspace_ok c : isspace c = true <-> blank_char c.
Proof. unfold isspace, blank_char. lia. Qed.
Lemma xdigit_ok c v : hex_digit c v -> xdigit c = Some v.
Proof.
  unfold hex_digit, xdigit. intros [[H ->]|[[H ->]|[H ->]]].
  - replace ((48 <=? c) && (c <=? 57)) with true by lia. reflexivity.
  - replace ((48 <=? c) && (c <=? 57)) with false by lia. replace ((65 <=? c) && (c <=? 70)) with true by lia. f_equal. lia.
  - replace ((48 <=? c) && (c <=? 57)) with false by lia. replace ((65 <=? c) && (c <=? 70)) with false by lia. replace ((97 <=? c) && (c <=? 102)) with true by lia. f_equal. lia.
Qed.
Lemma hex_range c v : hex_digit c v -> 0 <= v < 16 /\ isspace c = false /\ c <> 88 /\ c <> 120 /\ c <> 45 /\ c <> 43 /\ c <> 10.
Proof. unfold hex_digit, isspace. lia. Qed.
Lemma blank_xdigit c : blank_char c -> xdigit c = None.
Proof.
  unfold blank_char, xdigit. intros H. replace ((48 <=? c) && (c <=? 57)) with false by lia. replace ((65 <=? c) && (c <=? 70)) with false by lia.
  replace ((97 <=? c) && (c <=? 102)) with false by lia. reflexivity.
Qed.
Lemma skip_blank w r : Forall blank_char w -> skip_space (w ++ r) = skip_space r.
Proof. induction 1 as [|c w Hc _ IH]; [reflexivity|]. cbn [app skip_space]. apply isspace_ok in Hc. rewrite Hc. exact IH. Qed.
Lemma skip_all w : Forall blank_char w -> skip_space w = [].
Proof. intros H. rewrite <- (app_nil_r w), skip_blank by exact H. reflexivity. Qed.
Lemma item_head o s : item o s -> exists a b, s = [a; b] /\ isspace a = false.
Proof. intros [|a b x y Ha Hb]; [exists 88, 88; auto|]. exists a, b. split; [reflexivity|]. apply hex_range in Ha. tauto. Qed.
Lemma skip_item o s r : item o s -> skip_space (s ++ r) = s ++ r.
Proof. intros H. destruct (item_head o s H) as (a & b & -> & E). cbn [app skip_space]. rewrite E. reflexivity. Qed.

(** ** cmpmem *)
Lemma differ_cons o l h have : differ (o :: l) (h :: have) <-> (exists b, o = Some b /\ b <> h) \/ differ l have.
Proof.
  split.
  - intros ([|i] & b & x & H1 & H2 & H3); cbn [nth_error] in *; [left; exists b; split; congruence|right; exists i, b, x; auto].
  - intros [(b & -> & H)|(i & b & x & H)]; [exists 0%nat, b, h; auto|exists (S i), b, x; auto].
Qed.
Lemma cmptext_step b have w o s r failed : Forall blank_char w -> item o s ->
  cmptext (b :: have) (w ++ s ++ r) failed = cmptext have r (failed || match o with Some v => negb (v =? b) | None => false end).
Proof.
  intros Hw Hs. cbn [cmptext]. rewrite skip_blank, (skip_item o) by assumption. destruct Hs as [|c d x y Hc Hd].
  - cbn [app Z.eqb Pos.eqb tl]. rewrite orb_false_r. reflexivity.
  - pose proof (hex_range _ _ Hc) as (_ & _ & N & _). pose proof (hex_range _ _ Hd) as (_ & _ & N1 & N2 & _). cbn [app]. replace (c =? 88) with false by lia. unfold scan2x. rewrite (xdigit_ok _ _ Hc).
    replace ((c =? 48) && ((d =? 88) || (d =? 120))) with false by lia. rewrite (xdigit_ok _ _ Hd). reflexivity.
Qed.
Lemma bad_or failed o b : (failed || match o with Some v => negb (v =? b) | None => false end) = true <-> failed = true \/ exists v, o = Some v /\ v <> b.
Proof.
  rewrite orb_true_iff. destruct o as [v|].
  - rewrite negb_true_iff, Z.eqb_neq. split; (intros [|K]; [auto|right]); [exists v; auto|]. destruct K as (v' & [= <-] & K). exact K.
  - split; (intros [|K]; [auto|]); [discriminate|]. destruct K as (v' & K & _). discriminate.
Qed.
Lemma cmptext_end have t failed : Forall blank_char t -> cmptext have t failed = Some failed.
Proof. intros H. destruct have; [reflexivity|]. cbn [cmptext]. rewrite skip_all by exact H. reflexivity. Qed.
Lemma cmptext_more have : forall l t failed, items_more 0 l t -> exists b, cmptext have t failed = Some b /\ (b = true <-> failed = true \/ differ l have).
Proof.
  induction have as [|h have IH]; intros l t failed H.
  - exists failed. split; [reflexivity|]. split; [auto|]. intros [|(i & b & x & _ & K & _)]; [assumption|]. destruct i; discriminate.
  - destruct H as [t Ht|w o s l r Hw _ Hs Hr].
    + exists failed. rewrite cmptext_end by exact Ht. split; [reflexivity|]. split; [auto|]. intros [|(i & b & x & K & _)]; [assumption|]. destruct i; discriminate.
    + rewrite (cmptext_step h have w o s r) by assumption. destruct (IH l r (failed || match o with Some v => negb (v =? h) | None => false end) Hr) as (b & E & K).
      exists b. split; [exact E|]. rewrite K, bad_or, differ_cons. tauto.
Qed.
Theorem cmpmem_ok l t have : items 0 l t -> exists b, cmpmem t have = Some b /\ (b = true <-> differ l have).
Proof.
  intros H. assert (M : items_more 0 l t). { destruct H as [t Ht|w o s l r Hw Hs Hr]; [constructor; exact Ht|]. apply more_cons; try assumption. lia. }
  destruct (cmptext_more have l t false M) as (b & E & K). exists b. split; [exact E|]. rewrite K. split; [intros [|]; [discriminate|assumption]|auto].
Qed.

(** ** cmpmemhex *)
(** Items, padded with "any". *)
Definition pad (n : nat) (l : list (option Z)) : list (option Z) := l ++ repeat None (n - length l).
Lemma hex_end n t : Forall blank_char t -> hex_items n t = Some (repeat None n).
Proof.
  intros H. assert (K : forall m, hex_items m [] = Some (repeat None m)) by (induction m; [reflexivity|]; cbn [hex_items skip_space]; rewrite IHm; reflexivity).
  destruct n; [reflexivity|]. cbn [hex_items]. rewrite skip_all by exact H. rewrite K. reflexivity.
Qed.
Lemma strtol_pair a b x y r : hex_digit a x -> hex_digit b y -> match r with [] => True | c :: _ => blank_char c end -> strtol16 0 (a :: b :: r) = 16 * x + y.
Proof.
  intros Ha Hb Hr. cbn [strtol16]. rewrite (xdigit_ok _ _ Ha), (xdigit_ok _ _ Hb). replace (16 * (16 * 0 + x) + y) with (16 * x + y) by lia.
  destruct r as [|c r]; [reflexivity|]. cbn [strtol16]. rewrite blank_xdigit by exact Hr. reflexivity.
Qed.
Lemma more_head l r : items_more 1 l r -> match r with [] => True | c :: _ => blank_char c end.
Proof.
  intros [t Ht|w o s l' r' Hw Hg Hs Hr]; [destruct Ht; auto|]. destruct Hw as [|c w Hc _]; [cbn in Hg; lia|]. exact Hc.
Qed.
Lemma hex_step n w o s l r : Forall blank_char w -> item o s -> items_more 1 l r ->
  hex_items (S n) (w ++ s ++ r) = match hex_items n r with Some k => Some (o :: k) | None => None end.
Proof.
  intros Hw Hs Hr. cbn [hex_items]. rewrite skip_blank, (skip_item o) by assumption. destruct Hs as [|c d x y Hc Hd].
  - reflexivity.
  - pose proof (hex_range _ _ Hc) as (Rx & _ & N & _ & N3 & N4 & _). pose proof (hex_range _ _ Hd) as (Ry & _ & N1 & N2 & _). cbn [app]. replace (c =? 88) with false by lia.
    replace ((c =? 45) || (c =? 43) || ((c =? 48) && ((d =? 88) || (d =? 120)))) with false by lia.
    rewrite (strtol_pair c d x y r Hc Hd (more_head l r Hr)). unfold wrap. change (2 ^ 8) with 256. rewrite Z.mod_small by lia. reflexivity.
Qed.
Lemma hex_more n : forall l r, items_more 1 l r -> (length l <= n)%nat -> hex_items n r = Some (pad n l).
Proof.
  induction n as [|n IH]; intros l r H Hl.
  - destruct l; [reflexivity|cbn in Hl; lia].
  - destruct H as [t Ht|w o s l r Hw Hg Hs Hr].
    + rewrite hex_end by exact Ht. reflexivity.
    + rewrite (hex_step n w o s l r) by assumption. cbn in Hl. rewrite (IH l r Hr) by lia. reflexivity.
Qed.
Lemma hex_items_ok n l t : items 1 l t -> (length l <= n)%nat -> hex_items n t = Some (pad n l).
Proof.
  intros [t' Ht|w o s l' r Hw Hs Hr] Hl; [rewrite hex_end by exact Ht; unfold pad; cbn [app length]; rewrite Nat.sub_0_r; reflexivity|].
  destruct n; [cbn in Hl; lia|]. rewrite (hex_step n w o s l' r) by assumption. cbn in Hl. rewrite (hex_more n l' r) by (try assumption; lia). reflexivity.
Qed.
Lemma hexline_ok l t : hexline l t -> hex_line t = LItems (pad 16 l).
Proof.
  intros [l' d1 d2 v1 v2 h t' H1 H2 Hh Hi _ Hl _]. unfold hex_line. cbn [Z.eqb Pos.eqb negb hd].
  replace (d1 =? 32) with false by (unfold hex_digit in H1; lia). cbn [orb]. rewrite (xdigit_ok _ _ H1), (xdigit_ok _ _ H2).
  destruct Hh as [-> | ->]; cbn [app hd tl Z.eqb Pos.eqb]; rewrite (hex_items_ok 16 l') by assumption; reflexivity.
Qed.
Lemma mismatch_ok have l : forall pos, mismatch l pos have = true <-> exists i b, nth_error l i = Some (Some b) /\ fgetc have (pos + Z.of_nat i) <> b.
Proof.
  induction l as [|o l IH]; intros pos; cbn [mismatch].
  - split; [discriminate|]. intros ([|i] & b & K & _); discriminate.
  - rewrite orb_true_iff, IH. split.
    + intros [H|(i & b & H1 & H2)].
      * destruct o as [b|]; [|discriminate]. exists 0%nat, b. split; [reflexivity|]. replace (pos + Z.of_nat 0) with pos by lia. apply negb_true_iff, Z.eqb_neq in H. exact H.
      * exists (S i), b. split; [exact H1|]. replace (pos + Z.of_nat (S i)) with (pos + 1 + Z.of_nat i) by lia. exact H2.
    + intros ([|i] & b & H1 & H2); cbn [nth_error] in H1.
      * left. injection H1 as ->. replace (pos + Z.of_nat 0) with pos in H2 by lia. apply negb_true_iff, Z.eqb_neq. exact H2.
      * right. exists i, b. split; [exact H1|]. replace (pos + 1 + Z.of_nat i) with (pos + Z.of_nat (S i)) by lia. exact H2.
Qed.
Lemma pad_nth n l i b : nth_error (pad n l) i = Some (Some b) <-> nth_error l i = Some (Some b).
Proof.
  unfold pad. split; intros H.
  - destruct (Nat.lt_ge_cases i (length l)) as [K|K]; [rewrite nth_error_app1 in H by exact K; exact H|]. rewrite nth_error_app2 in H by exact K. apply nth_error_In, repeat_spec in H. discriminate.
  - assert (K : (i < length l)%nat) by (apply nth_error_Some; congruence). rewrite nth_error_app1 by exact K. exact H.
Qed.
(** Lines. *)
Lemma fgets_line t : forall n r, ~ In 10 t -> (length t < n)%nat -> fgets n (t ++ 10 :: r) = (t ++ [10], r).
Proof.
  induction t as [|c t IH]; intros n r H Hn; (destruct n; [cbn in Hn; lia|]); cbn [fgets app].
  - reflexivity.
  - assert (c <> 10) by (intros ->; apply H; left; reflexivity). replace (c =? 10) with false by lia. rewrite IH; [reflexivity| |cbn in Hn; lia]. intros K. apply H. right. exact K.
Qed.
Lemma hexline_fgets l t r : hexline l t -> fgets 510 (t ++ r) = (t, r) /\ exists c t', t = c :: t'.
Proof.
  intros [l' d1 d2 v1 v2 h t' H1 H2 Hh Hi Hn _ Hl]. split; [|eauto].
  replace ((59 :: d1 :: d2 :: h ++ 58 :: t' ++ [10]) ++ r) with ((59 :: d1 :: d2 :: h ++ 58 :: t') ++ 10 :: r).
  2:{ cbn [app]. do 3 f_equal. rewrite <- !app_assoc. f_equal. cbn [app]. f_equal. rewrite <- app_assoc. reflexivity. }
  rewrite fgets_line.
  - f_equal. cbn [app]. do 3 f_equal. rewrite <- app_assoc. reflexivity.
  - apply hex_range in H1, H2. intros [K|[K|[K|K]]]; [lia|lia|lia|]. apply in_app_or in K. destruct K as [K|[K|K]]; [destruct Hh as [-> | ->]; [destruct K|destruct K as [K|[]]; lia]|lia|tauto].
  - cbn [length]. rewrite app_length. cbn [length]. lia.
Qed.
Lemma fgets_head n c t : exists t' r, fgets (S n) (c :: t) = (c :: t', r) /\ (n <> 0%nat -> c <> 10 -> hd 0 t' = hd 0 t).
Proof.
  cbn [fgets]. destruct (Z.eqb_spec c 10) as [->|N]; [exists [], t; split; [reflexivity|tauto]|]. destruct (fgets n t) as [a b] eqn:E. exists a, b. split; [reflexivity|].
  intros Hn _. destruct n; [tauto|]. destruct t as [|d t]; cbn [fgets] in E; [injection E as <- <-; reflexivity|]. destruct (d =? 10); [injection E as <- <-; reflexivity|]. destruct (fgets n t). injection E as <- <-. reflexivity.
Qed.
Lemma rest_stop k rest have pos failed : not_template rest -> cmplines (split_lines k rest) pos have failed = Some failed.
Proof.
  intros H. destruct k; [reflexivity|]. destruct rest as [|c t]; [reflexivity|]. cbn [split_lines]. destruct (fgets_head 509 c t) as (t' & r & E & K). rewrite E. cbn [cmplines hex_line].
  cbn [not_template] in H. assert (negb (c =? 59) || (hd 0 t' =? 32) = true) as ->; [|reflexivity].
  destruct H as [H|H]; [replace (c =? 59) with false by lia; reflexivity|]. destruct (Z.eq_dec c 59) as [->|N]; [|replace (c =? 59) with false by lia; reflexivity].
  rewrite K by lia. rewrite H. reflexivity.
Qed.
Lemma cmplines_ok have rest : not_template rest -> forall ls ts, Forall2 hexline ls ts -> forall k pos failed, (length (concat ts ++ rest) <= k)%nat ->
  exists b, cmplines (split_lines k (concat ts ++ rest)) pos have failed = Some b /\
    (b = true <-> failed = true \/ exists j i l v, nth_error ls j = Some l /\ nth_error l i = Some (Some v) /\ fgetc have (pos + 16 * Z.of_nat j + Z.of_nat i) <> v).
Proof.
  intros Hr ls ts H. induction H as [|l t ls ts Hl H IH]; intros k pos failed Hk.
  - exists failed. rewrite rest_stop by exact Hr. split; [reflexivity|]. split; [auto|]. intros [|([|j] & i & l & v & K & _)]; [assumption|discriminate|discriminate].
  - cbn [concat] in *. rewrite <- app_assoc in *. destruct (hexline_fgets l t (concat ts ++ rest) Hl) as (E & c & t' & Et). rewrite app_length in Hk.
    destruct k; [rewrite Et in Hk; cbn in Hk; lia|]. cbn [split_lines]. 
    assert (split : exists x y, t ++ concat ts ++ rest = x :: y) by (rewrite Et; cbn [app]; eauto). destruct split as (x & y & Ex). rewrite Ex, <- Ex, E. cbn [cmplines].
    rewrite (hexline_ok l t Hl). destruct (IH k (pos + 16) (failed || mismatch (pad 16 l) pos have)) as (b & Eb & K).
    { rewrite Et in Hk. cbn [length] in Hk. lia. }
    exists b. split; [exact Eb|]. rewrite K, orb_true_iff, mismatch_ok. split.
    + intros [[|(i & v & H1 & H2)]|(j & i & l' & v & H1 & H2 & H3)]; [auto| |].
      * right. exists 0%nat, i, l, v. split; [reflexivity|]. split; [apply (pad_nth 16), H1|]. replace (pos + 16 * Z.of_nat 0 + Z.of_nat i) with (pos + Z.of_nat i) by lia. exact H2.
      * right. exists (S j), i, l', v. split; [exact H1|]. split; [exact H2|]. replace (pos + 16 * Z.of_nat (S j)) with (pos + 16 + 16 * Z.of_nat j) by lia. exact H3.
    + intros [|([|j] & i & l' & v & H1 & H2 & H3)]; [auto| |].
      * left. right. injection H1 as <-. exists i, v. split; [apply pad_nth, H2|]. replace (pos + 16 * Z.of_nat 0 + Z.of_nat i) with (pos + Z.of_nat i) in H3 by lia. exact H3.
      * right. exists j, i, l', v. split; [exact H1|]. split; [exact H2|]. replace (pos + 16 + 16 * Z.of_nat j) with (pos + 16 * Z.of_nat (S j)) by lia. exact H3.
Qed.
Theorem cmpmemhex_ok have rest ls ts : not_template rest -> Forall2 hexline ls ts ->
  exists b, cmpmemhex (concat ts ++ rest) have = Some b /\
    (b = true <-> exists j i l v, nth_error ls j = Some l /\ nth_error l i = Some (Some v) /\ fgetc have (16 * Z.of_nat j + Z.of_nat i) <> v).
Proof.
  intros Hr H. destruct (cmplines_ok have rest Hr ls ts H (length (concat ts ++ rest)) 0 false (le_n _)) as (b & E & K). exists b. split; [exact E|]. rewrite K. split; [intros [|]; [discriminate|assumption]|auto].
Qed.
