(** mini_test's command line; decimal numbers. *)
From Coq Require Import String Ascii.
From Verif Require Import Base Machine Native Native2 Native3 Spec SpecNative3 PBase PArgs.
Local Open Scope Z_scope.

Definition mtake (s : msettings) (c : choice) : msettings :=
  match c with
  | Disk n => mkMs (m_level s) (Some n) (m_dump s) (m_cpu s) | DumpTo n => mkMs (m_level s) (m_bin s) (Some n) (m_cpu s)
  | CpuIs n => mkMs (m_level s) (m_bin s) (m_dump s) (Some n) | LevelIs t => mkMs (to_int (strtol10 t)) (m_bin s) (m_dump s) (m_cpu s)
  | _ => s
  end.
Lemma mtaken cs : forall s, let s' := fold_left mtake cs s in
  m_bin s' = or_else (latest (disks cs)) (m_bin s) /\ m_dump s' = or_else (latest (dumps cs)) (m_dump s) /\
  m_cpu s' = or_else (latest (cpus cs)) (m_cpu s) /\
  m_level s' = match latest (levels cs) with Some t => to_int (strtol10 t) | None => m_level s end.
Proof.
  induction cs as [|c cs IH]; intros s; cbv zeta.
  - cbn [fold_left]. split; [reflexivity|]. split; [reflexivity|]. split; reflexivity.
  - cbn [fold_left]. specialize (IH (mtake s c)). cbv zeta in IH. destruct IH as (I1 & I2 & I3 & I4). rewrite I1, I2, I3, I4.
    unfold disks, dumps, cpus, levels. cbn [flat_map]. fold (disks cs) (dumps cs) (cpus cs) (levels cs).
    split; [|split; [|split]].
    + destruct c; cbn [mtake m_bin app]; try reflexivity. rewrite latest_cons. destruct (latest (disks cs)); reflexivity.
    + destruct c; cbn [mtake m_dump app]; try reflexivity. rewrite latest_cons. destruct (latest (dumps cs)); reflexivity.
    + destruct c; cbn [mtake m_cpu app]; try reflexivity. rewrite latest_cons. destruct (latest (cpus cs)); reflexivity.
    + destruct c; cbn [mtake m_level app]; try reflexivity. rewrite latest_cons. destruct (latest (levels cs)); reflexivity.
Qed.
Definition used (s : msettings) : nat := match m_bin s with Some _ => 1 | None => 0 end.
Lemma mini_writes f cs l f' : writes f cs l f' -> Forall mini_choice cs -> forall rest s, (used s + length (disks cs) <= 1)%nat ->
  mini_parse (l ++ rest) f s = mini_parse rest f' (fold_left mtake cs s).
Proof.
  induction 1 as [f|f n cs l f' Hn _ IH|o n cs l f' [r ->] _ IH|o n cs l f' [r ->] _ IH|o n cs l f' [r ->] _ IH|cs l f' _ IH|n cs l f' _ IH|t cs l f' _ IH|cs l f' _ IH]; intros Hm rest s Hs;
    try (match type of Hm with Forall _ (_ :: _) => inversion Hm as [|? ? K Hm']; subst; try contradiction K end).
  - reflexivity.
  - unfold disks in Hs. cbn [flat_map] in Hs. fold (disks cs) in Hs. cbn [app length] in Hs.
    cbn [app mini_parse fold_left]. rewrite (free_test n f Hn). unfold used in Hs. destruct (m_bin s) eqn:Eb; [exfalso; cbn in Hs; lia|].
    apply IH; [exact Hm'|]. unfold used. cbn [mtake m_bin]. cbn in Hs. lia.
  - cbn [app mini_parse fold_left]. apply IH; [exact Hm'|exact Hs].
  - cbn [app mini_parse fold_left]. apply IH; [exact Hm'|exact Hs].
  - cbn [app mini_parse fold_left]. apply IH; [exact Hm'|exact Hs].
  - cbn [app mini_parse fold_left]. apply IH; [exact Hm|exact Hs].
Qed.
Inductive mstop : bool -> list string -> Prop :=
| ms_help o r : help o -> mstop false (o :: r)
| ms_bad o r : no_option mini_letters mini_longs o -> mstop false (o :: r)
| ms_short o : letter "O" o -> mstop false [o]
| ms_long o : o = "--cpu"%string \/ o = "--debug-level"%string -> mstop false [o].
Lemma mini_shape n : forall l f, (length l <= n)%nat -> exists cs l0 rest f', l = l0 ++ rest /\ writes f cs l0 f' /\ Forall mini_choice cs /\
  (rest = [] \/ mstop f' rest).
Proof.
  induction n as [|n IH]; intros l f Hl.
  { destruct l; [|cbn in Hl; lia]. exists [], [], [], f. split; [reflexivity|]. split; [constructor|]. split; [constructor|]. left; reflexivity. }
  destruct l as [|a l]. { exists [], [], [], f. split; [reflexivity|]. split; [constructor|]. split; [constructor|]. left; reflexivity. }
  cbn [length] in Hl.
  assert (Free : f = true \/ ~ dashed a -> exists cs l0 rest f', a :: l = l0 ++ rest /\ writes f cs l0 f' /\ Forall mini_choice cs /\ (rest = [] \/ mstop f' rest)).
  { intros K. destruct (IH l f ltac:(lia)) as (cs & l0 & rest & f' & -> & W & M & S). exists (Disk a :: cs), (a :: l0), rest, f'. split; [reflexivity|]. split; [constructor; assumption|]. split; [constructor; [exact I|exact M]|exact S]. }
  destruct f; [apply Free; left; reflexivity|].
  destruct a as [|c0 a]; [apply Free; right; intros [r H]; discriminate|].
  destruct (Ascii.eqb c0 "-") eqn:E0; [|apply Free; right; intros [r H]; injection H as -> _; discriminate]. apply Ascii.eqb_eq in E0. subst c0. clear Free.
  assert (Stop : mstop false (String "-" a :: l) -> exists cs l0 rest f', String "-" a :: l = l0 ++ rest /\ writes false cs l0 f' /\ Forall mini_choice cs /\ (rest = [] \/ mstop f' rest)).
  { intros K. exists [], [], (String "-" a :: l), false. split; [reflexivity|]. split; [constructor|]. split; [constructor|]. right; exact K. }
  destruct a as [|c1 a]; [apply Stop, ms_bad; left; reflexivity|].
  destruct (Ascii.eqb c1 "-") eqn:E1.
  - apply Ascii.eqb_eq in E1. subst c1. destruct a as [|c2 a].
    + destruct (IH l true ltac:(lia)) as (cs & l0 & rest & f' & -> & W & M & S). exists cs, ("--"%string :: l0), rest, f'. split; [reflexivity|]. split; [constructor; assumption|]. split; assumption.
    + set (o := String "-" (String "-" (String c2 a))) in *.
      destruct (string_dec o "--help") as [Eo|N1]; [apply Stop, ms_help; right; exact Eo|].
      destruct (string_dec o "--cpu") as [Eo|N3].
      { destruct l as [|v l]; [apply Stop, ms_long; left; exact Eo|]. rewrite Eo. cbn [length] in Hl. destruct (IH l false ltac:(lia)) as (cs & l0 & rest & f' & -> & W & M & S).
        exists (CpuIs v :: cs), ("--cpu"%string :: v :: l0), rest, f'. split; [reflexivity|]. split; [constructor; assumption|]. split; [constructor; [exact I|exact M]|exact S]. }
      destruct (string_dec o "--debug-level") as [Eo|N4].
      { destruct l as [|v l]; [apply Stop, ms_long; right; exact Eo|]. rewrite Eo. cbn [length] in Hl. destruct (IH l false ltac:(lia)) as (cs & l0 & rest & f' & -> & W & M & S).
        exists (LevelIs v :: cs), ("--debug-level"%string :: v :: l0), rest, f'. split; [reflexivity|]. split; [constructor; assumption|]. split; [constructor; [exact I|exact M]|exact S]. }
      apply Stop, ms_bad. right. right. exists c2, a. split; [reflexivity|]. unfold mini_longs. cbn [In]. intuition congruence.
  - assert (Ne : c1 <> "-"%char) by (intros ->; discriminate).
    destruct (Ascii.eqb c1 "h") eqn:Eh. { apply Ascii.eqb_eq in Eh. subst c1. apply Stop, ms_help. left. lett. }
    destruct (Ascii.eqb c1 "O") eqn:EO.
    { apply Ascii.eqb_eq in EO. subst c1. destruct l as [|v l]; [apply Stop, ms_short; lett|]. cbn [length] in Hl. destruct (IH l false ltac:(lia)) as (cs & l0 & rest & f' & -> & W & M & S).
      exists (DumpTo v :: cs), (String "-" (String "O" a) :: v :: l0), rest, f'. split; [reflexivity|]. split; [apply w_dump; [lett|assumption]|]. split; [constructor; [exact I|exact M]|exact S]. }
    apply Stop, ms_bad. right. left. exists c1. split; [lett|]. split; [exact Ne|]. unfold mini_letters. cbn [In].
    intros [<-|[<-|[]]]; discriminate.
Qed.
Lemma mini_help o r s : help o -> mini_parse (o :: r) false s = AExit 0.
Proof. intros [[t ->]| ->]; reflexivity. Qed.
Lemma mini_bad o r s : no_option mini_letters mini_longs o -> mini_parse (o :: r) false s = AExit 1.
Proof.
  intros [->|[(c & [t ->] & Hc & Hn)|(c & t & -> & Hn)]].
  - reflexivity.
  - unfold mini_letters in Hn. cbn [In] in Hn. cbn [mini_parse nth_is String.get]. change (Ascii.eqb "-" "-") with true. cbn [negb orb].
    replace (Ascii.eqb c "-") with false by (symmetry; apply Ascii.eqb_neq; congruence). cbn [negb].
    replace (Ascii.eqb c "h") with false by (symmetry; apply Ascii.eqb_neq; intuition congruence).
    replace (Ascii.eqb c "O") with false by (symmetry; apply Ascii.eqb_neq; intuition congruence). reflexivity.
  - unfold mini_longs in Hn. cbn [In] in Hn. set (o := String "-" (String "-" (String c t))) in *.
    transitivity (if String.eqb o "--help" then AExit 0
        else if String.eqb o "--cpu" then
          match r with [] => AAbort | v :: rest' => mini_parse rest' false (mkMs (m_level s) (m_bin s) (m_dump s) (Some v)) end
        else if String.eqb o "--debug-level" then
          match r with
          | [] => AAbort
          | v :: rest' => mini_parse rest' false (mkMs (to_int (strtol10 v)) (m_bin s) (m_dump s) (m_cpu s))
          end
        else AExit 1); [reflexivity|].
    replace (String.eqb o "--help") with false by (symmetry; apply String.eqb_neq; intuition congruence).
    replace (String.eqb o "--cpu") with false by (symmetry; apply String.eqb_neq; intuition congruence).
    replace (String.eqb o "--debug-level") with false by (symmetry; apply String.eqb_neq; intuition congruence). reflexivity.
Qed.
Inductive mreading (l : list string) : args_res msettings -> Prop :=
| mr_all cs f : writes false cs l f -> Forall mini_choice cs -> (length (disks cs) <= 1)%nat -> mreading l (AGo (fold_left mtake cs msettings0))
| mr_null cs l0 o : l = l0 ++ [o] -> writes false cs l0 false -> Forall mini_choice cs -> (length (disks cs) <= 1)%nat -> letter "O" o ->
    mreading l (AGo (let s := fold_left mtake cs msettings0 in mkMs (m_level s) (m_bin s) None (m_cpu s)))
| mr_help cs l0 o r : l = l0 ++ o :: r -> writes false cs l0 false -> Forall mini_choice cs -> (length (disks cs) <= 1)%nat -> help o -> mreading l (AExit 0)
| mr_bad cs l0 o r : l = l0 ++ o :: r -> writes false cs l0 false -> Forall mini_choice cs -> (length (disks cs) <= 1)%nat -> no_option mini_letters mini_longs o -> mreading l (AExit 1)
| mr_second cs l0 o r f : l = l0 ++ o :: r -> writes false cs l0 f -> Forall mini_choice cs -> length (disks cs) = 1%nat -> f = true \/ ~ dashed o -> mreading l (AExit 1)
| mr_abort cs l0 o : l = l0 ++ [o] -> writes false cs l0 false -> Forall mini_choice cs -> (length (disks cs) <= 1)%nat -> o = "--cpu"%string \/ o = "--debug-level"%string -> mreading l AAbort.
Lemma mreading_sound l r : mreading l r -> mini_args l = r.
Proof.
  unfold mini_args. intros [cs f W M D|cs l0 o -> W M D [t ->]|cs l0 o r0 -> W M D H|cs l0 o r0 -> W M D H|cs l0 o r0 f -> W M D H|cs l0 o -> W M D H].
  - rewrite <- (app_nil_r l). rewrite (mini_writes _ _ _ _ W M) by (cbn; lia). reflexivity.
  - rewrite (mini_writes _ _ _ _ W M) by (cbn; lia). reflexivity.
  - rewrite (mini_writes _ _ _ _ W M) by (cbn; lia). apply mini_help, H.
  - rewrite (mini_writes _ _ _ _ W M) by (cbn; lia). apply mini_bad, H.
  - rewrite (mini_writes _ _ _ _ W M) by (cbn; lia). cbn [mini_parse]. rewrite (free_test o f H). destruct (mtaken cs msettings0) as (-> & _).
    destruct (disks cs) as [|d [|? ?]]; cbn [length] in D; try lia. reflexivity.
  - rewrite (mini_writes _ _ _ _ W M) by (cbn; lia). destruct H as [->| ->]; reflexivity.
Qed.
(** The choices before a given disk name are among the choices. *)
Lemma writes_split_mini f cs l f' : writes f cs l f' -> Forall mini_choice cs -> forall k, (k < length (disks cs))%nat ->
  exists cs0 l0 n l1 f1, l = l0 ++ n :: l1 /\ writes f cs0 l0 f1 /\ Forall mini_choice cs0 /\ length (disks cs0) = k /\ (f1 = true \/ ~ dashed n).
Proof.
  induction 1 as [f|f n cs l f' Hn W IH|o n cs l f' Ho _ IH|o n cs l f' Ho _ IH|o n cs l f' Ho _ IH|cs l f' _ IH|n cs l f' _ IH|t cs l f' _ IH|cs l f' _ IH]; intros Hm k Hk;
    try (match type of Hm with Forall _ (_ :: _) => inversion Hm as [|? ? K0 Hm']; subst; try contradiction K0 end).
  - cbn in Hk. lia.
  - unfold disks in Hk. cbn [flat_map] in Hk. fold (disks cs) in Hk. cbn [app length] in Hk. destruct k as [|k].
    + exists [], [], n, l, f. split; [reflexivity|]. split; [constructor|]. split; [constructor|]. split; [reflexivity|exact Hn].
    + destruct (IH Hm' k ltac:(lia)) as (cs0 & l0 & m & l1 & f1 & -> & W0 & M0 & L & K). exists (Disk n :: cs0), (n :: l0), m, l1, f1. split; [reflexivity|]. split; [constructor; assumption|]. split; [constructor; assumption|]. split; [|exact K].
      unfold disks. cbn [flat_map]. fold (disks cs0). cbn [app length]. lia.
  - destruct (IH Hm' k Hk) as (cs0 & l0 & m & l1 & f1 & -> & W0 & M0 & L & K). exists (DumpTo n :: cs0), (o :: n :: l0), m, l1, f1. split; [reflexivity|]. split; [apply w_dump; assumption|]. split; [constructor; assumption|]. split; [exact L|exact K].
  - destruct (IH Hm' k Hk) as (cs0 & l0 & m & l1 & f1 & -> & W0 & M0 & L & K). exists (CpuIs n :: cs0), ("--cpu"%string :: n :: l0), m, l1, f1. split; [reflexivity|]. split; [constructor; assumption|]. split; [constructor; assumption|]. split; [exact L|exact K].
  - destruct (IH Hm' k Hk) as (cs0 & l0 & m & l1 & f1 & -> & W0 & M0 & L & K). exists (LevelIs t :: cs0), ("--debug-level"%string :: t :: l0), m, l1, f1. split; [reflexivity|]. split; [constructor; assumption|]. split; [constructor; assumption|]. split; [exact L|exact K].
  - destruct (IH Hm k Hk) as (cs0 & l0 & m & l1 & f1 & -> & W0 & M0 & L & K). exists cs0, ("--"%string :: l0), m, l1, f1. split; [reflexivity|]. split; [constructor; assumption|]. split; [exact M0|]. split; [exact L|exact K].
Qed.
Lemma mreading_total l : exists r, mreading l r.
Proof.
  destruct (mini_shape (length l) l false (le_n _)) as (cs & l0 & rest & f' & -> & W & M & S).
  destruct (le_lt_dec (length (disks cs)) 1) as [D|D].
  - destruct S as [->|S].
    + eexists. apply (mr_all _ cs f'); [rewrite app_nil_r; exact W|exact M|exact D].
    + destruct S as [o r H|o r H|o H|o H]; eexists.
      * eapply mr_help; eauto.
      * eapply mr_bad; eauto.
      * eapply mr_null; eauto.
      * eapply mr_abort; eauto.
  - destruct (writes_split_mini _ _ _ _ W M 1 D) as (cs0 & l1 & n & l2 & f1 & -> & W0 & M0 & L & K). eexists. eapply (mr_second _ cs0 l1 n (l2 ++ rest) f1); [rewrite <- app_assoc; reflexivity|exact W0|exact M0|exact L|exact K].
Qed.
Theorem mreading_iff l r : mini_args l = r <-> mreading l r.
Proof. split; [|apply mreading_sound]. intros <-. destruct (mreading_total l) as [r H]. rewrite (mreading_sound _ _ H). exact H. Qed.

(** ** strtol *)
Lemma chr_of c : 0 <= c < 256 -> chr (ascii_of_nat (Z.to_nat c)) = c.
Proof. intros H. unfold chr. rewrite nat_ascii_embedding by lia. lia. Qed.
Lemma skip_blanks_text w r : Forall is_blank w -> skip_blanks (text (w ++ r)) = skip_blanks (text r).
Proof.
  induction 1 as [|c w Hc _ IH]; [reflexivity|]. cbn [app text skip_blanks]. unfold is_blank in Hc. rewrite chr_of by lia. unfold isspace. replace ((c =? 32) || _) with true by lia. exact IH.
Qed.
Lemma digits10_text ds r : Forall is_digit ds -> (forall c t, r = c :: t -> ~ is_digit c) -> Forall (fun c => 0 <= c < 256) r -> forall v,
  digits10 v (text (ds ++ r)) = v * 10 ^ Z.of_nat (length ds) + decimal (map (fun c => c - 48) ds).
Proof.
  intros Hd Hr Hb. induction Hd as [|d ds H _ IH]; intros v.
  - cbn [app length map decimal Z.of_nat]. change (10 ^ 0) with 1. destruct r as [|c t]; cbn [text digits10]; [lia|]. specialize (Hr c t eq_refl). inversion Hb; subst. rewrite chr_of by assumption.
    unfold is_digit in Hr. replace ((48 <=? c) && (c <=? 57)) with false by lia. lia.
  - cbn [app text digits10]. unfold is_digit in H. rewrite chr_of by lia. replace ((48 <=? d) && (d <=? 57)) with true by lia. rewrite IH. cbn [map decimal length]. rewrite map_length, Nat2Z.inj_succ, Z.pow_succ_r by lia. ring.
Qed.
Lemma strtol_reads t v : reads_as t v -> strtol10 t = clamp64 v.
Proof.
  intros [w sg ds r Hw Hs Hn Hd Hr Hb|w ds r Hw Hn Hd Hr Hb]; unfold strtol10; rewrite (skip_blanks_text _ _ Hw).
  - destruct Hs as [->| ->].
    + cbn [app]. destruct ds as [|d ds]; [contradiction|]. pose proof (Forall_inv Hd) as H. unfold is_digit in H. cbn [app text skip_blanks]. rewrite chr_of by lia. unfold isspace. replace ((d =? 32) || _) with false by lia.
      rewrite !chr_of by lia. replace (d =? 45) with false by lia. replace (d =? 43) with false by lia.
      change (String (ascii_of_nat (Z.to_nat d)) (text (ds ++ r))) with (text ((d :: ds) ++ r)). rewrite (digits10_text (d :: ds) r Hd Hr Hb). rewrite Z.mul_0_l, Z.add_0_l. reflexivity.
    + cbn [app text skip_blanks]. rewrite chr_of by lia. change (isspace 43) with false. cbv iota. rewrite !chr_of by lia. change (43 =? 45) with false. change (43 =? 43) with true. cbv iota.
      rewrite (digits10_text ds r Hd Hr Hb). rewrite Z.mul_0_l, Z.add_0_l. reflexivity.
  - cbn [app text skip_blanks]. rewrite chr_of by lia. change (isspace 45) with false. cbv iota. rewrite !chr_of by lia. change (45 =? 45) with true. cbv iota.
    rewrite (digits10_text ds r Hd Hr Hb). rewrite Z.mul_0_l, Z.add_0_l. reflexivity.
Qed.
Lemma to_int_small v : - 2 ^ 31 <= v < 2 ^ 31 -> to_int (clamp64 v) = v.
Proof.
  intros H. change (2 ^ 31) with 2147483648 in H. unfold clamp64. change (2 ^ 63) with 9223372036854775808. replace (Z.max _ _) with v by lia.
  unfold to_int, sgn, wrap. change (2 ^ (32 - 1)) with 2147483648. change (2 ^ 32) with 4294967296. rewrite !Z.mod_mod by lia.
  destruct (Z_le_dec 0 v).
  - rewrite Z.mod_small by lia. destruct (_ <? _) eqn:E; lia.
  - replace (v mod 4294967296) with (v + 4294967296) by lia. destruct (_ <? _) eqn:E; lia.
Qed.
