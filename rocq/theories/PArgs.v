(** Command lines: the parser against the grammar of SpecNative3. *)
From Coq Require Import String Ascii.
From Verif Require Import Base Machine Native Native2 Native3 Spec SpecNative3 PBase.
Local Open Scope Z_scope.

Definition take (s : settings) (c : choice) : settings :=
  match c with
  | Disk n => add_fdd n s | Image n => set_bin (Some n) s | DumpTo n => set_dump (Some n) s | Program n => set_exe (Some n) s
  | NoWindow => set_nogui s | CpuIs n => set_cpu n s | LevelIs t => set_level (to_int (strtol10 t)) s
  end.
Lemma nth_is_dash n : nth_is 0 n "-" = true <-> dashed n.
Proof.
  unfold nth_is, dashed. destruct n as [|c r]; cbn [String.get].
  - split; [discriminate|intros [r H]; discriminate].
  - split; [intros H; apply Ascii.eqb_eq in H; subst c; eauto|intros [r' H]; injection H as -> _; apply Ascii.eqb_refl].
Qed.
Lemma free_test n f : f = true \/ ~ dashed n -> negb (nth_is 0 n "-") || f = true.
Proof.
  intros [->|H]; [apply Bool.orb_true_r|]. destruct (nth_is 0 n "-") eqn:E; [|reflexivity]. apply nth_is_dash in E. contradiction.
Qed.
Lemma last_some (l : list string) : forall d, last (map Some l) d = match latest l with Some x => Some x | None => d end.
Proof.
  unfold latest. induction l as [|x l IH]; intros d; [reflexivity|]. cbn [map]. destruct l as [|y l]; [reflexivity|]. exact (IH d).
Qed.
Lemma latest_cons x l : latest (x :: l) = match latest l with Some y => Some y | None => Some x end.
Proof. unfold latest at 1. cbn [map]. destruct l as [|y l]; [reflexivity|]. change (last (map Some (y :: l)) None = match latest (y :: l) with Some y => Some y | None => Some x end). rewrite last_some. unfold latest. cbn [map]. clear. revert y. induction l as [|z l IH]; intros y; [reflexivity|]. exact (IH z). Qed.
Definition or_else {A} (o : option A) (d : option A) : option A := match o with Some _ => o | None => d end.
Lemma taken cs : forall s, let s' := fold_left take cs s in
  fdds s' = fdds s ++ disks cs /\ bin_name s' = or_else (latest (images cs)) (bin_name s) /\ dump_name s' = or_else (latest (dumps cs)) (dump_name s) /\
  exe_name s' = or_else (latest (programs cs)) (exe_name s) /\ (nogui s' = true <-> In NoWindow cs \/ nogui s = true) /\
  cpu_name s' = match latest (cpus cs) with Some n => n | None => cpu_name s end /\
  dbg_level s' = match latest (levels cs) with Some t => to_int (strtol10 t) | None => dbg_level s end.
Proof.
  induction cs as [|c cs IH]; intros s; cbv zeta.
  - cbn [fold_left]. rewrite app_nil_r. split; [reflexivity|]. split; [reflexivity|]. split; [reflexivity|]. split; [reflexivity|]. split; [cbn [In]; tauto|]. split; reflexivity.
  - cbn [fold_left]. specialize (IH (take s c)). cbv zeta in IH. destruct IH as (I1 & I2 & I3 & I4 & I5 & I6 & I7).
    rewrite I1, I2, I3, I4, I6, I7.
    unfold disks, images, dumps, programs, cpus, levels. cbn [flat_map]. fold (disks cs) (images cs) (dumps cs) (programs cs) (cpus cs) (levels cs).
    split; [|split; [|split; [|split; [|split; [|split]]]]].
    + destruct c; cbn [take add_fdd set_bin set_dump set_exe set_nogui set_cpu set_level fdds app]; try reflexivity. rewrite <- app_assoc. reflexivity.
    + destruct c; cbn [take add_fdd set_bin set_dump set_exe set_nogui set_cpu set_level bin_name app]; try reflexivity. rewrite latest_cons. destruct (latest (images cs)); reflexivity.
    + destruct c; cbn [take add_fdd set_bin set_dump set_exe set_nogui set_cpu set_level dump_name app]; try reflexivity. rewrite latest_cons. destruct (latest (dumps cs)); reflexivity.
    + destruct c; cbn [take add_fdd set_bin set_dump set_exe set_nogui set_cpu set_level exe_name app]; try reflexivity. rewrite latest_cons. destruct (latest (programs cs)); reflexivity.
    + rewrite I5. cbn [In]. destruct c; cbn [take add_fdd set_bin set_dump set_exe set_nogui set_cpu set_level nogui]; intuition (try congruence).
    + destruct c; cbn [take add_fdd set_bin set_dump set_exe set_nogui set_cpu set_level cpu_name app]; try reflexivity. rewrite latest_cons. destruct (latest (cpus cs)); reflexivity.
    + destruct c; cbn [take add_fdd set_bin set_dump set_exe set_nogui set_cpu set_level dbg_level app]; try reflexivity. rewrite latest_cons. destruct (latest (levels cs)); reflexivity.
Qed.
Lemma parse_writes f cs l f' : writes f cs l f' -> forall rest s, (length (fdds s) + length (disks cs) <= 4)%nat ->
  parse_args (l ++ rest) f s = parse_args rest f' (fold_left take cs s).
Proof.
  induction 1 as [f|f n cs l f' Hn _ IH|o n cs l f' [r ->] _ IH|o n cs l f' [r ->] _ IH|o n cs l f' [r ->] _ IH|cs l f' _ IH|n cs l f' _ IH|t cs l f' _ IH|cs l f' _ IH]; intros rest s Hs.
  - reflexivity.
  - unfold disks in Hs. cbn [flat_map length] in Hs. fold (disks cs) in Hs. change (([n] ++ disks cs)) with (n :: disks cs) in Hs. cbn [length] in Hs.
    cbn [app parse_args fold_left]. rewrite (free_test n f Hn). replace (length (fdds s) <? 4)%nat with true by (symmetry; apply Nat.ltb_lt; lia).
    apply IH. cbn [take add_fdd fdds]. rewrite app_length. cbn [length]. lia.
  - cbn [app parse_args fold_left]. apply IH. exact Hs.
  - cbn [app parse_args fold_left]. apply IH. exact Hs.
  - cbn [app parse_args fold_left]. apply IH. exact Hs.
  - cbn [app parse_args fold_left]. apply IH. exact Hs.
  - cbn [app parse_args fold_left]. apply IH. exact Hs.
  - cbn [app parse_args fold_left]. apply IH. exact Hs.
  - cbn [app parse_args fold_left]. apply IH. exact Hs.
Qed.
(** Where reading stops: after a readable beginning, at one of these. *)
Inductive stop (letters : list ascii) (longs : list string) : bool -> list string -> Prop :=
| st_help o r : help o -> stop letters longs false (o :: r)
| st_bad o r : no_option letters longs o -> stop letters longs false (o :: r)
| st_short o : letter "b" o \/ letter "O" o \/ letter "d" o -> stop letters longs false [o]
| st_long o : o = "--cpu"%string \/ o = "--debug-level"%string -> stop letters longs false [o].
Lemma mem_In (c : ascii) l : existsb (Ascii.eqb c) l = true <-> In c l.
Proof.
  rewrite existsb_exists. split.
  - intros (x & H & E). apply Ascii.eqb_eq in E. subst. exact H.
  - intros H. exists c. split; [exact H|apply Ascii.eqb_refl].
Qed.
Ltac lett := match goal with |- letter ?c _ => eexists; reflexivity end.
Lemma parse_shape n : forall l f, (length l <= n)%nat -> exists cs l0 rest f', l = l0 ++ rest /\ writes f cs l0 f' /\
  (rest = [] \/ stop nt_letters nt_longs f' rest).
Proof.
  induction n as [|n IH]; intros l f Hl.
  { destruct l; [|cbn in Hl; lia]. exists [], [], [], f. split; [reflexivity|]. split; [constructor|]. left; reflexivity. }
  destruct l as [|a l]. { exists [], [], [], f. split; [reflexivity|]. split; [constructor|]. left; reflexivity. }
  cbn [length] in Hl.
  assert (Free : f = true \/ ~ dashed a -> exists cs l0 rest f', a :: l = l0 ++ rest /\ writes f cs l0 f' /\ (rest = [] \/ stop nt_letters nt_longs f' rest)).
  { intros K. destruct (IH l f ltac:(lia)) as (cs & l0 & rest & f' & -> & W & S). exists (Disk a :: cs), (a :: l0), rest, f'. split; [reflexivity|]. split; [constructor; assumption|exact S]. }
  destruct f; [apply Free; left; reflexivity|].
  destruct a as [|c0 a]; [apply Free; right; intros [r H]; discriminate|].
  destruct (Ascii.eqb c0 "-") eqn:E0; [|apply Free; right; intros [r H]; injection H as -> _; discriminate]. apply Ascii.eqb_eq in E0. subst c0. clear Free.
  assert (Stop : stop nt_letters nt_longs false (String "-" a :: l) -> exists cs l0 rest f', String "-" a :: l = l0 ++ rest /\ writes false cs l0 f' /\ (rest = [] \/ stop nt_letters nt_longs f' rest)).
  { intros K. exists [], [], (String "-" a :: l), false. split; [reflexivity|]. split; [constructor|]. right; exact K. }
  destruct a as [|c1 a]; [apply Stop, st_bad; left; reflexivity|].
  destruct (Ascii.eqb c1 "-") eqn:E1.
  - apply Ascii.eqb_eq in E1. subst c1. destruct a as [|c2 a].
    + destruct (IH l true ltac:(lia)) as (cs & l0 & rest & f' & -> & W & S). exists cs, ("--"%string :: l0), rest, f'. split; [reflexivity|]. split; [constructor; assumption|exact S].
    + set (o := String "-" (String "-" (String c2 a))) in *.
      destruct (string_dec o "--help") as [Eo|N1]; [apply Stop, st_help; right; exact Eo|].
      destruct (string_dec o "--nogui") as [Eo|N2].
      { rewrite Eo. destruct (IH l false ltac:(lia)) as (cs & l0 & rest & f' & -> & W & S). exists (NoWindow :: cs), ("--nogui"%string :: l0), rest, f'. split; [reflexivity|]. split; [constructor; assumption|exact S]. }
      destruct (string_dec o "--cpu") as [Eo|N3].
      { destruct l as [|v l]; [apply Stop, st_long; left; exact Eo|]. rewrite Eo. cbn [length] in Hl. destruct (IH l false ltac:(lia)) as (cs & l0 & rest & f' & -> & W & S).
        exists (CpuIs v :: cs), ("--cpu"%string :: v :: l0), rest, f'. split; [reflexivity|]. split; [constructor; assumption|exact S]. }
      destruct (string_dec o "--debug-level") as [Eo|N4].
      { destruct l as [|v l]; [apply Stop, st_long; right; exact Eo|]. rewrite Eo. cbn [length] in Hl. destruct (IH l false ltac:(lia)) as (cs & l0 & rest & f' & -> & W & S).
        exists (LevelIs v :: cs), ("--debug-level"%string :: v :: l0), rest, f'. split; [reflexivity|]. split; [constructor; assumption|exact S]. }
      apply Stop, st_bad. right. right. exists c2, a. split; [reflexivity|]. unfold nt_longs. cbn [In]. intuition congruence.
  - assert (Ne : c1 <> "-"%char) by (intros ->; discriminate).
    destruct (Ascii.eqb c1 "h") eqn:Eh. { apply Ascii.eqb_eq in Eh. subst c1. apply Stop, st_help. left. lett. }
    destruct (Ascii.eqb c1 "b") eqn:Eb.
    { apply Ascii.eqb_eq in Eb. subst c1. destruct l as [|v l]; [apply Stop, st_short; left; lett|]. cbn [length] in Hl. destruct (IH l false ltac:(lia)) as (cs & l0 & rest & f' & -> & W & S).
      exists (Image v :: cs), (String "-" (String "b" a) :: v :: l0), rest, f'. split; [reflexivity|]. split; [apply w_image; [lett|assumption]|exact S]. }
    destruct (Ascii.eqb c1 "O") eqn:EO.
    { apply Ascii.eqb_eq in EO. subst c1. destruct l as [|v l]; [apply Stop, st_short; right; left; lett|]. cbn [length] in Hl. destruct (IH l false ltac:(lia)) as (cs & l0 & rest & f' & -> & W & S).
      exists (DumpTo v :: cs), (String "-" (String "O" a) :: v :: l0), rest, f'. split; [reflexivity|]. split; [apply w_dump; [lett|assumption]|exact S]. }
    destruct (Ascii.eqb c1 "d") eqn:Ed.
    { apply Ascii.eqb_eq in Ed. subst c1. destruct l as [|v l]; [apply Stop, st_short; right; right; lett|]. cbn [length] in Hl. destruct (IH l false ltac:(lia)) as (cs & l0 & rest & f' & -> & W & S).
      exists (Program v :: cs), (String "-" (String "d" a) :: v :: l0), rest, f'. split; [reflexivity|]. split; [apply w_program; [lett|assumption]|exact S]. }
    apply Stop, st_bad. right. left. exists c1. split; [lett|]. split; [exact Ne|]. unfold nt_letters. cbn [In].
    intros [<-|[<-|[<-|[<-|[]]]]]; discriminate.
Qed.
(** Too many disks: the fifth name stops. *)
Lemma disks_app a b : disks (a ++ b) = disks a ++ disks b. Proof. apply flat_map_app. Qed.
Lemma writes_split f cs l f' : writes f cs l f' -> forall k, (k < length (disks cs))%nat ->
  exists cs0 l0 n l1 f1, l = l0 ++ n :: l1 /\ writes f cs0 l0 f1 /\ length (disks cs0) = k /\ (f1 = true \/ ~ dashed n).
Proof.
  induction 1 as [f|f n cs l f' Hn W IH|o n cs l f' Ho _ IH|o n cs l f' Ho _ IH|o n cs l f' Ho _ IH|cs l f' _ IH|n cs l f' _ IH|t cs l f' _ IH|cs l f' _ IH]; intros k Hk.
  - cbn in Hk. lia.
  - unfold disks in Hk. cbn [flat_map] in Hk. fold (disks cs) in Hk. cbn [app length] in Hk. destruct k as [|k].
    + exists [], [], n, l, f. split; [reflexivity|]. split; [constructor|]. split; [reflexivity|exact Hn].
    + destruct (IH k ltac:(lia)) as (cs0 & l0 & m & l1 & f1 & -> & W0 & L & K). exists (Disk n :: cs0), (n :: l0), m, l1, f1. split; [reflexivity|]. split; [constructor; assumption|]. split; [|exact K].
      unfold disks. cbn [flat_map]. fold (disks cs0). cbn [app length]. lia.
  - destruct (IH k Hk) as (cs0 & l0 & m & l1 & f1 & -> & W0 & L & K). exists (Image n :: cs0), (o :: n :: l0), m, l1, f1. split; [reflexivity|]. split; [apply w_image; assumption|]. split; [exact L|exact K].
  - destruct (IH k Hk) as (cs0 & l0 & m & l1 & f1 & -> & W0 & L & K). exists (DumpTo n :: cs0), (o :: n :: l0), m, l1, f1. split; [reflexivity|]. split; [apply w_dump; assumption|]. split; [exact L|exact K].
  - destruct (IH k Hk) as (cs0 & l0 & m & l1 & f1 & -> & W0 & L & K). exists (Program n :: cs0), (o :: n :: l0), m, l1, f1. split; [reflexivity|]. split; [apply w_program; assumption|]. split; [exact L|exact K].
  - destruct (IH k Hk) as (cs0 & l0 & m & l1 & f1 & -> & W0 & L & K). exists (NoWindow :: cs0), ("--nogui"%string :: l0), m, l1, f1. split; [reflexivity|]. split; [constructor; assumption|]. split; [exact L|exact K].
  - destruct (IH k Hk) as (cs0 & l0 & m & l1 & f1 & -> & W0 & L & K). exists (CpuIs n :: cs0), ("--cpu"%string :: n :: l0), m, l1, f1. split; [reflexivity|]. split; [constructor; assumption|]. split; [exact L|exact K].
  - destruct (IH k Hk) as (cs0 & l0 & m & l1 & f1 & -> & W0 & L & K). exists (LevelIs t :: cs0), ("--debug-level"%string :: t :: l0), m, l1, f1. split; [reflexivity|]. split; [constructor; assumption|]. split; [exact L|exact K].
  - destruct (IH k Hk) as (cs0 & l0 & m & l1 & f1 & -> & W0 & L & K). exists cs0, ("--"%string :: l0), m, l1, f1. split; [reflexivity|]. split; [constructor; assumption|]. split; [exact L|exact K].
Qed.
(** What the parser answers at each kind of stop. *)
Lemma parse_help o r s : help o -> parse_args (o :: r) false s = AExit 0.
Proof. intros [[t ->]| ->]; reflexivity. Qed.
Lemma parse_bad o r s : no_option nt_letters nt_longs o -> parse_args (o :: r) false s = AExit 1.
Proof.
  intros [->|[(c & [t ->] & Hc & Hn)|(c & t & -> & Hn)]].
  - reflexivity.
  - unfold nt_letters in Hn. cbn [In] in Hn. cbn [parse_args nth_is String.get]. change (Ascii.eqb "-" "-") with true. cbn [negb orb].
    replace (Ascii.eqb c "-") with false by (symmetry; apply Ascii.eqb_neq; congruence). cbn [negb].
    replace (Ascii.eqb c "h") with false by (symmetry; apply Ascii.eqb_neq; intuition congruence).
    replace (Ascii.eqb c "b") with false by (symmetry; apply Ascii.eqb_neq; intuition congruence).
    replace (Ascii.eqb c "O") with false by (symmetry; apply Ascii.eqb_neq; intuition congruence).
    replace (Ascii.eqb c "d") with false by (symmetry; apply Ascii.eqb_neq; intuition congruence). reflexivity.
  - unfold nt_longs in Hn. cbn [In] in Hn. set (o := String "-" (String "-" (String c t))) in *.
    transitivity (if String.eqb o "--help" then AExit 0
        else if String.eqb o "--nogui" then parse_args r false (set_nogui s)
        else if String.eqb o "--cpu" then match r with [] => AAbort | v :: rest' => parse_args rest' false (set_cpu v s) end
        else if String.eqb o "--debug-level" then
          match r with [] => AAbort | v :: rest' => parse_args rest' false (set_level (to_int (strtol10 v)) s) end
        else AExit 1); [reflexivity|].
    replace (String.eqb o "--help") with false by (symmetry; apply String.eqb_neq; intuition congruence).
    replace (String.eqb o "--nogui") with false by (symmetry; apply String.eqb_neq; intuition congruence).
    replace (String.eqb o "--cpu") with false by (symmetry; apply String.eqb_neq; intuition congruence).
    replace (String.eqb o "--debug-level") with false by (symmetry; apply String.eqb_neq; intuition congruence). reflexivity.
Qed.
Lemma parse_fifth n r f s : f = true \/ ~ dashed n -> length (fdds s) = 4%nat -> parse_args (n :: r) f s = AExit 1.
Proof. intros K L. cbn [parse_args]. rewrite (free_test n f K), L. reflexivity. Qed.
Lemma parse_short o s : letter "b" o \/ letter "O" o \/ letter "d" o ->
  parse_args [o] false s = AGo (if nth_is 1 o "b" then set_bin None s else if nth_is 1 o "O" then set_dump None s else set_exe None s).
Proof. intros [[t ->]|[[t ->]|[t ->]]]; reflexivity. Qed.
Lemma parse_long o s : o = "--cpu"%string \/ o = "--debug-level"%string -> parse_args [o] false s = AAbort.
Proof. intros [->| ->]; reflexivity. Qed.
(** The classification. *)
Inductive reading (l : list string) : args_res settings -> Prop :=
| rd_all cs f : writes false cs l f -> (length (disks cs) <= 4)%nat -> reading l (AGo (fold_left take cs settings0))
| rd_null cs l0 o : l = l0 ++ [o] -> writes false cs l0 false -> (length (disks cs) <= 4)%nat -> letter "b" o \/ letter "O" o \/ letter "d" o ->
    reading l (AGo (let s := fold_left take cs settings0 in if nth_is 1 o "b" then set_bin None s else if nth_is 1 o "O" then set_dump None s else set_exe None s))
| rd_help cs l0 o r : l = l0 ++ o :: r -> writes false cs l0 false -> (length (disks cs) <= 4)%nat -> help o -> reading l (AExit 0)
| rd_bad cs l0 o r : l = l0 ++ o :: r -> writes false cs l0 false -> (length (disks cs) <= 4)%nat -> no_option nt_letters nt_longs o -> reading l (AExit 1)
| rd_fifth cs l0 o r f : l = l0 ++ o :: r -> writes false cs l0 f -> length (disks cs) = 4%nat -> f = true \/ ~ dashed o -> reading l (AExit 1)
| rd_abort cs l0 o : l = l0 ++ [o] -> writes false cs l0 false -> (length (disks cs) <= 4)%nat -> o = "--cpu"%string \/ o = "--debug-level"%string -> reading l AAbort.
Lemma reading_sound l r : reading l r -> nt_args l = r.
Proof.
  unfold nt_args. intros [cs f W D|cs l0 o -> W D H|cs l0 o r0 -> W D H|cs l0 o r0 -> W D H|cs l0 o r0 f -> W D H|cs l0 o -> W D H].
  - rewrite <- (app_nil_r l). rewrite (parse_writes _ _ _ _ W) by (cbn; lia). reflexivity.
  - rewrite (parse_writes _ _ _ _ W) by (cbn; lia). apply parse_short, H.
  - rewrite (parse_writes _ _ _ _ W) by (cbn; lia). apply parse_help, H.
  - rewrite (parse_writes _ _ _ _ W) by (cbn; lia). apply parse_bad, H.
  - rewrite (parse_writes _ _ _ _ W) by (cbn; lia). apply parse_fifth; [exact H|]. destruct (taken cs settings0) as (-> & _). cbn [settings0 fdds app]. exact D.
  - rewrite (parse_writes _ _ _ _ W) by (cbn; lia). apply parse_long, H.
Qed.
Lemma reading_total l : exists r, reading l r.
Proof.
  destruct (parse_shape (length l) l false (le_n _)) as (cs & l0 & rest & f' & -> & W & S).
  destruct (le_lt_dec (length (disks cs)) 4) as [D|D].
  - destruct S as [->|S].
    + eexists. apply (rd_all _ cs f'); [rewrite app_nil_r; exact W|exact D].
    + destruct S as [o r H|o r H|o H|o H]; eexists.
      * eapply rd_help; eauto.
      * eapply rd_bad; eauto.
      * eapply rd_null; eauto.
      * eapply rd_abort; eauto.
  - destruct (writes_split _ _ _ _ W 4 D) as (cs0 & l1 & n & l2 & f1 & -> & W0 & L & K). eexists. eapply (rd_fifth _ cs0 l1 n (l2 ++ rest) f1); [rewrite <- app_assoc; reflexivity|exact W0|exact L|exact K].
Qed.
Theorem reading_iff l r : nt_args l = r <-> reading l r.
Proof. split; [|apply reading_sound]. intros <-. destruct (reading_total l) as [r H]. rewrite (reading_sound _ _ H). exact H. Qed.
