(** The reference machine, the list of refusals and the list of exceptions cover all instructions (C87). *)
From Verif Require Import Base Cpu Alu Ops Machine Spec SpecOps SpecOps2 SpecSys SpecMul SpecBcd SpecDbl SpecStr SpecStr2 SpecRun SpecTop SpecStop SpecEa SpecUb SpecIsa SpecRefuse SpecOutside PBase PMem PRun PFrame PAlu PExec PIAlu PIStack PStep PIInt PIStr PTop PTop2 PStop PStop2 PEa PEa2 PEa3 PEa4 PIsa PProg.
Local Open Scope Z_scope.

(** ** A ModR/M operand and what follows it *)
(** [t] = operand bytes [u] and the rest [v]; the decoders look at [u] only. *)
Definition splits (p : pfx) (a : arch) (t u v : list Z) (rg : Z) (r : rm) : Prop :=
  t = u ++ v /\ u <> [] /\ (length u <= 6)%nat /\ reg_field u = rg /\ mod_field u = mod_field t /\ reg_field t = rg /\
  (forall x, parse_rm p a (u ++ x) = Some (rg, r, x)) /\ (forall x, ea_supported p a (u ++ x) <-> ea_supported p a t) /\
  (mod_field t = 3 -> exists n, r = RReg n) /\ (mod_field t <> 3 -> exists sg o, r = RMem sg o).
Definition beyond (p : pfx) (a : arch) (t : list Z) : Prop :=
  exists b u x r, t = b :: u /\ p_as p = true /\ b / 64 <> 3 /\ snd (ea32 (b / 64) (b mod 8) a u) = Some (x, r) /\ 65536 <= low 32 x.
Lemma sib_ok_ext md m sib b0 b1 b2 b3 x y : sib_ok md m (sib :: b0 :: b1 :: b2 :: b3 :: x) <-> sib_ok md m (sib :: b0 :: b1 :: b2 :: b3 :: y).
Proof.
  unfold sib_ok. cbn [dword]. split; intros H Hm; destruct (H Hm) as [A B]; (split; [exact A|]); intros Hs; destruct (B Hs) as [r [= Hr _]]; rewrite Hr; eexists; reflexivity.
Qed.
Lemma split16 p a b c0 c1 t : p_as p = false -> exists u v r, splits p a (b :: c0 :: c1 :: t) u v ((b / 8) mod 8) r.
Proof.
  intros Ha. destruct (Z.eqb_spec (b / 64) 3) as [H3|H3].
  { exists [b], (c0 :: c1 :: t), (RReg (b mod 8)). unfold splits. cbn [app reg_field mod_field]. split; [reflexivity|]. split; [discriminate|]. split; [cbn; lia|].
    split; [reflexivity|]. split; [reflexivity|]. split; [reflexivity|]. split; [intros x; cbn [parse_rm]; rewrite H3; reflexivity|]. split; [intros x; cbn [ea_supported]; tauto|]. split; [eauto|tauto]. }
  assert (K : forall u v d, b :: c0 :: c1 :: t = b :: u ++ v -> (length u <= 2)%nat -> (forall x, disp (b / 64) (b mod 8) (u ++ x) = Some (d, x)) ->
    exists u v r, splits p a (b :: c0 :: c1 :: t) u v ((b / 8) mod 8) r).
  { intros u v d E L D. exists (b :: u), v. eexists. unfold splits. split; [exact E|]. split; [discriminate|]. split; [cbn [length]; lia|]. cbn [reg_field mod_field].
    split; [reflexivity|]. split; [reflexivity|]. split; [reflexivity|].
    split; [intros x; cbn [parse_rm app]; replace (b / 64 =? 3) with false by lia; rewrite Ha, D; reflexivity|].
    split; [|split; [tauto|eauto]]. intros x. rewrite E. cbn [ea_supported app]. rewrite Ha, !D. tauto. }
  destruct (Z.eqb_spec (b / 64) 1) as [H1|H1].
  { apply (K [c0] (c1 :: t) (signed 8 c0)); [reflexivity|cbn; lia|]. intros x. rewrite H1. reflexivity. }
  destruct ((b / 64 =? 2) || (b mod 8 =? 6)) eqn:H2.
  - apply (K [c0; c1] t (signed 16 (c0 + 256 * c1))); [reflexivity|cbn; lia|]. intros x. unfold disp. replace (b / 64 =? 1) with false by lia. rewrite H2. reflexivity.
  - apply (K [] (c0 :: c1 :: t) 0); [reflexivity|cbn; lia|]. intros x. unfold disp. replace (b / 64 =? 1) with false by lia. rewrite H2. reflexivity.
Qed.
Definition esplits (a : arch) (md m : Z) (T : list Z) : Prop := exists u v e z, T = u ++ v /\ (length u <= 5)%nat /\ (forall x, ea32 md m a (u ++ x) = (e, Some (z, x))) /\
  (forall x, sib_ok md m (u ++ x) <-> sib_ok md m T) /\ (forall x, disp32_ok md m (u ++ x) <-> disp32_ok md m T).
Lemma esplit32 a b c0 c1 c2 c3 c4 t : esplits a (b / 64) (b mod 8) (c0 :: c1 :: c2 :: c3 :: c4 :: t).
Proof.
  set (T := c0 :: c1 :: c2 :: c3 :: c4 :: t).
  assert (K : forall u v e z, T = u ++ v -> (length u <= 5)%nat -> (forall x, ea32 (b / 64) (b mod 8) a (u ++ x) = (e, Some (z, x))) ->
    (forall x, sib_ok (b / 64) (b mod 8) (u ++ x) <-> sib_ok (b / 64) (b mod 8) T) -> (forall x, disp32_ok (b / 64) (b mod 8) (u ++ x) <-> disp32_ok (b / 64) (b mod 8) T) ->
    esplits a (b / 64) (b mod 8) T) by (intros u v e z H1 H2 H3' H4' H5'; exists u, v, e, z; auto).
  destruct (Z.eqb_spec (b mod 8) 4) as [H4|H4].
  - assert (SO : forall u x, disp32_ok (b / 64) (b mod 8) (u ++ x) <-> disp32_ok (b / 64) (b mod 8) T) by (intros u x; unfold disp32_ok; tauto).
    destruct (Z.eqb_spec (b / 64) 0) as [M0|M0].
    + destruct (Z.eqb_spec (c0 mod 8) 5) as [M5|M5].
      * apply (K [c0; c1; c2; c3; c4] t false ((if (c0 / 8) mod 8 =? 4 then 0 else reg 32 ((c0 / 8) mod 8) a * 2 ^ (c0 / 64)) + (c1 + 256 * c2 + 65536 * c3 + 16777216 * c4))); [reflexivity|cbn; lia| | |auto].
        { intros x. rewrite H4, M0. unfold ea32. cbn [Z.eqb Pos.eqb app andb]. cbv zeta. rewrite M5. cbn [Z.eqb Pos.eqb andb dword add_disp]. reflexivity. }
        { intros x. apply sib_ok_ext. }
      * apply (K [c0] (c1 :: c2 :: c3 :: c4 :: t) ((c0 mod 8 =? 4) || (c0 mod 8 =? 5)) ((if (c0 / 8) mod 8 =? 4 then 0 else reg 32 ((c0 / 8) mod 8) a * 2 ^ (c0 / 64)) + reg 32 (c0 mod 8) a + 0)); [reflexivity|cbn; lia| | |auto].
        { intros x. rewrite H4, M0. unfold ea32. cbn [Z.eqb Pos.eqb app andb]. cbv zeta. replace (c0 mod 8 =? 5) with false by lia. reflexivity. }
        { intros x. unfold sib_ok, T. cbn [app]. split; intros H Hm; destruct (H Hm) as [A _]; (split; [exact A|]); intros; lia. }
    + assert (SI : forall x, sib_ok (b / 64) (b mod 8) x <-> False) by (intros x; unfold sib_ok; split; [intros H; destruct (H H4); lia|tauto]).
      destruct (Z.eqb_spec (b / 64) 1) as [M1|M1].
      * apply (K [c0; c1] (c2 :: c3 :: c4 :: t) ((c0 mod 8 =? 4) || (c0 mod 8 =? 5)) ((if (c0 / 8) mod 8 =? 4 then 0 else reg 32 ((c0 / 8) mod 8) a * 2 ^ (c0 / 64)) + reg 32 (c0 mod 8) a + signed 8 c1)); [reflexivity|cbn; lia| |intros x; rewrite !SI; tauto|auto].
        intros x. rewrite H4, M1. reflexivity.
      * destruct (Z.eqb_spec (b / 64) 2) as [M2|M2].
        { apply (K [c0; c1; c2; c3; c4] t ((c0 mod 8 =? 4) || (c0 mod 8 =? 5)) ((if (c0 / 8) mod 8 =? 4 then 0 else reg 32 ((c0 / 8) mod 8) a * 2 ^ (c0 / 64)) + reg 32 (c0 mod 8) a + (c1 + 256 * c2 + 65536 * c3 + 16777216 * c4))); [reflexivity|cbn; lia| |intros x; rewrite !SI; tauto|auto].
          intros x. rewrite H4, M2. reflexivity. }
        { apply (K [c0] (c1 :: c2 :: c3 :: c4 :: t) ((c0 mod 8 =? 4) || (c0 mod 8 =? 5)) ((if (c0 / 8) mod 8 =? 4 then 0 else reg 32 ((c0 / 8) mod 8) a * 2 ^ (c0 / 64)) + reg 32 (c0 mod 8) a + 0)); [reflexivity|cbn; lia| |intros x; rewrite !SI; tauto|auto].
          intros x. rewrite H4. unfold ea32. cbn [Z.eqb Pos.eqb app]. cbv zeta. replace (b / 64 =? 0) with false by lia. cbn [andb]. unfold disp32. replace (b / 64 =? 1) with false by lia. replace (b / 64 =? 2) with false by lia. reflexivity. }
  - assert (SI : forall x, sib_ok (b / 64) (b mod 8) x <-> True) by (intros x; unfold sib_ok; split; [auto|intros _ H; lia]).
    assert (EA : forall x, (b / 64 =? 0) && (b mod 8 =? 5) = false -> ea32 (b / 64) (b mod 8) a x = (b mod 8 =? 5, add_disp (reg 32 (b mod 8) a) (disp32 (b / 64) x))).
    { intros x H. unfold ea32. replace (b mod 8 =? 4) with false by lia. rewrite H. reflexivity. }
    destruct ((b / 64 =? 0) && (b mod 8 =? 5)) eqn:M5.
    + apply (K [c0; c1; c2; c3] (c4 :: t) false (c0 + 256 * c1 + 65536 * c2 + 16777216 * c3)); [reflexivity|cbn; lia| |intros x; rewrite !SI; tauto|].
      { intros x. unfold ea32. replace (b mod 8 =? 4) with false by lia. rewrite M5. reflexivity. }
      { intros x. unfold disp32_ok, disp32. replace (b / 64 =? 1) with false by lia. replace (b / 64 =? 2) with false by lia. tauto. }
    + destruct (Z.eqb_spec (b / 64) 1) as [M1|M1].
      * apply (K [c0] (c1 :: c2 :: c3 :: c4 :: t) (b mod 8 =? 5) (reg 32 (b mod 8) a + signed 8 c0)); [reflexivity|cbn; lia| |intros x; rewrite !SI; tauto|].
        { intros x. rewrite EA by reflexivity. rewrite M1. reflexivity. }
        { intros x. rewrite M1. unfold disp32_ok, T. reflexivity. }
      * destruct (Z.eqb_spec (b / 64) 2) as [M2|M2].
        { apply (K [c0; c1; c2; c3] (c4 :: t) (b mod 8 =? 5) (reg 32 (b mod 8) a + (c0 + 256 * c1 + 65536 * c2 + 16777216 * c3))); [reflexivity|cbn; lia| |intros x; rewrite !SI; tauto|].
          { intros x. rewrite EA by reflexivity. rewrite M2. reflexivity. }
          { intros x. rewrite M2. unfold disp32_ok, T. reflexivity. } }
        { assert (D0 : forall x, disp32 (b / 64) x = Some (0, x)) by (intros x; unfold disp32; replace (b / 64 =? 1) with false by lia; replace (b / 64 =? 2) with false by lia; reflexivity).
          apply (K [] T (b mod 8 =? 5) (reg 32 (b mod 8) a + 0)); [reflexivity|cbn; lia| |intros x; rewrite !SI; tauto|].
          { intros x. rewrite EA by reflexivity. rewrite D0. reflexivity. }
          { intros x. unfold disp32_ok. rewrite !D0. tauto. } }
Qed.
Lemma split32 p a b c0 c1 c2 c3 c4 t : p_as p = true -> (exists u v r, splits p a (b :: c0 :: c1 :: c2 :: c3 :: c4 :: t) u v ((b / 8) mod 8) r) \/ beyond p a (b :: c0 :: c1 :: c2 :: c3 :: c4 :: t).
Proof.
  intros Ha. set (T := c0 :: c1 :: c2 :: c3 :: c4 :: t). destruct (Z.eqb_spec (b / 64) 3) as [H3|H3].
  { left. exists [b], T, (RReg (b mod 8)). unfold splits. cbn [app reg_field mod_field]. split; [reflexivity|]. split; [discriminate|]. split; [cbn; lia|].
    split; [reflexivity|]. split; [reflexivity|]. split; [reflexivity|]. split; [intros x; cbn [parse_rm]; rewrite H3; reflexivity|]. split; [intros x; cbn [ea_supported]; tauto|]. split; [eauto|tauto]. }
  destruct (esplit32 a b c0 c1 c2 c3 c4 t) as (u & v & e & z & E & L & D & S1 & S2). fold T in E, S1, S2.
  destruct (Z.ltb_spec (low 32 z) 65536) as [Hz|Hz].
    - left. exists (b :: u), v. eexists. unfold splits. split; [rewrite E; reflexivity|]. split; [discriminate|]. split; [cbn [length]; lia|]. cbn [reg_field mod_field].
      split; [reflexivity|]. split; [reflexivity|]. split; [reflexivity|].
      split; [intros x; cbn [parse_rm app]; replace (b / 64 =? 3) with false by lia; rewrite Ha; cbv zeta; rewrite D; cbn [snd fst]; replace (low 32 z <? 65536) with true by lia; reflexivity|].
      split; [|split; [tauto|eauto]]. intros x. cbn [ea_supported app]. rewrite Ha. unfold ea32_supported.
      rewrite S1, S2. rewrite D. replace (fst (ea32 (b / 64) (b mod 8) a T)) with e by (rewrite E, D; reflexivity). cbn [fst]. tauto.
    - right. exists b, T, z, v. split; [reflexivity|]. split; [exact Ha|]. split; [exact H3|]. split; [rewrite E, D; reflexivity|exact Hz].
Qed.
Lemma split_rm p a t : (6 <= length t)%nat -> (exists u v rg r, splits p a t u v rg r) \/ beyond p a t.
Proof.
  intros H. do 6 (destruct t as [|? t]; [cbn in H; lia|]). destruct (p_as p) eqn:Ha.
  - destruct (split32 p a z z0 z1 z2 z3 z4 t Ha) as [(u & v & r & K)|K]; [left; eauto|right; exact K].
  - destruct (split16 p a z z0 z1 (z2 :: z3 :: z4 :: t) Ha) as (u & v & r & K). left. eauto.
Qed.

Lemma lea_split p a t : (6 <= length t)%nat -> mod_field t <> 3 -> exists u v rg o, t = u ++ v /\ lea_offset p a u = Some (rg, o) /\ (lea_supported p a u <-> lea_supported p a t).
Proof.
  intros H H3. do 6 (destruct t as [|? t]; [cbn in H; lia|]). cbn [mod_field] in H3. destruct (p_as p) eqn:Ha.
  - destruct (esplit32 a z z0 z1 z2 z3 z4 t) as (u & v & e & x & E & L & D & S1 & S2). exists (z :: u), v, ((z / 8) mod 8), (low 32 x).
    split; [cbn [app]; rewrite <- E; reflexivity|]. cbn [lea_offset lea_supported]. cbv zeta. rewrite Ha. replace (z / 64 =? 3) with false by lia.
    pose proof (D []) as D0. pose proof (S1 []) as S10. pose proof (S2 []) as S20. rewrite app_nil_r in *. rewrite D0. cbn [snd]. split; [reflexivity|]. rewrite S10, S20. tauto.
  - destruct (split16 p a z z0 z1 (z2 :: z3 :: z4 :: t) Ha) as (u & v & r & S1 & S2 & S3 & S4 & S5 & S6 & S7 & S8 & S9 & S10).
    destruct u as [|b u]; [congruence|]. pose proof (f_equal (hd 0) S1) as Eb. cbn [hd app] in Eb. subst b. pose proof (f_equal (@tl Z) S1) as Et. cbn [tl app] in Et.
    pose proof (S7 []) as P0. rewrite app_nil_r in P0. cbn [parse_rm] in P0. cbv zeta in P0. replace (z / 64 =? 3) with false in P0 by lia. rewrite Ha in P0.
    pose proof (S7 v) as P1. cbn [parse_rm app] in P1. cbv zeta in P1. replace (z / 64 =? 3) with false in P1 by lia. rewrite Ha in P1.
    exists (z :: u), v. cbn [lea_offset lea_supported]. cbv zeta. rewrite Ha. replace (z / 64 =? 3) with false by lia. rewrite Et.
    destruct (disp (z / 64) (z mod 8) u) as [[d q]|] eqn:D0; [|discriminate]. destruct (disp (z / 64) (z mod 8) (u ++ v)) as [[d1 q1]|] eqn:D1; [|discriminate].
    injection P0 as P0 ->. injection P1 as P1 ->. do 2 eexists. split; [reflexivity|]. split; [reflexivity|]. 
    replace d1 with d; [tauto|]. clear -D0 D1. unfold disp in *. destruct (z / 64 =? 1); [destruct u as [|c u]; [discriminate|]; cbn [app] in D1; congruence|].
    destruct ((z / 64 =? 2) || (z mod 8 =? 6)); [|congruence]. destruct u as [|c [|c' u]]; try discriminate. cbn [app] in D1. congruence.
Qed.

(** ** The conditions can be decided *)
Lemma imp_dec (A B : Prop) : A \/ ~ A -> B \/ ~ B -> (A -> B) \/ ~ (A -> B).
Proof. tauto. Qed.
Lemma and_dec (A B : Prop) : A \/ ~ A -> B \/ ~ B -> (A /\ B) \/ ~ (A /\ B).
Proof. tauto. Qed.
Lemma or_dec (A B : Prop) : A \/ ~ A -> B \/ ~ B -> (A \/ B) \/ ~ (A \/ B).
Proof. tauto. Qed.
Lemma zeq_dec (x y : Z) : x = y \/ x <> y. Proof. lia. Qed.
Lemma sib_dec md m t : sib_ok md m t \/ ~ sib_ok md m t.
Proof.
  unfold sib_ok. apply imp_dec; [apply zeq_dec|]. apply and_dec; [apply zeq_dec|]. destruct t as [|sib u]; [auto|]. apply imp_dec; [apply zeq_dec|].
  destruct (dword u) as [[d r]|]; [destruct (Z.eq_dec d 0) as [->|H]|]; [left; eauto|right; intros [r' [= E]]; auto|right; intros [r' E]; discriminate].
Qed.
Lemma disp32_dec md m t : disp32_ok md m t \/ ~ disp32_ok md m t.
Proof. unfold disp32_ok. apply imp_dec; [lia|]. destruct (disp32 md t) as [[d r]|]; [lia|auto]. Qed.
Lemma seg_dec (o : option Z) : o = None \/ o <> None. Proof. destruct o; [right; discriminate|auto]. Qed.
Lemma bool_dec_ (b c : bool) : b = c \/ b <> c. Proof. destruct b, c; auto; right; discriminate. Qed.
Lemma ea_dec p a t : ea_supported p a t \/ ~ ea_supported p a t.
Proof.
  destruct t as [|b t]; [left; exact I|]. cbn [ea_supported]. apply imp_dec; [lia|]. destruct (p_as p).
  - unfold ea32_supported. apply and_dec; [apply sib_dec|]. apply and_dec; [apply disp32_dec|]. apply imp_dec; [apply seg_dec|]. apply imp_dec; [|apply zeq_dec]. apply or_dec; [apply bool_dec_|]. lia.
  - apply and_dec; [destruct (disp _ _ _) as [[d r]|]; [lia|auto]|]. apply imp_dec; [lia|]. apply imp_dec; [lia|]. apply imp_dec; [apply seg_dec|apply zeq_dec].
Qed.
Lemma lea_dec p a t : lea_supported p a t \/ ~ lea_supported p a t.
Proof.
  destruct t as [|b t]; [left; exact I|]. cbn [lea_supported]. cbv zeta. destruct (p_as p).
  - apply and_dec; [apply sib_dec|]. apply imp_dec; [apply bool_dec_|apply disp32_dec].
  - apply imp_dec; [apply bool_dec_|]. destruct (disp _ _ _) as [[d r]|]; [lia|auto].
Qed.
Lemma shift_dec op w cnt : shift_count_ok op w cnt \/ ~ shift_count_ok op w cnt.
Proof. unfold shift_count_ok. destruct op as [|[[[]|[]|]|[[]|[]|]|]|]; auto; lia. Qed.
Lemma dbl_dec w r src n : dbl_supported w r src n \/ ~ dbl_supported w r src n.
Proof. unfold dbl_supported. destruct r; lia. Qed.
Lemma within_dec o w a n : within67 o w n a \/ ~ within67 o w n a.
Proof.
  induction n as [|n [IH|IH]]; [left; intros k Hk; lia| |right; intros H; apply IH; intros k Hk; apply H; lia].
  set (Q := (uses_si o = true -> at32 (reg 32 SI a) (stride w (r_flags a)) n < 65536) /\ (uses_di o = true -> at32 (reg 32 DI a) (stride w (r_flags a)) n < 65536)).
  assert (D : Q \/ ~ Q) by (unfold Q; apply and_dec; (apply imp_dec; [apply bool_dec_|lia])). destruct D as [D|D]; [left|right; intros H; apply D, H; lia].
  intros k Hk. destruct (Nat.eq_dec k n) as [->|]; [exact D|apply IH; lia].
Qed.

(** ** A repeated comparison stops somewhere *)
Lemma first_false (g : nat -> bool) n : (forall k, (k < n)%nat -> g k = true) \/ (exists k, (k < n)%nat /\ g k = false /\ forall j, (j < k)%nat -> g j = true).
Proof.
  induction n as [|n [IH|(k & H1 & H2 & H3)]]; [left; intros; lia| |right; exists k; repeat split; auto; lia].
  destruct (g n) eqn:Hg; [left; intros k Hk; destruct (Nat.eq_dec k n) as [->|]; [exact Hg|apply IH; lia]|right; exists n; repeat split; auto].
Qed.
Lemma scan_exists p o w a : 0 <= reg 16 CX a -> exists n, scan_stops p o w n a.
Proof.
  intros H. set (N := Z.to_nat (reg 16 CX a)). assert (EN : Z.of_nat N = reg 16 CX a) by (unfold N; lia). clearbody N. destruct (first_false (fun k => goes_on p o w k a) N) as [A|(k & H1 & H2 & H3)].
  - exists N. split; [intros k Hk; apply A; lia|left; exact EN].
  - exists (S k). split; [intros j Hj; apply H3; lia|]. destruct (Nat.eq_dec (S k) N) as [E|E]; [left; rewrite E; exact EN|right; split; [lia|eauto]].
Qed.
Lemma scan67_exists p o w a : 0 <= reg 32 CX a -> exists n, scan_stops67 p o w n a.
Proof.
  intros H. set (N := Z.to_nat (reg 32 CX a)). assert (EN : Z.of_nat N = reg 32 CX a) by (unfold N; lia). clearbody N. destruct (first_false (fun k => Bool.eqb (elem_equal67 p o w k a) (p_rep p =? 0xF3)) N) as [A|(k & H1 & H2 & H3)].
  - exists N. split; [intros k Hk; apply eqb_prop, A; lia|left; exact EN].
  - exists (S k). split; [intros j Hj; apply eqb_prop, H3; lia|]. destruct (Nat.eq_dec (S k) N) as [E|E]; [left; rewrite E; exact EN|right; split; [lia|exists k; split; [reflexivity|]]].
    apply eqb_false_iff, H2.
Qed.
