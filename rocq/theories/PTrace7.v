(** The names of the trace against the instruction specifications (C83). *)
From Coq Require Import String Ascii.
From Verif Require Import Base Spec SpecOps SpecMul SpecStr SpecTrace SpecNames PBase PRun PTrace6.
Local Open Scope string_scope.
Local Open Scope Z_scope.
Lemma rm_cons p a t rg r rest : parse_rm p a t = Some (rg, r, rest) -> exists m u, t = m :: u /\ rg = (m / 8) mod 8.
Proof. destruct t as [|m u]; [discriminate|]. intros H. exists m, u. split; [reflexivity|eapply parse_rm_rg; eauto]. Qed.
(** Group opcodes. *)
Lemma group_in os op m t g names k : op <> 15 -> In (g, names) manual_groups -> In op g -> In k (nth (Z.to_nat ((m / 8) mod 8)) names []) -> In k (mnemonics os (op :: m :: t)).
Proof.
  intros H15 H1 H2 H3. rewrite mn_unfold by exact H15. rewrite !in_app_iff. right. right. apply in_flat_map. exists (g, names). split; [exact H1|]. cbn [fst snd].
  replace (isin op g) with true by (symmetry; apply isin_In; exact H2). exact H3.
Qed.
Lemma one_in os op t k l : op <> 15 -> In (k, l) manual -> In op l -> In k (mnemonics os (op :: t)).
Proof.
  intros H15 H1 H2. assert (E : mnemonics os (op :: t) = (named_in manual op ++ tl (k :: (map (fun e => if os then snd (snd e) else fst (snd e)) (filter (fun e => op =? fst e) manual_sized)
    ++ match t with m :: _ => flat_map (fun e => if isin op (fst e) then nth (Z.to_nat ((m / 8) mod 8)) (snd e) [] else []) manual_groups | [] => [] end)))%list).
  { unfold mnemonics. destruct op as [|q|q]; try reflexivity. do 4 (destruct q as [q|q|]; try reflexivity). contradiction H15. reflexivity. }
  rewrite E. apply in_app_iff. left. unfold named_in. apply in_map_iff. exists (k, l). split; [reflexivity|]. apply filter_In. split; [exact H1|]. apply isin_In. exact H2.
Qed.
Lemma reg8 m : let k := (m / 8) mod 8 in k = 0 \/ k = 1 \/ k = 2 \/ k = 3 \/ k = 4 \/ k = 5 \/ k = 6 \/ k = 7. Proof. cbv zeta. lia. Qed.
Ltac pick := repeat (first [left; reflexivity|right]).
Theorem alu_mnemonic os p a bs k w d v : decode_alu p a bs = Some (k, w, d, v) -> In (alu_name k) (mnemonics os bs).
Proof.
  destruct bs as [|op t]; [discriminate|]. cbn [decode_alu]. cbv zeta.
  destruct ((0 <=? op) && (op <? 64)) eqn:R.
  - intros H. assert (K : k = op / 8 /\ 0 <= op mod 8 <= 5).
    { revert H. destruct (op mod 8) as [|q|q] eqn:Em; [| |discriminate].
      - destruct (parse_rm p a t) as [[[rg r] rest]|]; [|discriminate]. destruct rest; [|discriminate]. intros [= <- _ _ _]. lia.
      - do 3 (try (destruct q as [q|q|]; try discriminate)).
        all: try (destruct (parse_rm p a t) as [[[rg r] rest]|]; [|discriminate]; destruct rest; [|discriminate]; intros [= <- _ _ _]; lia).
        all: destruct (imm _ t); [|discriminate]; intros [= <- _ _ _]; lia. }
    destruct K as [-> Hm]. assert (A : forallb (fun i => negb (Z.of_nat i mod 8 <=? 5) || existsb (fun e => String.eqb (fst e) (alu_name (Z.of_nat i / 8)) && isin (Z.of_nat i) (snd e)) manual) (seq 0 64) = true) by (vm_compute; reflexivity).
    rewrite forallb_forall in A. specialize (A (Z.to_nat op) ltac:(apply in_seq; lia)). rewrite Z2Nat.id in A by lia. replace (op mod 8 <=? 5) with true in A by lia. cbn [negb orb] in A.
    apply existsb_exists in A. destruct A as ([nm l] & I & A). cbn [fst snd] in A. apply andb_true_iff in A. destruct A as [A1 A2]. apply String.eqb_eq in A1. apply isin_In in A2. subst nm. eapply one_in; eauto. intros ->. cbn in Hm. lia.
  - intros H.
    assert (G : forall (kf : Z -> option Z) ww iw, match parse_rm p a t with Some (rg, r, rest) => match kf rg, imm iw rest with Some k, Some i => Some (k, ww, r, if iw =? ww then i else low ww (signed iw i)) | _, _ => None end | None => None end = Some (k, w, d, v) ->
      exists m u, t = m :: u /\ kf ((m / 8) mod 8) = Some k).
    { intros kf ww iw. destruct (parse_rm p a t) as [[[rg r] rest]|] eqn:Ep; [|discriminate]. destruct (rm_cons _ _ _ _ _ _ Ep) as (m & u & -> & ->). intros H'. exists m, u. split; [reflexivity|]. destruct (kf _); [|discriminate]. destruct (imm iw rest); [|discriminate]. injection H' as <-. reflexivity. }
    assert (T : forall ww, match parse_rm p a t with Some (rg, r, rest) => ifrest rest (8, ww, r, reg ww rg a) | None => None end = Some (k, w, d, v) -> k = 8).
    { intros ww. destruct (parse_rm p a t) as [[[rg r] rest]|]; [|discriminate]. destruct rest; [|discriminate]. cbn. congruence. }
    assert (I8 : forall ww, match imm ww t with Some i => Some (8, ww, RReg AX, i) | None => None end = Some (k, w, d, v) -> k = 8) by (intros ww; destruct (imm ww t); congruence).
    destruct op as [|q|q]; try discriminate. do 8 (try (destruct q as [q|q|]; try discriminate)).
    all: lazymatch goal with
      | |- In _ (mnemonics _ (132 :: _)) => apply T in H; subst k; apply (one_in os _ _ "TEST" [0x84; 0x85; 0xA8; 0xA9]); [discriminate|unfold manual; pick|cbn [In]; auto 8]
      | |- In _ (mnemonics _ (133 :: _)) => apply T in H; subst k; apply (one_in os _ _ "TEST" [0x84; 0x85; 0xA8; 0xA9]); [discriminate|unfold manual; pick|cbn [In]; auto 8]
      | |- In _ (mnemonics _ (168 :: _)) => apply I8 in H; subst k; apply (one_in os _ _ "TEST" [0x84; 0x85; 0xA8; 0xA9]); [discriminate|unfold manual; pick|cbn [In]; auto 8]
      | |- In _ (mnemonics _ (169 :: _)) => apply I8 in H; subst k; apply (one_in os _ _ "TEST" [0x84; 0x85; 0xA8; 0xA9]); [discriminate|unfold manual; pick|cbn [In]; auto 8]
      | |- In _ (mnemonics _ (246 :: _)) => destruct (G (fun rg => if rg =? 0 then Some 8 else None) 8 8 H) as (m & u & -> & Ek)
      | |- In _ (mnemonics _ (247 :: _)) => destruct (G (fun rg => if rg =? 0 then Some 8 else None) (osz p) (osz p) H) as (m & u & -> & Ek)
      | |- In _ (mnemonics _ (128 :: _)) => destruct (G (fun rg => Some rg) 8 8 H) as (m & u & -> & Ek)
      | |- In _ (mnemonics _ (129 :: _)) => destruct (G (fun rg => Some rg) (osz p) (osz p) H) as (m & u & -> & Ek)
      | |- In _ (mnemonics _ (131 :: _)) => destruct (G (fun rg => Some rg) (osz p) 8 H) as (m & u & -> & Ek)
      end.
    all: cbv beta in Ek; lazymatch goal with
      | |- In _ (mnemonics _ (246 :: _)) => destruct (_ =? 0) eqn:E0 in Ek; [|discriminate]; apply Z.eqb_eq in E0; injection Ek as <-; eapply group_in; [discriminate|unfold manual_groups; right; right; left; reflexivity|cbn [In]; auto 8|rewrite E0; left; reflexivity]
      | |- In _ (mnemonics _ (247 :: _)) => destruct (_ =? 0) eqn:E0 in Ek; [|discriminate]; apply Z.eqb_eq in E0; injection Ek as <-; eapply group_in; [discriminate|unfold manual_groups; right; right; left; reflexivity|cbn [In]; auto 8|rewrite E0; left; reflexivity]
      | _ => injection Ek as <-; eapply group_in; [discriminate|unfold manual_groups; left; reflexivity|cbn [In]; auto 8|destruct (reg8 m) as [E|[E|[E|[E|[E|[E|[E|E]]]]]]]; rewrite E; left; reflexivity]
      end.
Qed.
Theorem shift_mnemonic os p a bs k w r c : decode_shift p a bs = Some (k, w, r, c) -> In (shift_name k) (mnemonics os bs).
Proof.
  destruct bs as [|op t]; [discriminate|]. cbn [decode_shift]. cbv zeta. intros H.
  assert (K : exists m u, t = m :: u /\ k = (m / 8) mod 8 /\ In op [0xC0; 0xC1; 0xD0; 0xD1; 0xD2; 0xD3]).
  { destruct (parse_rm p a t) as [[[rg r'] rest]|] eqn:Ep.
    - destruct (rm_cons _ _ _ _ _ _ Ep) as (m & u & -> & ->). exists m, u. split; [reflexivity|]. cbn [In].
      destruct op as [|q|q]; try discriminate. do 8 (try (destruct q as [q|q|]; try discriminate)); (destruct rest as [|c' [|]]; try discriminate; injection H as <- _ _ _; split; [reflexivity|auto 8]).
    - exfalso. destruct op as [|q|q]; try discriminate. do 8 (try (destruct q as [q|q|]; try discriminate)). }
  destruct K as (m & u & -> & -> & I). eapply group_in; [cbn [In] in I; lia|unfold manual_groups; right; left; reflexivity|exact I|].
  destruct (reg8 m) as [E|[E|[E|[E|[E|[E|[E|E]]]]]]]; rewrite E; pick.
Qed.
Theorem muldiv_mnemonic os p a bs k w r : decode_muldiv p a bs = Some (k, w, r) -> In (muldiv_name k) (mnemonics os bs).
Proof.
  destruct bs as [|op t]; [discriminate|]. cbn [decode_muldiv]. destruct (parse_rm p a t) as [[[rg r'] rest]|] eqn:Ep; [|discriminate]. destruct (rm_cons _ _ _ _ _ _ Ep) as (m & u & -> & ->). destruct rest; [|discriminate].
  destruct (4 <=? (m / 8) mod 8) eqn:E4; [|discriminate]. intros H.
  assert (I : In op [0xF6; 0xF7] /\ k = (m / 8) mod 8). { cbn [In]. destruct (Z.eqb_spec op 0xF6); [injection H as <- _ _; auto|]. destruct (Z.eqb_spec op 0xF7); [injection H as <- _ _; auto|discriminate]. }
  destruct I as [I ->]. eapply group_in; [cbn [In] in I; lia|unfold manual_groups; right; right; left; reflexivity|exact I|].
  destruct (reg8 m) as [E|[E|[E|[E|[E|[E|[E|E]]]]]]]; rewrite E in *; try discriminate E4; pick.
Qed.
Definition unary_name (o : uop) : string := match o with U_INC => "INC" | U_DEC => "DEC" | U_NOT => "NOT" | U_NEG => "NEG" end.
Theorem unary_mnemonic os p a bs o w r : decode_unary p a bs = Some (o, w, r) -> In (unary_name o) (mnemonics os bs).
Proof.
  destruct bs as [|op t]; [discriminate|]. cbn [decode_unary]. cbv zeta.
  destruct ((0x40 <=? op) && (op <=? 0x47)) eqn:R1; [|destruct ((0x48 <=? op) && (op <=? 0x4F)) eqn:R2].
  - destruct t; [|discriminate]. intros [= <- _ _]. eapply (one_in os op [] "INC"); [lia|unfold manual; pick|]. apply isin_In.
    assert (A : forallb (fun i => isin (0x40 + Z.of_nat i) (from_to 0x40 0x47)) (seq 0 8) = true) by (vm_compute; reflexivity). rewrite forallb_forall in A. specialize (A (Z.to_nat (op - 0x40)) ltac:(apply in_seq; lia)). rewrite Z2Nat.id in A by lia. replace (0x40 + (op - 0x40)) with op in A by lia. exact A.
  - destruct t; [|discriminate]. intros [= <- _ _]. eapply (one_in os op [] "DEC"); [lia|unfold manual; pick|]. apply isin_In.
    assert (A : forallb (fun i => isin (0x48 + Z.of_nat i) (from_to 0x48 0x4F)) (seq 0 8) = true) by (vm_compute; reflexivity). rewrite forallb_forall in A. specialize (A (Z.to_nat (op - 0x48)) ltac:(apply in_seq; lia)). rewrite Z2Nat.id in A by lia. replace (0x48 + (op - 0x48)) with op in A by lia. exact A.
  - assert (G : forall ww (sel : Z -> option uop), match parse_rm p a t with Some (rg, r, []) => match sel rg with Some o => Some (o, ww, r) | None => None end | _ => None end = Some (o, w, r) -> exists m u, t = m :: u /\ sel ((m / 8) mod 8) = Some o).
    { intros ww sel. destruct (parse_rm p a t) as [[[rg r'] rest]|] eqn:Ep; [|discriminate]. destruct (rm_cons _ _ _ _ _ _ Ep) as (m & u & -> & ->). destruct rest; [|discriminate]. intros H. exists m, u. split; [reflexivity|]. destruct (sel _); [|discriminate]. injection H as <-. reflexivity. }
    intros H. destruct op as [|q|q]; try discriminate. do 8 (try (destruct q as [q|q|]; try discriminate)).
    all: destruct (G _ _ H) as (m & u & -> & Es); cbv beta in Es; destruct (reg8 m) as [E|[E|[E|[E|[E|[E|[E|E]]]]]]]; rewrite E in Es; cbn in Es; try discriminate Es; injection Es as <-;
      lazymatch goal with
      | |- In _ (mnemonics _ (254 :: _)) => eapply group_in; [discriminate|unfold manual_groups; do 3 right; left; reflexivity|cbn [In]; auto 8|rewrite E; pick]
      | |- In _ (mnemonics _ (255 :: _)) => eapply group_in; [discriminate|unfold manual_groups; do 4 right; left; reflexivity|cbn [In]; auto 8|rewrite E; pick]
      | _ => eapply group_in; [discriminate|unfold manual_groups; do 2 right; left; reflexivity|cbn [In]; auto 8|rewrite E; pick]
      end.
Qed.
(** String instructions: the name with the letter of the width. *)
Definition str_name (o : sop) (w : Z) : string :=
  append (match o with S_MOVS => "MOVS" | S_CMPS => "CMPS" | S_STOS => "STOS" | S_LODS => "LODS" | S_SCAS => "SCAS" | S_INS => "INS" | S_OUTS => "OUTS" end) (if w =? 8 then "B" else if w =? 16 then "W" else "D").
Theorem str_mnemonic p bs o w : decode_str p bs = Some (o, w) -> In (str_name o w) (mnemonics (p_os p) bs).
Proof.
  unfold decode_str, osz. destruct (p_as p); [discriminate|]. destruct bs as [|op t]; [discriminate|]. intros H.
  destruct op as [|q|q]; try discriminate. do 8 (try (destruct q as [q|q|]; try discriminate)); destruct t; try discriminate; destruct (p_os p); injection H as <- <-; vm_compute; pick.
Qed.
(** One name for each encoding, but for the synonyms SHL and SAL. *)
Definition single (l : list string) : bool :=
  forallb (fun x => forallb (fun y => String.eqb x y || (existsb (String.eqb x) ["SHL"; "SAL"] && existsb (String.eqb y) ["SHL"; "SAL"])) l) l.
Lemma single_ok l x y : single l = true -> In x l -> In y l -> x = y \/ (In x ["SHL"; "SAL"] /\ In y ["SHL"; "SAL"]).
Proof.
  unfold single. rewrite forallb_forall. intros H Hx Hy. specialize (H _ Hx). rewrite forallb_forall in H. specialize (H _ Hy). apply orb_true_iff in H. destruct H as [H|H]; [left; apply String.eqb_eq, H|right].
  apply andb_true_iff in H. destruct H as [A B]. apply existsb_exists in A. apply existsb_exists in B. destruct A as (x' & Ia & Ea). destruct B as (y' & Ib & Eb). apply String.eqb_eq in Ea. apply String.eqb_eq in Eb. subst. auto.
Qed.
Definition bytes_all : list Z := map Z.of_nat (seq 0 256).
Lemma in_bytes b : 0 <= b < 256 -> In b bytes_all. Proof. intros H. apply in_map_iff. exists (Z.to_nat b). split; [lia|apply in_seq; lia]. Qed.
Lemma single_all : forallb (fun os => forallb (fun b => single (mnemonics os [b]) && single (named_in manual0F b) &&
    forallb (fun k => (b =? 15) || single (mnemonics os [b; 8 * Z.of_nat k])) (seq 0 8)) bytes_all) [true; false] = true.
Proof. vm_compute. reflexivity. Qed.
Lemma mnemonics_unique os bs m1 m2 : Forall (fun b => 0 <= b < 256) bs -> In m1 (mnemonics os bs) -> In m2 (mnemonics os bs) -> m1 = m2 \/ (In m1 ["SHL"; "SAL"] /\ In m2 ["SHL"; "SAL"]).
Proof.
  intros Hb. apply single_ok. pose proof single_all as A. rewrite forallb_forall in A. specialize (A os ltac:(destruct os; cbn; auto)). rewrite forallb_forall in A.
  destruct bs as [|op t]; [reflexivity|]. inversion_clear Hb as [|? ? H1 H2]. pose proof (A op (in_bytes _ H1)) as B. rewrite !andb_true_iff in B. destruct B as [[B1 B2] B3].
  destruct t as [|m t]; [exact B1|]. inversion_clear H2 as [|? ? H3 H4]. destruct (Z.eq_dec op 15) as [->|H15].
  - specialize (A m (in_bytes _ H3)). rewrite !andb_true_iff in A. exact (proj2 (proj1 A)).
  - rewrite forallb_forall in B3. specialize (B3 (Z.to_nat ((m / 8) mod 8)) ltac:(apply in_seq; lia)). replace (op =? 15) with false in B3 by lia. cbn [orb] in B3. rewrite Z2Nat.id in B3 by lia.
    rewrite mn_unfold in B3 |- * by exact H15. replace ((8 * ((m / 8) mod 8) / 8) mod 8) with ((m / 8) mod 8) in B3 by (rewrite Z.mul_comm, Z.div_mul by lia; rewrite Z.mod_mod by lia; reflexivity). exact B3.
Qed.
