(** The operands of the trace line against the instruction specifications (C84). *)
From Coq Require Import String Ascii.
From Verif Require Import Base Cpu Alu Ops Machine Trace Spec SpecOps SpecMul SpecRun SpecTop SpecCodes SpecStop SpecEa PBase PMem PRun PFrame PExec PStep PEa4 PCodes SpecTrace SpecDump PDump SpecNames SpecOpers PTrace6 PTrace7 PTrace8.
Local Open Scope Z_scope.

Section Links.
Context (E : env) (base : Z) (s : st) (pre : list Z) (p : pfx) (op : Z) (t : list Z) (Hf : fetched E base s pre p (op :: t)) (Hs : ea_supported p (ar s) t).
(** The ModR/M operand. *)
Lemma rm_stands w rg r rest : parse_rm p (ar s) t = Some (rg, r, rest) -> reg_field t = rg /\ exists o, rm_oper p (ar s) w t = Some (o, rest) /\ stands w o r /\ value w o (ar s) = Some (rd_rm w r (ar s)).
Proof.
  intros H. destruct (rm_cons _ _ _ _ _ _ H) as (m & u & Et & ->). split; [rewrite Et; reflexivity|]. destruct r as [n|sg off].
  - rewrite Et in *. cbn [parse_rm] in H. cbv zeta in H. unfold rm_oper. destruct (m / 64 =? 3) eqn:M3; [|exfalso; revert H; repeat match goal with |- context [match ?e with _ => _ end] => destruct e; try discriminate end].
    injection H as -> ->. eexists. split; [reflexivity|]. split; [split; reflexivity|reflexivity].
  - destruct (instr_ctx _ _ _ _ _ _ _ Hf) as (_ & _ & _ & C & _). pose proof (real_agrees E base s pre p _ _ _ _ _ _ _ Hf C H Hs) as K. unfold rm_oper. rewrite Et in H, K |- *.
    assert (M3 : m / 64 =? 3 = false) by (apply Z.eqb_neq; intros M3; cbn [parse_rm] in H; rewrite M3 in H; discriminate). rewrite M3, K. eexists. split; [reflexivity|]. split; reflexivity.
Qed.
Definition wd (b : bool) : Z := if b then osz p else 8.
Definition ek (b : bool) : kind := if b then Ev else Eb.
Definition gk (b : bool) : kind := if b then Gv else Gb.
Lemma rm_wd b rg r rest : parse_rm p (ar s) t = Some (rg, r, rest) -> reg_field t = rg /\ exists o o8, rm_oper p (ar s) 8 t = Some (o8, rest) /\ rm_oper p (ar s) (wd b) t = Some (o, rest) /\
  SpecOpers.oper p (ar s) op t rest (ek b) = Some o /\ stands (wd b) o r /\ value (wd b) o (ar s) = Some (rd_rm (wd b) r (ar s)).
Proof.
  intros H. destruct (rm_stands 8 rg r rest H) as (G & o8 & E8 & _). destruct (rm_stands (wd b) rg r rest H) as (_ & o & Ew & S & V). split; [exact G|]. exists o, o8. repeat (split; [assumption|]). split; [|auto].
  destruct b; cbn [ek SpecOpers.oper wd] in *; [rewrite Ew|rewrite E8 in *; injection Ew as <-]; reflexivity.
Qed.
Definition shape (ks : list kind) : Prop := op <> 15 /\ op_map (p_os p) op (reg_field t) = Some ks.
Lemma operands_shape ks : shape ks -> operands p (ar s) (op :: t) = opers_of p (ar s) op t ks.
Proof. intros [H1 H2]. cbn [operands]. replace (op =? 15) with false by lia. rewrite H2. reflexivity. Qed.
Lemma ek_modrm b ks : existsb by_modrm (ek b :: ks) = true. Proof. destruct b; reflexivity. Qed.
Lemma link_EG b rg r : shape [ek b; gk b] -> parse_rm p (ar s) t = Some (rg, r, []) -> exists o1 o2, operands p (ar s) (op :: t) = Some [o1; o2] /\ stands (wd b) o1 r /\ value (wd b) o2 (ar s) = Some (reg (wd b) rg (ar s)).
Proof.
  intros Sh H. destruct (rm_wd b _ _ _ H) as (G & o & o8 & E8 & _ & Eo & S & V). exists o, (XReg (wd b) rg). rewrite (operands_shape _ Sh). unfold opers_of. rewrite ek_modrm, E8. cbn [all_opers]. rewrite Eo.
  split; [|split; [exact S|reflexivity]]. destruct b; cbn [gk SpecOpers.oper wd]; rewrite G; reflexivity.
Qed.
Lemma link_GE b rg r : shape [gk b; ek b] -> parse_rm p (ar s) t = Some (rg, r, []) -> exists o1 o2, operands p (ar s) (op :: t) = Some [o1; o2] /\ stands (wd b) o1 (RReg rg) /\ value (wd b) o2 (ar s) = Some (rd_rm (wd b) r (ar s)).
Proof.
  intros Sh H. destruct (rm_wd b _ _ _ H) as (G & o & o8 & E8 & _ & Eo & S & V). exists (XReg (wd b) rg), o. rewrite (operands_shape _ Sh). unfold opers_of. replace (existsb by_modrm [gk b; ek b]) with true by (destruct b; reflexivity). rewrite E8. cbn [all_opers]. rewrite Eo.
  split; [|split; [split; reflexivity|exact V]]. destruct b; cbn [gk SpecOpers.oper wd]; rewrite G; reflexivity.
Qed.
Lemma link_AI (b : bool) i : shape [if b then Reg_eAX else Reg_AL; if b then Iv else Ib] -> imm (wd b) t = Some i -> operands p (ar s) (op :: t) = Some [XReg (wd b) AX; XImm i].
Proof. intros Sh H. rewrite (operands_shape _ Sh). unfold opers_of. destruct b; cbn [existsb by_modrm orb all_opers SpecOpers.oper wd] in *; rewrite H; reflexivity. Qed.
(** Register or memory, and an operand that is no register or memory. *)
Lemma link_EI b k rg r rest o2 : shape [ek b; k] -> by_modrm k = false -> parse_rm p (ar s) t = Some (rg, r, rest) -> SpecOpers.oper p (ar s) op t rest k = Some o2 ->
  exists o1, operands p (ar s) (op :: t) = Some [o1; o2] /\ stands (wd b) o1 r.
Proof.
  intros Sh Hk H H2. destruct (rm_wd b _ _ _ H) as (G & o & o8 & E8 & _ & Eo & S & V). exists o. rewrite (operands_shape _ Sh). unfold opers_of. rewrite ek_modrm, E8. cbn [all_opers]. rewrite Eo, H2. auto.
Qed.
Lemma link_E b rg r : shape [ek b] -> parse_rm p (ar s) t = Some (rg, r, []) -> exists o1, operands p (ar s) (op :: t) = Some [o1] /\ stands (wd b) o1 r.
Proof.
  intros Sh H. destruct (rm_wd b _ _ _ H) as (G & o & o8 & E8 & _ & Eo & S & V). exists o. rewrite (operands_shape _ Sh). unfold opers_of. rewrite ek_modrm, E8. cbn [all_opers]. rewrite Eo. auto.
Qed.
End Links.

Lemma row_shape (p : pfx) op g : 0 <= op < 64 -> op mod 8 <= 5 -> op_map (p_os p) op g = Some (nth (Z.to_nat (op mod 8)) [[Eb; Gb]; [Ev; Gv]; [Gb; Eb]; [Gv; Ev]; [Reg_AL; Ib]; [Reg_eAX; Iv]] []).
Proof.
  intros H. assert (I : In op (map Z.of_nat (seq 0 64))) by (replace op with (Z.of_nat (Z.to_nat op)) by lia; apply in_map, in_seq; lia).
  cbv [map seq In Z.of_nat Pos.of_succ_nat Pos.succ] in I. clear H.
  repeat (destruct I as [Eo|I]; [subst op; intros L; first [reflexivity|exfalso; apply L; reflexivity]|]). contradiction.
Qed.
Section Theorems.
Context (E : env) (base : Z) (s : st) (pre : list Z) (p : pfx) (bs : list Z) (Hf : fetched E base s pre p bs) (Hs : match bs with op :: t => ea_supported p (ar s) t | [] => True end).
Ltac rmcase H := let rg := fresh "rg" in let r := fresh "r" in let rest := fresh "rest" in let Ep := fresh "Ep" in
  destruct (parse_rm p (ar s) _) as [[[rg r] rest]|] eqn:Ep; [|discriminate H].
Theorem alu_operands k w d v : decode_alu p (ar s) bs = Some (k, w, d, v) -> exists o1 o2, operands p (ar s) bs = Some [o1; o2] /\ stands w o1 d /\ value w o2 (ar s) = Some v.
Proof.
  destruct bs as [|op t]; [discriminate|]. cbn [decode_alu]. cbv zeta.
  assert (EG : forall b k0, shape p op t [ek b; gk b] -> match parse_rm p (ar s) t with Some (rg, r, rest) => ifrest rest (k0, wd p b, r, reg (wd p b) rg (ar s)) | None => None end = Some (k, w, d, v) -> exists o1 o2, operands p (ar s) (op :: t) = Some [o1; o2] /\ stands w o1 d /\ value w o2 (ar s) = Some v).
  { intros b k0 Sh. destruct (parse_rm p (ar s) t) as [[[rg r] rest]|] eqn:Ep; [|discriminate]. destruct rest; [|discriminate]. intros [= <- <- <- <-]. exact (link_EG E base s pre p op t Hf Hs b rg r Sh Ep). }
  assert (GE : forall b k0, shape p op t [gk b; ek b] -> match parse_rm p (ar s) t with Some (rg, r, rest) => ifrest rest (k0, wd p b, RReg rg, rd_rm (wd p b) r (ar s)) | None => None end = Some (k, w, d, v) -> exists o1 o2, operands p (ar s) (op :: t) = Some [o1; o2] /\ stands w o1 d /\ value w o2 (ar s) = Some v).
  { intros b k0 Sh. destruct (parse_rm p (ar s) t) as [[[rg r] rest]|] eqn:Ep; [|discriminate]. destruct rest; [|discriminate]. intros [= <- <- <- <-]. exact (link_GE E base s pre p op t Hf Hs b rg r Sh Ep). }
  assert (AI : forall (b : bool) k0, shape p op t [if b then Reg_eAX else Reg_AL; if b then Iv else Ib] -> match imm (wd p b) t with Some i => Some (k0, wd p b, RReg AX, i) | None => None end = Some (k, w, d, v) -> exists o1 o2, operands p (ar s) (op :: t) = Some [o1; o2] /\ stands w o1 d /\ value w o2 (ar s) = Some v).
  { intros b k0 Sh. destruct (imm (wd p b) t) as [i|] eqn:Ei; [|discriminate]. intros [= <- <- <- <-]. eexists _, _. split; [exact (link_AI s p op t b i Sh Ei)|]. split; [split; reflexivity|reflexivity]. }
  assert (EI : forall b ki iw (kf : Z -> option Z), shape p op t [ek b; ki] \/ (exists g, kf g = None) /\ (forall rg k, reg_field t = rg -> kf rg = Some k -> shape p op t [ek b; ki]) -> by_modrm ki = false ->
     (forall rest i, imm iw rest = Some i -> SpecOpers.oper p (ar s) op t rest ki = Some (XImm (if iw =? wd p b then i else low (wd p b) (signed iw i)))) ->
     match parse_rm p (ar s) t with Some (rg, r, rest) => match kf rg, imm iw rest with Some k, Some i => Some (k, wd p b, r, if iw =? wd p b then i else low (wd p b) (signed iw i)) | _, _ => None end | None => None end = Some (k, w, d, v) ->
     exists o1 o2, operands p (ar s) (op :: t) = Some [o1; o2] /\ stands w o1 d /\ value w o2 (ar s) = Some v).
  { intros b ki iw kf Sh Hk Hi. destruct (parse_rm p (ar s) t) as [[[rg r] rest]|] eqn:Ep; [|discriminate]. destruct (kf rg) as [k0|] eqn:Ek; [|discriminate]. destruct (imm iw rest) as [i|] eqn:Ei; [|discriminate]. intros [= <- <- <- <-].
    assert (Sh' : shape p op t [ek b; ki]) by (destruct Sh as [Sh|[_ Sh]]; [exact Sh|eapply Sh; [|exact Ek]; exact (proj1 (rm_wd E base s pre p op t Hf Hs b _ _ _ Ep))]).
    destruct (link_EI E base s pre p op t Hf Hs b ki rg r rest _ Sh' Hk Ep (Hi _ _ Ei)) as (o1 & H1 & H2). eexists _, _. split; [exact H1|]. split; [exact H2|reflexivity]. }
  destruct ((0 <=? op) && (op <? 64)) eqn:R.
  - pose proof (row_shape p op (reg_field t) ltac:(lia)) as M. assert (N15 : op mod 8 <= 5 -> op <> 15) by (intros H ->; cbn in H; lia).
    destruct (op mod 8) as [|q|q] eqn:Em; [exact (EG false _ (conj (N15 ltac:(lia)) (M ltac:(lia))))| |discriminate].
    do 3 (try (destruct q as [q|q|]; try discriminate)).
    + exact (AI true _ (conj (N15 ltac:(lia)) (M ltac:(lia)))).
    + exact (GE true _ (conj (N15 ltac:(lia)) (M ltac:(lia)))).
    + exact (AI false _ (conj (N15 ltac:(lia)) (M ltac:(lia)))).
    + exact (GE false _ (conj (N15 ltac:(lia)) (M ltac:(lia)))).
    + exact (EG true _ (conj (N15 ltac:(lia)) (M ltac:(lia)))).
  - clear R.
    destruct op as [|q|q]; try discriminate. do 8 (try (destruct q as [q|q|]; try discriminate)).
    all: lazymatch goal with
      | |- context [operands _ _ (132 :: _)] => apply (EG false 8); split; [discriminate|reflexivity]
      | |- context [operands _ _ (133 :: _)] => apply (EG true 8); split; [discriminate|reflexivity]
      | |- context [operands _ _ (168 :: _)] => apply (AI false 8); split; [discriminate|reflexivity]
      | |- context [operands _ _ (169 :: _)] => apply (AI true 8); split; [discriminate|reflexivity]
      | |- context [operands _ _ (128 :: _)] => apply (EI false Ib 8 (@Some Z)); [left; split; [discriminate|reflexivity]|reflexivity|]
      | |- context [operands _ _ (129 :: _)] => apply (EI true Iv (osz p) (@Some Z)); [left; split; [discriminate|reflexivity]|reflexivity|]
      | |- context [operands _ _ (131 :: _)] => apply (EI true Isv 8 (@Some Z)); [left; split; [discriminate|reflexivity]|reflexivity|]
      | |- context [operands _ _ (246 :: _)] => apply (EI false Ib 8 (fun rg => if rg =? 0 then Some 8 else None)); [right; split; [exists 1; reflexivity|]|reflexivity|]
      | |- context [operands _ _ (247 :: _)] => apply (EI true Iv (osz p) (fun rg => if rg =? 0 then Some 8 else None)); [right; split; [exists 1; reflexivity|]|reflexivity|]
      end.
    all: cbn [SpecOpers.oper wd].
    all: try (intros rg0 k0 Hg0; rewrite <- Hg0; destruct (reg_field t =? 0) eqn:Z0; [|discriminate]; intros _; apply Z.eqb_eq in Z0; split; [discriminate|rewrite Z0; reflexivity]).
    all: intros rest i Hi; rewrite Hi; rewrite ?Z.eqb_refl; try reflexivity.
    cbn [option_map]. unfold osz. destruct (p_os p); reflexivity.
Qed.
(** The count of a shift is shown as such: an immediate, 1 or CL. *)
Theorem shift_operands k w r c : decode_shift p (ar s) bs = Some (k, w, r, c) -> exists o1 o2, operands p (ar s) bs = Some [o1; o2] /\ stands w o1 r /\ value 8 o2 (ar s) = Some c.
Proof.
  destruct bs as [|op t]; [discriminate|].
  assert (I8 : forall b, shape p op t [ek b; Ib] -> match parse_rm p (ar s) t with Some (rg, r, [c]) => Some (rg, wd p b, r, c) | _ => None end = Some (k, w, r, c) -> exists o1 o2, operands p (ar s) (op :: t) = Some [o1; o2] /\ stands w o1 r /\ value 8 o2 (ar s) = Some c).
  { intros b Sh. destruct (parse_rm p (ar s) t) as [[[rg r0] rest]|] eqn:Ep; [|discriminate]. destruct rest as [|c0 [|c1 rest]]; try discriminate. intros [= <- <- <- <-].
    destruct (link_EI E base s pre p op t Hf Hs b Ib rg r0 [c0] (XImm c0) Sh eq_refl Ep eq_refl) as (o1 & H1 & H2). exists o1, (XImm c0). auto. }
  assert (F : forall b ki o2 cc, shape p op t [ek b; ki] -> by_modrm ki = false -> (forall rest, SpecOpers.oper p (ar s) op t rest ki = Some o2) -> value 8 o2 (ar s) = Some cc ->
     match parse_rm p (ar s) t with Some (rg, r, []) => Some (rg, wd p b, r, cc) | _ => None end = Some (k, w, r, c) -> exists o1 o2, operands p (ar s) (op :: t) = Some [o1; o2] /\ stands w o1 r /\ value 8 o2 (ar s) = Some c).
  { intros b ki o2 cc Sh Hk Ho Hv. destruct (parse_rm p (ar s) t) as [[[rg r0] rest]|] eqn:Ep; [|discriminate]. destruct rest; [|discriminate]. intros [= <- <- <- <-].
    destruct (link_EI E base s pre p op t Hf Hs b ki rg r0 [] o2 Sh Hk Ep (Ho _)) as (o1 & H1 & H2). exists o1, o2. auto. }
  cbn [decode_shift]. destruct op as [|q|q]; try discriminate. do 8 (try (destruct q as [q|q|]; try discriminate)).
  all: lazymatch goal with
    | |- context [operands _ _ (192 :: _)] => apply (I8 false); split; [discriminate|reflexivity]
    | |- context [operands _ _ (193 :: _)] => apply (I8 true); split; [discriminate|reflexivity]
    | |- context [operands _ _ (208 :: _)] => apply (F false One XOne 1); [split; [discriminate|reflexivity]|reflexivity|reflexivity|reflexivity]
    | |- context [operands _ _ (209 :: _)] => apply (F true One XOne 1); [split; [discriminate|reflexivity]|reflexivity|reflexivity|reflexivity]
    | |- context [operands _ _ (210 :: _)] => apply (F false Reg_CL (XReg 8 CX) (reg 8 CX (ar s))); [split; [discriminate|reflexivity]|reflexivity|reflexivity|reflexivity]
    | |- context [operands _ _ (211 :: _)] => apply (F true Reg_CL (XReg 8 CX) (reg 8 CX (ar s))); [split; [discriminate|reflexivity]|reflexivity|reflexivity|reflexivity]
    end.
Qed.
Lemma f6_shape (b : bool) (op : Z) (t : list Z) : op = (if b then 247 else 246) -> reg_field t <> 0 -> shape p op t [ek b].
Proof.
  intros -> H. split; [destruct b; discriminate|]. destruct b.
  - change (op_map (p_os p) 247 (reg_field t)) with (Some (if reg_field t =? 0 then [Ev; Iv] else [Ev])). replace (reg_field t =? 0) with false by lia. reflexivity.
  - change (op_map (p_os p) 246 (reg_field t)) with (Some (if reg_field t =? 0 then [Eb; Ib] else [Eb])). replace (reg_field t =? 0) with false by lia. reflexivity.
Qed.
Theorem muldiv_operands k w r : decode_muldiv p (ar s) bs = Some (k, w, r) -> exists o, operands p (ar s) bs = Some [o] /\ stands w o r.
Proof.
  destruct bs as [|op t]; [discriminate|]. cbn [decode_muldiv]. destruct (parse_rm p (ar s) t) as [[[rg r0] rest]|] eqn:Ep; [|discriminate]. destruct rest; [|discriminate]. destruct (4 <=? rg) eqn:G; [|discriminate].
  assert (Rg : reg_field t = rg) by (destruct (rm_cons _ _ _ _ _ _ Ep) as (m & u & -> & ->); reflexivity).
  destruct (Z.eqb_spec op 246) as [E6|]; [|destruct (Z.eqb_spec op 247) as [E7|]; [|discriminate]]; intros [= <- <- <-].
  - apply (link_E E base s pre p op t Hf Hs false rg r0 (f6_shape false op t E6 ltac:(lia)) Ep).
  - apply (link_E E base s pre p op t Hf Hs true rg r0 (f6_shape true op t E7 ltac:(lia)) Ep).
Qed.
Theorem unary_operands o w r : decode_unary p (ar s) bs = Some (o, w, r) -> exists o1, operands p (ar s) bs = Some [o1] /\ stands w o1 r.
Proof.
  destruct bs as [|op t]; [discriminate|].
  assert (RV : forall n, shape p op t [Rv] -> n = op mod 8 -> ifrest t (o, osz p, RReg n) = Some (o, w, r) -> exists o1, operands p (ar s) (op :: t) = Some [o1] /\ stands w o1 r).
  { intros n [H15 Sh] -> Hi. destruct t; [|discriminate]. injection Hi as <- <-. exists (XReg (osz p) (op mod 8)). cbn [operands]. replace (op =? 15) with false by lia. rewrite Sh. split; [reflexivity|split; reflexivity]. }
  assert (G : forall (b : bool) (sel : Z -> option uop), (forall rg o', sel rg = Some o' -> reg_field t = rg -> shape p op t [ek b]) ->
    match parse_rm p (ar s) t with Some (rg, r, []) => match sel rg with Some o => Some (o, wd p b, r) | None => None end | _ => None end = Some (o, w, r) -> exists o1, operands p (ar s) (op :: t) = Some [o1] /\ stands w o1 r).
  { intros b sel Sh. destruct (parse_rm p (ar s) t) as [[[rg r0] rest]|] eqn:Ep; [|discriminate]. destruct rest; [|discriminate]. destruct (sel rg) as [o'|] eqn:Es; [|discriminate]. intros [= <- <- <-].
    assert (Rg : reg_field t = rg) by (destruct (rm_cons _ _ _ _ _ _ Ep) as (m & u & -> & ->); reflexivity).
    exact (link_E E base s pre p op t Hf Hs b rg r0 (Sh _ _ Es Rg) Ep). }
  assert (S16 : 64 <= op <= 79 -> op_map (p_os p) op (reg_field t) = Some [Rv]).
  { intros H. assert (I : In op (map Z.of_nat (seq 64 16))) by (replace op with (Z.of_nat (Z.to_nat op)) by lia; apply in_map, in_seq; lia).
    cbv [map seq In Z.of_nat Pos.of_succ_nat Pos.succ] in I. clear RV G H. repeat (destruct I as [Eo|I]; [rewrite <- Eo; reflexivity|]). contradiction. }
  cbn [decode_unary]. cbv zeta. destruct ((64 <=? op) && (op <=? 71)) eqn:R1; [|destruct ((72 <=? op) && (op <=? 79)) eqn:R2].
  - intros Hi. assert (o = U_INC) by (destruct t; [injection Hi as <- _ _; reflexivity|discriminate]). subst o. apply (RV (op - 64)); [split; [lia|apply S16; lia]|lia|exact Hi].
  - intros Hi. assert (o = U_DEC) by (destruct t; [injection Hi as <- _ _; reflexivity|discriminate]). subst o. apply (RV (op - 72)); [split; [lia|apply S16; lia]|lia|exact Hi].
  - clear R1 R2 S16 RV. destruct op as [|q|q]; try discriminate. do 8 (try (destruct q as [q|q|]; try discriminate)).
    all: lazymatch goal with
      | |- context [operands _ _ (246 :: _)] => apply (G false (fun rg => if rg =? 2 then Some U_NOT else if rg =? 3 then Some U_NEG else None)); intros rg o' Hsel Hrg; apply f6_shape; [reflexivity|]; intros H0; rewrite Hrg in H0; rewrite H0 in Hsel; discriminate
      | |- context [operands _ _ (247 :: _)] => apply (G true (fun rg => if rg =? 2 then Some U_NOT else if rg =? 3 then Some U_NEG else None)); intros rg o' Hsel Hrg; apply f6_shape; [reflexivity|]; intros H0; rewrite Hrg in H0; rewrite H0 in Hsel; discriminate
      | |- context [operands _ _ (254 :: _)] => apply (G false (fun rg => if rg =? 0 then Some U_INC else if rg =? 1 then Some U_DEC else None)); intros rg o' _ _; split; [discriminate|reflexivity]
      | |- context [operands _ _ (255 :: _)] => apply (G true (fun rg => if rg =? 0 then Some U_INC else if rg =? 1 then Some U_DEC else None)); intros rg o' _ _; split; [discriminate|reflexivity]
      end.
Qed.
End Theorems.

(** ** Texts and operands *)
Local Open Scope string_scope.
Definition find_reg (u : string) : option (Z * Z) :=
  (fix go l := match l with [] => None | (t, k) :: r => if String.eqb u t then Some k else go r end)
    (flat_map (fun w => map (fun n => (nth (Z.to_nat n) (reg_names w) "", (w, n))) [0; 1; 2; 3; 4; 5; 6; 7]) [8; 16; 32]).
Lemma find_reg_ok a w n u : 0 <= n < 8 -> (w = 8 \/ w = 16 \/ w = 32) -> shows a (XReg w n) u -> find_reg u = Some (w, n).
Proof.
  intros Hn Hw H. inversion H as [w0 n0 u0 E Ew Eu| | | | | | |]; subst.
  assert (C : n = 0 \/ n = 1 \/ n = 2 \/ n = 3 \/ n = 4 \/ n = 5 \/ n = 6 \/ n = 7) by lia.
  destruct Hw as [-> | [-> | ->]]; destruct C as [-> | [-> | [-> | [-> | [-> | [-> | [-> | ->]]]]]]]; cbn in E; injection E as <-; reflexivity.
Qed.
Lemma seg_distinct a n n' u : 0 <= n < 6 -> 0 <= n' < 6 -> shows a (XSeg n) u -> shows a (XSeg n') u -> n = n'.
Proof.
  intros Hn Hn' H H'. inversion H as [|n0 u0 E En Eu| | | | | |]; subst. inversion H' as [|n1 u1 E' En' Eu'| | | | | |]; subst.
  assert (C : n = 0 \/ n = 1 \/ n = 2 \/ n = 3 \/ n = 4 \/ n = 5) by lia. assert (C' : n' = 0 \/ n' = 1 \/ n' = 2 \/ n' = 3 \/ n' = 4 \/ n' = 5) by lia.
  destruct C as [-> | [-> | [-> | [-> | [-> | ->]]]]]; cbn in E; injection E as <-; destruct C' as [-> | [-> | [-> | [-> | [-> | ->]]]]]; cbn in E'; first [reflexivity|discriminate].
Qed.
Lemma seg_text_length a sg v : lookup_text sg (segments a) = Some v -> String.length sg = 2%nat.
Proof.
  cbn [lookup_text segments]. repeat match goal with |- context [String.eqb sg ?n] => destruct (String.eqb_spec sg n) as [H|H]; [rewrite H; reflexivity|clear H] end. discriminate.
Qed.
Lemma mem_distinct a x x' u : shows a (XMem x) u -> shows a (XMem x') u -> x = x'.
Proof.
  intros H H'. inversion H as [| |x0 sg e v o H1 H2 H3 E1 E2| | | | |]; subst. inversion H' as [| |x0 sg' e' v' o' H1' H2' H3' E1' E2'| | | | |]; subst.
  cbn [joined] in E2'. apply app_inj in E2'; [|rewrite (seg_text_length _ _ _ H1), (seg_text_length _ _ _ H1'); reflexivity]. destruct E2' as [-> E2'].
  cbn [append] in E2'. injection E2' as E2'.
  apply app_inj in E2'; [|apply (f_equal String.length) in E2'; rewrite !length_app in E2'; cbn [String.length] in E2'; lia]. destruct E2' as [-> _]. congruence.
Qed.
