(** The operands of the trace line (C84): the handlers of both opcode maps. *)
From Coq Require Import String Ascii.
From Verif Require Import Base Cpu Alu Ops Machine Trace Spec SpecOps SpecRun SpecTop SpecCodes SpecStop SpecEa PBase PMem PRun PFrame PExec PStop PStop2 PCodes Dump SpecDump PDump TraceText SpecTrace SpecNames SpecOpers PTrace PTrace2 PTrace3 PTrace4 PTrace6 PTrace7 PTrace8.
Notation oper := SpecOpers.oper.
Local Open Scope string_scope.
Local Open Scope Z_scope.

Section Operands.
Context (a : arch) (p : pfx) (x : tctx) (F : fits x p) (Hseg : forall n, p_seg p = Some n -> 0 <= n < 6).
Definition shown_by (f : maker) (op : Z) (ks : list kind) : Prop :=
  forall (t tl : list Z) os, byte_list (t ++ tl)%list -> opers_of p a op t ks = Some os -> exists r, prints a f (t ++ tl)%list os r.
Lemma byte_part (b : Z) (u tl : list Z) w o r : byte_list ((b :: u) ++ tl)%list -> rm_oper p a w (b :: u) = Some (o, r) -> byte_list (r ++ tl)%list.
Proof.
  intros Hb. unfold rm_oper. destruct (_ =? 3); [intros [= <- <-]; intros c Hc; apply Hb; right; exact Hc|]. unfold real_address. destruct (_ =? 3); [discriminate|].
  destruct (real_offset p (b / 64) (b mod 8) a u) as [[o' r']|] eqn:Ho; [|discriminate]. intros [= <- <-] c Hc. apply Hb. right.
  assert (K : exists h, u = (h ++ r')%list).
  { revert Ho. unfold real_offset, disp32, disp, dword. clear. intros H.
    repeat match goal with H : (if ?b then _ else _) = _ |- _ => destruct b | H : match ?e with _ => _ end = _ |- _ => destruct e eqn:?; try discriminate end;
      repeat match goal with H : Some _ = Some _ |- _ => injection H; clear H; intros; subst end;
      try (exists []; reflexivity); try (eexists [_]; reflexivity); try (eexists [_; _]; reflexivity); try (eexists [_; _; _; _]; reflexivity); try (eexists [_; _; _; _; _]; reflexivity).
    all: idtac. }
  destruct K as [h ->]. apply in_app_iff in Hc. apply in_app_iff. destruct Hc; [left; apply in_app_iff; auto|right; assumption].
Qed.
Lemma modrm_prep op t tl ks os : existsb by_modrm ks = true -> byte_list (t ++ tl)%list -> opers_of p a op t ks = Some os ->
  exists b u o8 ow r, t = (b :: u)%list /\ rm_oper p a 8 t = Some (o8, r) /\ rm_oper p a (osz p) t = Some (ow, r) /\ byte_list (r ++ tl)%list /\ byte_list (b :: u ++ tl)%list /\ all_opers (oper p a op t r) ks = Some os.
Proof.
  intros Hk Hb. unfold opers_of. rewrite Hk. destruct t as [|b u]; [discriminate|]. destruct (rm_oper p a 8 (b :: u)) as [[o8 r]|] eqn:E8; [|discriminate]. intros H.
  destruct (rm_rest a p 8 (osz p) _ _ _ E8) as (ow & Ew). exists b, u, o8, ow, r. split; [reflexivity|]. split; [first [exact E8|reflexivity]|]. split; [exact Ew|]. split; [eapply byte_part; eauto|]. split; [exact Hb|exact H].
Qed.
Lemma modrm_shown f op ks : existsb by_modrm ks = true ->
  (forall b (u tl : list Z) o8 ow r os, rm_oper p a 8 (b :: u) = Some (o8, r) -> rm_oper p a (osz p) (b :: u) = Some (ow, r) -> byte_list (r ++ tl)%list -> byte_list (b :: u ++ tl)%list ->
     all_opers (oper p a op (b :: u) r) ks = Some os -> exists q, prints a f ((b :: u) ++ tl)%list os q) -> shown_by f op ks.
Proof. intros Hk H t tl os Hb Ho. destruct (modrm_prep op t tl ks os Hk Hb Ho) as (b & u & o8 & ow & r & -> & E8 & Ew & Hr & Hbu & K). eapply H; eauto. Qed.
Ltac modrm := apply modrm_shown; [first [reflexivity|cbn; reflexivity]|]; intros b u tl o8 ow r os E8 Ew Hr Hbu K; cbn [all_opers oper reg_field] in K; rewrite ?E8, ?Ew in K; cbn [option_map fst] in K.
Lemma s_EbGb op : shown_by (modrm_t x false After) op [Eb; Gb].
Proof. modrm. injection K as <-. eexists. apply (prints_modrm2 a p x F Hseg false false After b u tl o8 r Hbu E8). Qed.
Lemma s_EvGv op : shown_by (modrm_t x true After) op [Ev; Gv].
Proof. modrm. injection K as <-. eexists. apply (prints_modrm2 a p x F Hseg true true After b u tl ow r Hbu Ew). Qed.
Lemma s_GbEb op : shown_by (modrm_t x false Before) op [Gb; Eb].
Proof. modrm. injection K as <-. eexists. apply (prints_modrm2 a p x F Hseg false false Before b u tl o8 r Hbu E8). Qed.
Lemma s_GvEv op : shown_by (modrm_t x true Before) op [Gv; Ev].
Proof. modrm. injection K as <-. eexists. apply (prints_modrm2 a p x F Hseg true true Before b u tl ow r Hbu Ew). Qed.
Lemma s_GvEb op : shown_by (modrm_t2 x true false Before) op [Gv; Eb].
Proof. modrm. injection K as <-. eexists. apply (prints_modrm2 a p x F Hseg true false Before b u tl o8 r Hbu E8). Qed.
Lemma s_GvEw op : p_os p = false -> shown_by (modrm_t x true Before) op [Gv; Ew].
Proof.
  intros Ho t tl os Hb H. apply (s_GvEv op t tl os Hb). revert H. unfold opers_of. cbn [existsb by_modrm orb]. destruct (rm_oper p a 8 t) as [[o8 r]|]; [|discriminate]. cbn [all_opers oper]. unfold osz. rewrite Ho. auto.
Qed.
Lemma s_Eb op : shown_by (modrm_t x false NoReg) op [Eb].
Proof. modrm. injection K as <-. eexists. apply (prints_modrm2 a p x F Hseg false false NoReg b u tl o8 r Hbu E8). Qed.
Lemma s_Ev op : shown_by (modrm_t x true NoReg) op [Ev].
Proof. modrm. injection K as <-. eexists. apply (prints_modrm2 a p x F Hseg true true NoReg b u tl ow r Hbu Ew). Qed.
Lemma s_EvSw op : shown_by (mov_seg_t x true) op [Ev; Sw].
Proof. modrm. destruct (_ <? 6) eqn:G in K; [|discriminate]. injection K as <-. eexists. apply (prints_mov_seg a p x F Hseg true b u tl ow r Hbu Ew). lia. Qed.
Lemma s_SwEv op : shown_by (mov_seg_t x false) op [Sw; Ev].
Proof. modrm. destruct (_ <? 6) eqn:G in K; [|discriminate]. injection K as <-. eexists. apply (prints_mov_seg a p x F Hseg false b u tl ow r Hbu Ew). lia. Qed.
Lemma s_EbThen op f o : (forall l, prints a f l [o] l) -> forall k, oper p a op = oper p a op -> (forall t r, oper p a op t r k = Some o) -> by_modrm k = false -> shown_by (modrm_t x false NoReg >> f) op [Eb; k].
Proof.
  intros Hf k _ Ho Hk. modrm. rewrite Ho in K. injection K as <-. eexists. apply (prints_then a _ _ _ _ _ [o8] [o] (prints_modrm2 a p x F Hseg false false NoReg b u tl o8 r Hbu E8) (Hf _)).
Qed.
Lemma s_EvThen op f o : (forall l, prints a f l [o] l) -> forall k, (forall t r, oper p a op t r k = Some o) -> by_modrm k = false -> shown_by (modrm_t x true NoReg >> f) op [Ev; k].
Proof.
  intros Hf k Ho Hk. modrm. rewrite Ho in K. injection K as <-. eexists. apply (prints_then a _ _ _ _ _ [ow] [o] (prints_modrm2 a p x F Hseg true true NoReg b u tl ow r Hbu Ew) (Hf _)).
Qed.
Lemma s_EbImm op f k : by_modrm k = false -> (forall t r tl o, byte_list (r ++ tl)%list -> oper p a op t r k = Some o -> prints a f (r ++ tl)%list [o] tl) -> shown_by (modrm_t x false NoReg >> f) op [Eb; k].
Proof.
  intros Hk Hf. modrm. destruct (oper p a op (b :: u) r k) as [o|] eqn:Eo; [|discriminate]. injection K as <-. eexists. apply (prints_then a _ _ _ _ _ [o8] [o] (prints_modrm2 a p x F Hseg false false NoReg b u tl o8 r Hbu E8) (Hf _ _ _ _ Hr Eo)).
Qed.
Lemma s_EvImm op f k : by_modrm k = false -> (forall t r tl o, byte_list (r ++ tl)%list -> oper p a op t r k = Some o -> prints a f (r ++ tl)%list [o] tl) -> shown_by (modrm_t x true NoReg >> f) op [Ev; k].
Proof.
  intros Hk Hf. modrm. destruct (oper p a op (b :: u) r k) as [o|] eqn:Eo; [|discriminate]. injection K as <-. eexists. apply (prints_then a _ _ _ _ _ [ow] [o] (prints_modrm2 a p x F Hseg true true NoReg b u tl ow r Hbu Ew) (Hf _ _ _ _ Hr Eo)).
Qed.
Lemma s_GvEvImm op f k : by_modrm k = false -> (forall t r tl o, byte_list (r ++ tl)%list -> oper p a op t r k = Some o -> prints a f (r ++ tl)%list [o] tl) -> shown_by (modrm_t x true Before >> f) op [Gv; Ev; k].
Proof.
  intros Hk Hf. modrm. destruct (oper p a op (b :: u) r k) as [o|] eqn:Eo; [|discriminate]. injection K as <-. eexists.
  apply (prints_then a _ _ _ _ _ [XReg (osz p) ((b / 8) mod 8); ow] [o] (prints_modrm2 a p x F Hseg true true Before b u tl ow r Hbu Ew) (Hf _ _ _ _ Hr Eo)).
Qed.
(** Immediates *)
Lemma i_b op t r tl o : byte_list (r ++ tl)%list -> oper p a op t r Ib = Some o -> prints a imm8 (r ++ tl)%list [o] tl.
Proof. intros Hb. cbn [oper]. destruct (imm 8 r) as [v|] eqn:E; [|discriminate]. intros [= <-]. apply (prints_imm8 a p Hseg); assumption. Qed.
Lemma i_v op t r tl o : byte_list (r ++ tl)%list -> oper p a op t r Iv = Some o -> prints a (immx x) (r ++ tl)%list [o] tl.
Proof. intros Hb. cbn [oper]. destruct (imm (osz p) r) as [v|] eqn:E; [|discriminate]. intros [= <-]. apply (prints_immx a p x F); assumption. Qed.
Lemma i_sv op t r tl o : byte_list (r ++ tl)%list -> oper p a op t r Isv = Some o -> prints a (r8 (fun v => if x_os x then hex 8 (sx 32 v) else hex 4 (sx 16 v))) (r ++ tl)%list [o] tl.
Proof.
  intros Hb. cbn [oper]. destruct (imm 8 r) as [v|] eqn:E; [|discriminate]. intros [= <-]. destruct F as (_ & F2 & _). unfold osz. rewrite F2. destruct (p_os p); apply (prints_sx a p Hseg); auto.
Qed.
Lemma i_sv16 op t r tl o : p_os p = false -> byte_list (r ++ tl)%list -> oper p a op t r Isv = Some o -> prints a (r8 (fun v => hex 4 (sx 16 v))) (r ++ tl)%list [o] tl.
Proof. intros Ho Hb. cbn [oper]. unfold osz. rewrite Ho. destruct (imm 8 r) as [v|] eqn:E; [|discriminate]. intros [= <-]. apply (prints_sx a p Hseg); auto. Qed.
Lemma i_v16 op t r tl o : p_os p = false -> byte_list (r ++ tl)%list -> oper p a op t r Iv = Some o -> prints a (r16 (hex 4)) (r ++ tl)%list [o] tl.
Proof. intros Ho Hb. cbn [oper]. unfold osz. rewrite Ho. destruct (imm 16 r) as [v|] eqn:E; [|discriminate]. intros [= <-]. apply (prints_r16 a p Hseg); assumption. Qed.
Lemma i_ov op t r tl o : byte_list (r ++ tl)%list -> oper p a op t r Ov = Some o -> prints a (moffs_t x) (r ++ tl)%list [o] tl.
Proof. intros Hb. cbn [oper]. destruct (imm _ r) as [v|] eqn:E; [|discriminate]. intros [= <-]. apply (prints_moffs a p x F Hseg); assumption. Qed.
(** Forms without ModR/M *)
Lemma s_one op f k : by_modrm k = false -> (forall t r tl o, byte_list (r ++ tl)%list -> oper p a op t r k = Some o -> prints a f (r ++ tl)%list [o] tl) -> shown_by f op [k].
Proof.
  intros Hk Hf t tl os Hb. unfold opers_of. cbn [existsb]. rewrite Hk. cbn [orb all_opers]. destruct (oper p a op t t k) as [o|] eqn:Eo; [|discriminate]. intros [= <-]. eexists. eapply Hf; eauto.
Qed.
Lemma s_const op f k o : by_modrm k = false -> (forall l, prints a f l [o] l) -> (forall t r, oper p a op t r k = Some o) -> shown_by f op [k].
Proof.
  intros Hk Hf Ho t tl os Hb. unfold opers_of. cbn [existsb]. rewrite Hk. cbn [orb all_opers]. rewrite Ho. intros [= <-]. eexists. apply Hf.
Qed.
Lemma s_const2 op f g k k2 o : by_modrm k = false -> by_modrm k2 = false -> (forall l, prints a f l [o] l) -> (forall t r, oper p a op t r k = Some o) ->
  (forall t r tl o, byte_list (r ++ tl)%list -> oper p a op t r k2 = Some o -> prints a g (r ++ tl)%list [o] tl) -> shown_by (f >> g) op [k; k2].
Proof.
  intros Hk Hk2 Hf Ho Hg t tl os Hb. unfold opers_of. cbn [existsb]. rewrite Hk, Hk2. cbn [orb all_opers]. rewrite Ho. destruct (oper p a op t t k2) as [o2|] eqn:E2; [|discriminate]. intros [= <-]. eexists.
  apply (prints_then a _ _ _ _ _ [o] [o2] (Hf _) (Hg _ _ _ _ Hb E2)).
Qed.
Lemma s_ov2 op f k o : by_modrm k = false -> (forall l, prints a f l [o] l) -> (forall t r, oper p a op t r k = Some o) -> shown_by (moffs_t x >> f) op [Ov; k].
Proof.
  intros Hk Hf Ho t tl os Hb. unfold opers_of. cbn [existsb by_modrm]. rewrite Hk. cbn [orb all_opers]. rewrite Ho. destruct (oper p a op t t Ov) as [o2|] eqn:E2; [|discriminate]. intros [= <-]. eexists.
  apply (prints_then a _ _ _ _ _ [o2] [o] (i_ov _ _ _ _ _ Hb E2) (Hf _)).
Qed.
Lemma s_none op : shown_by (say "") op [].
Proof. intros t tl os Hb. unfold opers_of. cbn [existsb all_opers]. intros [= <-]. eexists. apply prints_none. Qed.
Lemma s_accreg op : shown_by (say (acc_t x ++ regw_t x (op mod 8))) op [Reg_eAX; Rv].
Proof.
  intros t tl os Hb. unfold opers_of. cbn [existsb by_modrm orb all_opers oper]. intros [= <-]. eexists.
  destruct (prints_then a (say (acc_t x)) (say (regw_t x (op mod 8))) (t ++ tl)%list _ _ _ _ (prints_acc a p x F _) (prints_regw a p x F Hseg (op mod 8) _ ltac:(lia))) as (us & E & S). exists us. split; [exact E|exact S].
Qed.
Lemma s_RbIb op : shown_by (r8 (fun v => regb_t (op mod 8) ++ hex 2 v)) op [Rb; Ib].
Proof.
  intros t tl os Hb. unfold opers_of. cbn [existsb by_modrm orb all_opers]. destruct (oper p a op t t Ib) as [o|] eqn:E; [|discriminate]. cbn [oper]. intros [= <-]. eexists.
  destruct (prints_then a (say (regb_t (op mod 8))) imm8 (t ++ tl)%list _ _ _ _ (prints_regb a p Hseg (op mod 8) _ ltac:(lia)) (i_b _ _ _ _ _ Hb E)) as (us & E' & S). exists us. split; [|exact S].
  rewrite <- E'. unfold then_, say. destruct (t ++ tl)%list; reflexivity.
Qed.
Lemma s_RvIv op : shown_by (if x_os x then r32 (fun v => regw_t x (op mod 8) ++ hex 8 v) else r16 (fun v => regw_t x (op mod 8) ++ hex 4 v)) op [Rv; Iv].
Proof.
  intros t tl os Hb. unfold opers_of. cbn [existsb by_modrm orb all_opers]. destruct (oper p a op t t Iv) as [o|] eqn:E; [|discriminate]. cbn [oper]. intros [= <-]. eexists.
  destruct (prints_then a (say (regw_t x (op mod 8))) (immx x) (t ++ tl)%list _ _ _ _ (prints_regw a p x F Hseg (op mod 8) _ ltac:(lia)) (i_v _ _ _ _ _ Hb E)) as (us & E' & S). exists us. split; [|exact S].
  rewrite <- E'. unfold then_, say, immx. destruct (x_os x); [unfold r32|unfold r16]; repeat (let l := fresh in match goal with |- context [match ?q with [] => _ | _ :: _ => _ end] => destruct q end; try reflexivity).
Qed.
Lemma j_b op n t r tl o : byte_list (r ++ tl)%list -> oper p a op t r Jb = Some o -> prints a (r8 (fun v => " .+0x" ++ fmt_x n (sx 16 v))) (r ++ tl)%list [o] tl.
Proof. intros Hb. cbn [oper]. destruct (imm 8 r) as [v|] eqn:E; [|discriminate]. intros [= <-]. apply (prints_j8 a p Hseg); assumption. Qed.
Lemma j_v op t r tl o : byte_list (r ++ tl)%list -> oper p a op t r Jv = Some o -> prints a rel16 (r ++ tl)%list [o] tl.
Proof. intros Hb. cbn [oper]. destruct (imm 16 r) as [v|] eqn:E; [|discriminate]. intros [= <-]. apply (prints_j16 a p Hseg); assumption. Qed.
Lemma i_ap op t r tl o : byte_list (r ++ tl)%list -> oper p a op t r Ap = Some o -> prints a far_t (r ++ tl)%list [o] tl.
Proof. intros Hb. cbn [oper]. destruct r as [|b0 [|b1 [|b2 [|b3 [|]]]]]; try discriminate. intros [= <-]. apply (prints_far a p Hseg); assumption. Qed.
Lemma i_int op t r tl o : byte_list (r ++ tl)%list -> oper p a op t r Ib = Some o -> prints a (r8 (fun v => " 0x" ++ fmt_x 0 v)) (r ++ tl)%list [o] tl.
Proof.
  intros Hb. cbn [oper]. destruct (imm 8 r) as [v|] eqn:E; [|discriminate]. intros [= <-]. apply imm8_cons in E. subst r. assert (B : 0 <= v < 256) by (apply Hb; left; reflexivity).
  apply (prints_one a _ _ _ _ ("0x" ++ fmt_x 0 v)); [reflexivity|]. constructor. apply (hexv p Hseg). lia.
Qed.
Lemma s_misc wide op : op = 246 /\ wide = false \/ op = 247 /\ wide = true ->
  forall t tl os ks, byte_list (t ++ tl)%list -> op_map (p_os p) op (reg_field t) = Some ks -> opers_of p a op t ks = Some os -> exists r, prints a (misc_t x wide) (t ++ tl)%list os r.
Proof.
  intros Hop t tl os ks Hb Hk Ho. destruct t as [|b u].
  { destruct Hop as [[-> ->]|[-> ->]]; injection Hk as <-; discriminate Ho. }
  unfold prints, misc_t. cbn [app]. change (b :: u ++ tl)%list with ((b :: u) ++ tl)%list.
  destruct Hop as [[-> ->]|[-> ->]]; cbn [reg_field] in Hk; change (op_map (p_os p) 246 ((b / 8) mod 8)) with (Some (if (b / 8) mod 8 =? 0 then [Eb; Ib] else [Eb])) in Hk;
    try change (op_map (p_os p) 247 ((b / 8) mod 8)) with (Some (if (b / 8) mod 8 =? 0 then [Ev; Iv] else [Ev])) in Hk; injection Hk as <-; destruct ((b / 8) mod 8 =? 0).
  - apply (s_EbImm 246 imm8 Ib eq_refl (i_b 246) _ _ _ Hb Ho).
  - destruct (s_Eb 246 _ _ _ Hb Ho) as (r & us & E & S). exists r, us. unfold then_. rewrite E. unfold say. rewrite app_empty. split; [reflexivity|exact S].
  - apply (s_EvImm 247 (immx x) Iv eq_refl (i_v 247) _ _ _ Hb Ho).
  - destruct (s_Ev 247 _ _ _ Hb Ho) as (r & us & E & S). exists r, us. unfold then_. rewrite E. unfold say. rewrite app_empty. split; [reflexivity|exact S].
Qed.
End Operands.
