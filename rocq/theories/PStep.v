(** Proof automation for instruction theorems. *)
From Verif Require Import Base Cpu Alu Ops Machine Spec SpecOps SpecOps2 PBase PMem PRun PFrame PAlu PExec PIAlu PIAlu2.

(** ** Chaining [same] through model-level writes *)
Lemma same_with_mem a b w x v : same a b -> same (with_mem w x v a) (with_mem w x v b).
Proof. apply same_poke. Qed.
Lemma same_rd_rm a b w r : same a b -> rd_rm w r a = rd_rm w r b.
Proof. intros H. destruct r; cbn [rd_rm]; [apply same_reg|apply same_peek]; exact H. Qed.
Lemma same_mem a b w x : same a b -> mem w a x = mem w b x.
Proof. apply same_peek. Qed.
#[export] Hint Resolve same_with_mem : same.

Lemma same_wr_m E base a b w r v : flat E base a -> width w -> rm_ok r -> inrange w v -> same a b ->
  same (wr_m base w r v a) (wr_rm w r v b).
Proof.
  intros F Hw Hr Hv H. eapply same_trans; [apply wr_m_same with (E := E); auto|].
  apply same_wr_rm, H.
Qed.
Lemma lin_ok w sg o : width w -> inrange 16 sg -> inrange 16 o ->
  0 <= lin sg o /\ lin sg o + w / 8 <= 1114112.
Proof. intros Hw Hs Ho. pose proof (lin_bound sg o Hs Ho). pose proof (width_div w Hw). lia. Qed.
Lemma same_smem E base a b w sg o v : flat E base a -> width w -> inrange 16 sg -> inrange 16 o -> same a b ->
  same (smem base w (lin sg o) v a) (with_mem w (lin sg o) v b).
Proof.
  intros F Hw Hs Ho H. destruct (lin_ok w sg o Hw Hs Ho).
  eapply same_trans; [apply smem_same with (E := E); auto|]. apply same_with_mem, H.
Qed.
Lemma same_push_a E base a b v : flat E base a -> wf_regs a -> same a b ->
  same (push_a base v a)
       (let sp := low 16 (reg 16 SP b - 2) in with_mem 16 (lin (r_ss b) sp) v (with_reg 16 SP sp b)).
Proof.
  intros F W H. unfold push_a. cbv zeta. rewrite <- (same_reg a b 16 SP H), <- (sm_ss _ _ H).
  apply same_smem with (E := E); auto with flat width same.
  - apply W.
  - apply low_range; auto with width.
Qed.

(** ** Well-formedness hints *)
Lemma wf_push_a base v a : wf_regs a -> wf_regs (push_a base v a).
Proof.
  intros W. unfold push_a. cbv zeta. apply wf_smem, wf_with_reg; auto with width; try lia.
  apply low_range; auto with width.
Qed.
Lemma flat_push_a E base v a : flat E base a -> flat E base (push_a base v a).
Proof. intros F. unfold push_a. cbv zeta. auto with flat. Qed.
#[export] Hint Resolve flat_push_a : flat.
Lemma low16_range x : inrange 16 (low 16 x).
Proof. apply low_range; auto with width. Qed.
Lemma low8_range x : inrange 8 (low 8 x).
Proof. apply low_range; auto with width. Qed.
Lemma lowosz_range p x : inrange (osz p) (low (osz p) x).
Proof. apply low_range; auto with width. Qed.
#[export] Hint Resolve wf_push_a wf_smem wf_hmem wf_iolog wf_with_sreg wf_with_reg wf_flags_upd wf_ip_upd
  wf_cs_upd low16_range low8_range lowosz_range wr_m_wf reg_range wf_ss wf_ds wf_es wf_fs wf_gs wf_cs wf_ip wf_flags : wf.

(** A write of the value already there. *)
Lemma setf_self p w g : 0 <= p -> 0 <= w -> setf p w (getf p w g) g = g.
Proof.
  intros. unfold setf. replace (wrap w (getf p w g)) with (getf p w g); [lia|].
  symmetry. apply wrap_small. apply getf_range; auto.
Qed.
Lemma with_reg_self w n a : width w -> 0 <= n < 8 -> same (with_reg w n (reg w n a) a) a.
Proof.
  intros Hw Hn. rewrite with_reg_setf by (auto using reg_range). rewrite reg_getf by auto.
  pose proof (rpos_bound w n Hw Hn). pose proof (wpos w Hw). rewrite setf_self by lia.
  destruct a; constructor; reflexivity.
Qed.

(** ** Bit patterns *)
Lemma lnot_ok w d : width w -> inrange w d -> wrap w (Z.lnot d) = 2 ^ w - 1 - d.
Proof. intros Hw Hd. unfold wrap, Z.lnot, inrange in *. widths Hw; lia. Qed.

(** ** Opening an instruction theorem *)
Lemma instr_ctx E base s pre p op t : fetched E base s pre p (op :: t) ->
  flat E base (ar s) /\ wf_regs (ar s) /\ pfx_ok p /\ code_from (ar s) (blen pre + 1) t /\ 0 <= op < 256.
Proof.
  intros (R & Hp & C). destruct R as [F W PC Hc]. pose proof (prefixes_ok _ _ Hp).
  pose proof (code_from_0 _ _ C) as C0. apply code_from_app in C0. rewrite Z.add_0_l in C0.
  pose proof (code_byte_range E base _ _ _ _ F W C0).
  destruct (code_from_cons _ _ _ _ C0) as [_ Ct]. auto.
Qed.
Lemma instr_ctx2 E base s pre p op op2 t : fetched E base s pre p (op :: op2 :: t) ->
  code_from (ar s) (blen pre + 2) t.
Proof.
  intros H. destruct (instr_ctx _ _ _ _ _ _ _ H) as (_ & _ & _ & C & _).
  destruct (code_from_cons _ _ _ _ C) as [_ Ct]. replace (blen pre + 2) with (blen pre + 1 + 1) by lia. exact Ct.
Qed.

(** Model steps with the side conditions the instruction proofs meet. *)
Ltac side := solve [ auto with width flat wf | lia | eauto with width flat wf ].
Ltac step1 E base := first
  [ progress msteps
  | rewrite st_getW by lia | rewrite st_setW by lia | rewrite st_getL by lia | rewrite st_setL by lia
  | rewrite st_getH by lia | rewrite st_setH by lia
  | rewrite (st_load E base) by side | rewrite (st_store E base) by side
  | rewrite (st_rd E base) by side | rewrite (st_wr E base) by side
  | rewrite (st_pop E base) by side
  | progress cbv beta ].

(** ** Frames with the consumed length as a separate equation *)
Section Frames.
Context (E : env) (base : Z).
Lemma fr_straight s pre p bs o k m a' a2 off' :
  fetched E base s pre p bs -> dispatch bs = Some (o, k, m) ->
  (forall g n l, exec1 E o k (mkSt (ar s) (dec_of p (blen pre + m)) g n l) =
     Ok tt (mkSt a' (dec_of p off') g n l)) ->
  off' = blen pre + blen bs ->
  flat E base a' -> r_ip a' = r_ip (ar s) -> same a' a2 ->
  executes E s (pre ++ bs) a2.
Proof. intros Hf Hd Hx -> F Hi Hs. eapply run_straight; eauto. Qed.
Lemma fr_rel s pre p bs o k m a' a2 off' :
  fetched E base s pre p bs -> dispatch bs = Some (o, k, m) ->
  (forall g n l, exec1 E o k (mkSt (ar s) (dec_of p (blen pre + m)) g n l) =
     Ok tt (mkSt a' (dec_of p off') g n l)) ->
  off' = blen pre + blen bs ->
  flat E base a' -> same (a_ip (low 16 (r_ip a' + (blen pre + blen bs))) a') a2 ->
  executes_to E s (pre ++ bs) a2.
Proof. intros Hf Hd Hx -> F Hs. eapply run_rel; eauto. Qed.
Lemma fr_abs s pre p bs o k m a' a2 off' :
  fetched E base s pre p bs -> dispatch bs = Some (o, k, m) ->
  (forall g n l, exec1 E o k (mkSt (ar s) (dec_of p (blen pre + m)) g n l) =
     Ok tt (mkSt a' (dd_noip true (dec_of p off')) g n l)) ->
  off' = blen pre + blen bs ->
  flat E base a' -> same a' a2 ->
  executes_to E s (pre ++ bs) a2.
Proof. intros Hf Hd Hx -> F Hs. eapply run_abs; eauto. Qed.

(** What is known about the ModR/M operand of an instruction. *)
Lemma modrm_ctx s pre p op mb t wide rg r rest :
  fetched E base s pre p (op :: mb :: t) -> operand_ok p (ar s) (op :: mb :: t) ->
  has_modrm (op :: mb :: t) = Some (wide, mb :: t) ->
  parse_rm p (ar s) (mb :: t) = Some (rg, r, rest) ->
  rm_ok r /\ rm_ok (RReg rg) /\ 0 <= rg < 8 /\ ea_supported p (ar s) (mb :: t) /\
  (wide = true -> not_block_end 16 r) /\
  code_from (ar s) (blen pre + 1 + (blen (mb :: t) - blen rest)) rest /\ (mb / 8) mod 8 = rg.
Proof.
  intros Hf Hop Hm Hr. destruct (instr_ctx _ _ _ _ _ _ _ Hf) as (F & W & Hp & C & _).
  destruct (parse_rm_ok _ _ _ _ _ _ W Hr) as [H1 H2].
  unfold operand_ok in Hop. rewrite Hm, Hr in Hop. destruct Hop as [H3 H4].
  assert (H5 : (mb / 8) mod 8 = rg) by (symmetry; eapply parse_rm_rg; eauto).
  pose proof (code_rest _ _ _ _ _ _ _ Hr C) as H6.
  exact (conj H1 (conj H2 (conj H2 (conj H3 (conj H4 (conj H6 H5)))))). 
Qed.
Lemma modrm_ctx2 s pre p op mb t wide rg r rest :
  fetched E base s pre p (15 :: op :: mb :: t) -> operand_ok p (ar s) (15 :: op :: mb :: t) ->
  has_modrm (15 :: op :: mb :: t) = Some (wide, mb :: t) ->
  parse_rm p (ar s) (mb :: t) = Some (rg, r, rest) ->
  rm_ok r /\ rm_ok (RReg rg) /\ 0 <= rg < 8 /\ ea_supported p (ar s) (mb :: t) /\
  (wide = true -> not_block_end 16 r) /\
  code_from (ar s) (blen pre + 2 + (blen (mb :: t) - blen rest)) rest /\ (mb / 8) mod 8 = rg.
Proof.
  intros Hf Hop Hm Hr. destruct (instr_ctx _ _ _ _ _ _ _ Hf) as (F & W & Hp & _).
  pose proof (instr_ctx2 _ _ _ _ _ _ _ _ Hf) as C.
  destruct (parse_rm_ok _ _ _ _ _ _ W Hr) as [H1 H2].
  unfold operand_ok in Hop. rewrite Hm, Hr in Hop. destruct Hop as [H3 H4].
  assert (H5 : (mb / 8) mod 8 = rg) by (symmetry; eapply parse_rm_rg; eauto).
  pose proof (code_rest _ _ _ _ _ _ _ Hr C) as H6.
  exact (conj H1 (conj H2 (conj H2 (conj H3 (conj H4 (conj H6 H5)))))). 
Qed.
End Frames.

Lemma regW_ptr base w n : w = 16 \/ w = 32 -> regW n = ptr_of base w (RReg n).
Proof. intros [-> | ->]; reflexivity. Qed.
Lemma regB_ptr base n : regB n = ptr_of base 8 (RReg n).
Proof. reflexivity. Qed.

(** Writing back the value that is there. *)
Lemma same_smem_id E base w x a : flat E base a -> width w -> 0 <= x -> x + w / 8 <= 1114112 ->
  same (smem base w x (mem w a x) a) a.
Proof.
  intros F Hw H0 H1. constructor; cbn; try reflexivity.
  intros y. unfold store_bytes. rewrite nbytes_w by auto.
  destruct ((base + x <=? y) && (y <? base + x + w / 8)) eqn:Hb; [|reflexivity].
  assert (Hr : exists i, y = base + (x + i) /\ 0 <= i < w / 8) by (exists (y - base - x); lia).
  destruct Hr as (i & -> & Hi). replace (base + (x + i) - (base + x)) with i by lia.
  assert (Hx : forall j, 0 <= j < w / 8 -> hmem a (base + (x + j)) = Some (byte a (x + j))).
  { intros j Hj. apply byte_flat with (E := E); auto. lia. }
  rewrite Hx by auto. f_equal.
  assert (Hbr : forall j, 0 <= j < w / 8 -> 0 <= byte a (x + j) < 256).
  { intros j Hj. apply byte_range with (E := E) (base := base); auto. lia. }
  destruct Hw as [-> | [-> | ->]]; cbn in Hi.
  - rewrite mem8. assert (i = 0) as -> by lia. specialize (Hbr 0 ltac:(cbn; lia)).
    rewrite Z.add_0_r in *. cbn. rewrite Z.div_1_r. apply Z.mod_small. lia.
  - rewrite mem16. assert (H : i = 0 \/ i = 1) by lia.
    pose proof (Hbr 0 ltac:(cbn; lia)) as B0. pose proof (Hbr 1 ltac:(cbn; lia)) as B1.
    rewrite Z.add_0_r in *.
    destruct H as [-> | ->]; rewrite ?Z.add_0_r; cbn; lia.
  - rewrite mem32. assert (H : i = 0 \/ i = 1 \/ i = 2 \/ i = 3) by lia.
    pose proof (Hbr 0 ltac:(cbn; lia)) as B0. pose proof (Hbr 1 ltac:(cbn; lia)) as B1.
    pose proof (Hbr 2 ltac:(cbn; lia)) as B2. pose proof (Hbr 3 ltac:(cbn; lia)) as B3.
    rewrite Z.add_0_r in *.
    destruct H as [-> | [-> | [-> | ->]]]; rewrite ?Z.add_0_r; cbn; lia.
Qed.
Lemma same_with_mem_id E base w sg o a : flat E base a -> width w -> inrange 16 sg -> inrange 16 o ->
  same (with_mem w (lin sg o) (mem w a (lin sg o)) a) a.
Proof.
  intros F Hw Hs Ho. destruct (lin_ok w sg o Hw Hs Ho).
  eapply same_trans; [apply same_sym, smem_same with (E := E) (base := base); auto|].
  apply same_smem_id with (E := E); auto.
Qed.
Lemma wr_rm_id E base w r a : flat E base a -> width w -> rm_ok r ->
  same (wr_rm w r (rd_rm w r a) a) a.
Proof.
  intros F Hw Hr. destruct r as [n|sg o]; cbn [wr_rm rd_rm].
  - apply with_reg_self; auto.
  - destruct Hr. eapply same_with_mem_id; eauto.
Qed.
Lemma a_flags_self a : a_flags (r_flags a) a = a.
Proof. destruct a; reflexivity. Qed.

(** Segment of a data operand. *)
Lemma data_sreg_range p : pfx_ok p -> 0 <= data_sreg p < 6.
Proof. unfold data_sreg, pfx_ok. destruct (p_seg p); lia. Qed.
Lemma st_data_seg {Y} (k : Z -> M Y) a p off g n l : pfx_ok p ->
  bind data_seg k (mkSt a (dec_of p off) g n l) = k (sreg (data_sreg p) a) (mkSt a (dec_of p off) g n l).
Proof.
  intros Hp. unfold data_seg. rewrite st_bind, st_getD. cbn [d_seg dec_of].
  unfold data_sreg, pfx_ok in *. destruct (p_seg p) as [q|].
  - replace (q =? -1) with false by lia. apply st_getseg; lia.
  - apply st_getseg. cbn. lia.
Qed.
Lemma st_moffs {Y} E base (k : Z * Z -> M Y) a p off g n l t i : pfx_ok p ->
  flat E base a -> wf_regs a -> code_from a off t -> imm (asz p) t = Some i ->
  bind (moffs E) k (mkSt a (dec_of p off) g n l) =
  k (sreg (data_sreg p) a, i) (mkSt a (dec_of p (off + blen t)) g n l).
Proof.
  intros Hp F W C Hi. unfold moffs. rewrite st_bind, st_data_seg by auto.
  rewrite st_bind, st_getD. cbn [d_addr dec_of]. fold (asz p).
  assert (width (asz p)) by (unfold asz; destruct (p_as p); auto with width).
  rewrite st_bind. erewrite (st_fetch E base) by eauto with width. reflexivity.
Qed.

(** ** The stepping tactic: executes the handler at the head of the goal
    [m (mkSt a d g n l) = _] until a choice must be made. *)
Ltac tail := match goal with |- ?m ?s = _ => lazymatch m with bind _ _ => fail | ret _ => fail | _ => rewrite (to_bind m s) end end.
Ltac xside := solve [ auto with width flat wf | lia | unfold R_AX, R_CX, R_DX, R_BX, R_SP, R_BP, R_SI, R_DI; lia | eauto with width flat wf
                    | cbn; solve [auto with width flat wf | lia | reflexivity]
                    | unfold osz; match goal with |- context [p_os ?p] => destruct (p_os p) end; reflexivity ].
Ltac xs E base :=
  lazymatch goal with
  | |- bind (bind _ _) _ _ = _ => rewrite st_bind
  | |- bind (ret _) _ _ = _ => rewrite st_ret
  | |- bind (err _) _ _ = _ => rewrite st_err
  | |- bind (undef _) _ _ = _ => rewrite st_undef
  | |- bind (getA _) _ _ = _ => rewrite st_getA
  | |- bind (getD _) _ _ = _ => rewrite st_getD; cbn [d_seg d_rep d_op d_addr d_noip d_ipoff dec_of]
  | |- bind getflags _ _ = _ => rewrite st_getflags
  | |- bind (upd_ar _) _ _ = _ => rewrite st_upd_ar
  | |- bind (upd_dc _) _ _ = _ => rewrite st_upd_dc
  | |- bind (set_flags _) _ _ = _ => rewrite st_set_flags
  | |- bind (set_ip _) _ _ = _ => rewrite st_set_ip
  | |- bind (set_cs _) _ _ = _ => rewrite st_set_cs
  | |- bind opw _ (mkSt _ (dec_of ?p _) _ _ _) = _ => rewrite st_opw; cbn [d_op dec_of]; fold (osz p)
  | |- bind dont_change_ip _ _ = _ => rewrite st_dont
  | |- bind next_ip _ _ = _ => rewrite st_next_ip; cbn [d_ipoff dec_of]
  | |- bind (upd_flags _) _ _ = _ => unfold upd_flags at 1
  | |- bind (getW _) _ _ = _ => rewrite st_getW by xside
  | |- bind (setW _ _) _ _ = _ => rewrite st_setW by xside
  | |- bind (getL _) _ _ = _ => rewrite st_getL by xside
  | |- bind (setL _ _) _ _ = _ => rewrite st_setL by xside
  | |- bind (getH _) _ _ = _ => rewrite st_getH by xside
  | |- bind (setH _ _) _ _ = _ => rewrite st_setH by xside
  | |- bind (get_gpr 0 ?w) _ _ = _ => rewrite (st_getr 0 w 0) by xside
  | |- bind (set_gpr 0 ?w _) _ _ = _ => rewrite (st_setr 0 w 0) by xside
  | |- bind (get_gpr 32 ?w) _ _ = _ => rewrite (st_getr 32 w 1) by xside
  | |- bind (set_gpr 32 ?w _) _ _ = _ => rewrite (st_setr 32 w 1) by xside
  | |- bind (get_gpr 64 ?w) _ _ = _ => rewrite (st_getr 64 w 2) by xside
  | |- bind (set_gpr 64 ?w _) _ _ = _ => rewrite (st_setr 64 w 2) by xside
  | |- bind (get_gpr 96 ?w) _ _ = _ => rewrite (st_getr 96 w 3) by xside
  | |- bind (set_gpr 96 ?w _) _ _ = _ => rewrite (st_setr 96 w 3) by xside
  | |- bind (get_gpr 192 ?w) _ _ = _ => rewrite (st_getr 192 w 6) by xside
  | |- bind (set_gpr 192 ?w _) _ _ = _ => rewrite (st_setr 192 w 6) by xside
  | |- bind (get_gpr 224 ?w) _ _ = _ => rewrite (st_getr 224 w 7) by xside
  | |- bind (set_gpr 224 ?w _) _ _ = _ => rewrite (st_setr 224 w 7) by xside
  | |- bind (load _ _) _ _ = _ => rewrite (st_load E base) by xside
  | |- bind (store _ _ _) _ _ = _ => rewrite (st_store E base) by xside
  | |- bind (rd _ _ _ _) _ _ = _ => rewrite (st_rd E base) by xside
  | |- bind (wr _ _ _ _ _) _ _ = _ => rewrite (st_wr E base) by xside
  | |- bind (pop _) _ _ = _ => rewrite (st_pop E base) by xside
  | |- bind (push _ ?vm) _ _ = _ => erewrite (st_push E base) by first [xside | reflexivity]
  | |- bind (parse_modrm _) _ _ = _ => erewrite (st_parse8 E base) by eauto; cbn [fst snd]
  | |- bind (parse_modrmx _) _ (mkSt _ (dec_of ?p _) _ _ _) = _ =>
      erewrite (st_parsex E base (osz p)) by eauto with width; cbn [fst snd]
  | |- bind data_seg _ _ = _ => rewrite st_data_seg by auto
  | |- bind (moffs _) _ _ = _ => erewrite (st_moffs E base) by eauto; cbn [fst snd]
  | |- bind (fetch8 _) _ _ = _ => erewrite (st_fetch8 E base) by eauto with wf flat
  | |- bind (fetch8s _) _ _ = _ => erewrite (st_fetch8s E base) by eauto with wf flat
  | |- bind (fetch _ _) _ _ = _ => erewrite (st_fetch E base) by eauto with wf flat width
  | |- bind (let '(_, _) := ?x in _) _ _ = _ => destruct x
  end; cbv beta.
Ltac xrun E base := repeat first [xs E base | tail]; try reflexivity.

(** Splits a Some-valued parse in a decoding hypothesis. *)
Ltac casesome H :=
  match type of H with
  | match ?x with Some _ => _ | None => _ end = Some _ =>
      let E := fresh "Hq" in destruct x eqn:E; [|discriminate H]
  | match ?x with [] => _ | _ :: _ => _ end = Some _ =>
      destruct x; try discriminate H
  | match ?x with (_, _) => _ end = Some _ => destruct x
  end.

(** Stores narrow their value. *)
Lemma smem_low base w x v a : width w -> same (smem base w x v a) (smem base w x (low w v) a).
Proof.
  intros Hw. constructor; cbn; try reflexivity. intros y. unfold store_bytes. rewrite nbytes_w by auto.
  destruct ((base + x <=? y) && (y <? base + x + w / 8)) eqn:Hb; [|reflexivity]. f_equal.
  assert (Hi : exists i, y = base + x + i /\ 0 <= i < w / 8) by (exists (y - base - x); lia).
  destruct Hi as (i & -> & Hi). replace (base + x + i - (base + x)) with i by lia.
  unfold low. destruct Hw as [-> | [-> | ->]]; cbn in Hi.
  - assert (i = 0) as -> by lia. cbn. rewrite !Z.div_1_r, Z.mod_mod by lia. reflexivity.
  - assert (H : i = 0 \/ i = 1) by lia. destruct H as [-> | ->]; cbn; lia.
  - assert (H : i = 0 \/ i = 1 \/ i = 2 \/ i = 3) by lia.
    destruct H as [-> | [-> | [-> | ->]]]; cbn; lia.
Qed.
Lemma wr_m_low E base w r v a : flat E base a -> width w -> rm_ok r ->
  same (wr_m base w r v a) (wr_rm w r (low w v) a).
Proof.
  intros F Hw Hr. destruct r as [n|sg o].
  - cbn [wr_m wr_rm]. rewrite with_reg_setf by (auto using low_range). change (low w v) with (wrap w v).
    rewrite setf_wrap by (apply wpos; auto). apply same_refl.
  - cbn [wr_m wr_rm]. destruct Hr as [Hs Ho]. destruct (lin_ok w sg o Hw Hs Ho).
    eapply same_trans; [apply smem_low; auto|].
    eapply same_smem; eauto. apply same_refl.
Qed.
Lemma wr_m_gen E base w r v a b : flat E base a -> width w -> rm_ok r -> same a b ->
  same (wr_m base w r v a) (wr_rm w r (low w v) b).
Proof. intros F Hw Hr H. eapply same_trans; [eapply wr_m_low; eauto|]. apply same_wr_rm, H. Qed.
Lemma wr_m_ip base w r v a : r_ip (wr_m base w r v a) = r_ip a.
Proof. destruct r; reflexivity. Qed.
Lemma rd_rm_range' E base a w r : flat E base a -> width w -> rm_ok r -> inrange w (rd_rm w r a).
Proof. intros. eapply rd_rm_range; eauto. Qed.

(** Opcodes that encode a register in their low three bits. *)
Ltac regop lo op t :=
  let z := fresh "z" in let Hz := fresh "Hz" in
  replace op with (lo + (op - lo)) at 1 by lia;
  assert (Hz : 0 <= op - lo < 8) by lia; revert Hz; generalize (op - lo); intros z Hz; pattern z;
  apply eight; [reflexivity..|exact Hz].

(** Closing [same] goals between model and specification updates. *)
Lemma same_wr_m_reg E base a b w n v : flat E base a -> width w -> 0 <= n < 8 -> inrange w v -> same a b ->
  same (wr_m base w (RReg n) v a) (with_reg w n v b).
Proof. intros. change (with_reg w n v b) with (wr_rm w (RReg n) v b). eapply same_wr_m; eauto. Qed.
Lemma same_wr_m_mem E base a b w sg o v : flat E base a -> width w -> inrange 16 sg -> inrange 16 o ->
  inrange w v -> same a b ->
  same (wr_m base w (RMem sg o) v a) (with_mem w (lin sg o) v b).
Proof. intros. change (with_mem w (lin sg o) v b) with (wr_rm w (RMem sg o) v b). eapply same_wr_m; eauto. split; auto. Qed.
Lemma mem_lin_range E base a w sg o : flat E base a -> width w -> inrange 16 sg -> inrange 16 o ->
  inrange w (mem w a (lin sg o)).
Proof. intros F Hw Hs Ho. destruct (lin_ok w sg o Hw Hs Ho). eapply mem_range; eauto. Qed.
Lemma same_with_reg_low a b w n v : inrange w v -> same a b ->
  same (with_reg w n (low w v) a) (with_reg w n v b).
Proof. intros Hv H. rewrite low_id by exact Hv. apply same_with_reg, H. Qed.
Lemma inrange_osz w v p : w = 8 \/ w = 16 -> inrange w v -> inrange (osz p) v.
Proof. unfold inrange, osz. intros [-> | ->] H; destruct (p_os p); cbn in *; lia. Qed.
#[export] Hint Extern 3 (inrange _ (rd_rm _ _ _)) => eapply rd_rm_range' : wf.
#[export] Hint Extern 3 (inrange _ (mem _ _ (lin _ _))) => eapply mem_lin_range : wf.
#[export] Hint Extern 3 (inrange _ (sreg _ _)) => apply sreg_range : wf.
#[export] Hint Extern 3 (0 <= _ < 8) => lia : wf.
Lemma wsreg_ip n v a : r_ip (with_sreg n v a) = r_ip a.
Proof. unfold with_sreg. repeat (match goal with |- context [match ?x with _ => _ end] => destruct x end); reflexivity. Qed.
Section Fetches.
Context (E : env) (base : Z) {Y : Type}.
Lemma st_get_modrm (k : modrm -> M Y) a p off g n l b t : flat E base a -> wf_regs a ->
  code_from a off (b :: t) ->
  bind (get_modrm E) k (mkSt a (dec_of p off) g n l) =
  k (modrm_of b) (mkSt a (dec_of p (off + 1)) g n l).
Proof. intros. erewrite bind_ok by (eapply get_modrm_code; eauto). reflexivity. Qed.
Lemma st_get_modrm_nocheck (k : modrm -> M Y) a p off g n l b t : flat E base a -> wf_regs a ->
  code_from a off (b :: t) ->
  bind (get_modrm_nocheck E) k (mkSt a (dec_of p off) g n l) =
  k (modrm_of b) (mkSt a (dec_of p (off + 1)) g n l).
Proof.
  intros. erewrite bind_ok; [reflexivity|]. unfold get_modrm_nocheck.
  erewrite get_modrm_code; eauto.
Qed.
Lemma st_peek8 (k : Z -> M Y) a p off g n l b t : flat E base a -> wf_regs a ->
  code_from a off (b :: t) ->
  bind (peek8 E) k (mkSt a (dec_of p off) g n l) = k b (mkSt a (dec_of p off) g n l).
Proof.
  intros. unfold peek8. rewrite st_bind. erewrite (st_fetch8 E base) by eauto.
  rewrite st_bind, st_upd_dc, st_ret. unfold dd_ipoff. cbn [d_seg d_rep d_op d_addr d_noip d_ipoff dec_of].
  unfold dec_of. do 4 f_equal. lia.
Qed.
Lemma rm_mem_mod3 p a b t rg sg o rest : parse_rm p a (b :: t) = Some (rg, RMem sg o, rest) -> b / 64 <> 3.
Proof. cbn [parse_rm]. destruct (Z.eqb_spec (b / 64) 3); [discriminate|]. auto. Qed.
Lemma st_get_mmm (k : Z * Z -> M Y) a p off g n l b t rg sg o rest : flat E base a -> wf_regs a ->
  pfx_ok p -> 0 <= b < 256 -> code_from a off t ->
  parse_rm p a (b :: t) = Some (rg, RMem sg o, rest) -> ea_supported p a (b :: t) ->
  bind (get_mmm E (modrm_of b)) k (mkSt a (dec_of p off) g n l) =
  k (sg, o) (mkSt a (dec_of p (off + (blen t - blen rest))) g n l).
Proof.
  intros F W Hp Hb C Hr Hs. pose proof (rm_mem_mod3 _ _ _ _ _ _ _ _ Hr) as H3.
  erewrite bind_ok by (eapply get_mmm_rm; eauto). reflexivity.
Qed.
End Fetches.

Ltac blia := rewrite ?blen_cons; change (blen []) with 0; lia.
